(* Examples for RANSAC in f64 arithmetic. *)
From Coq Require Import List ZArith Reals Lia Lra SpecFloat Psatz.
From Flocq Require Import Core.
From Verif Require Import Base LayoutModel BufferModel BufferSpec TraitModel MathModel MathSpec SegModel SegSpec SegExamples LasGridSpec VoxSpec F64Real NormSpec NormFloat LasFloat TilesBoxSpec HullModel HullSpec HullExamples HullFloatSpec HullFloatExamples SegFloatSpec.
Import ListNotations.
Open Scope nat_scope.

Lemma proper_cross (a b c : p3 R) : cross3 (minus3 b a) (minus3 c a) <> mk_p3 0%R 0%R 0%R -> not_collinear a b c.
Proof.
  intros H l (_ & (t & A1 & A2 & A3) & (u & B1 & B2 & B3) & (v & C1 & C2 & C3)). apply H. unfold cross3, minus3. cbn [px py pz]. rewrite A1, A2, A3, B1, B2, B3, C1, C2, C3. f_equal; ring.
Qed.
Lemma half_real : real_f64 g_half /\ (0 < number g_half)%R.
Proof. split; [split; [exact I|right; vm_compute; repeat split; discriminate]|]. unfold number, g_half. apply (F2R_gt_0 radix2 (Float radix2 (Z.pos (2 ^ 52)) (-53))). reflexivity. Qed.
(* the eight points of HullExamples.solid, two samples for planes and two for lines *)
Lemma solid_samples3 : Forall2 (sample3 (bf_len (cloud solid))) [[0; 0; 1; 2]; [3; 1; 3; 0]] [(0, 1, 2); (3, 1, 0)].
Proof.
  repeat constructor.
  - exists [0], []. vm_compute. repeat split; auto; try lia; repeat constructor.
  - exists [], [3]. vm_compute. repeat split; auto; try lia; repeat constructor.
Qed.
Lemma solid_samples2 : Forall2 (sample2 (bf_len (cloud solid))) [[0; 0; 1]; [2; 3]] [(0, 1); (2, 3)].
Proof.
  repeat constructor.
  - exists [0]. vm_compute. repeat split; auto; try lia; repeat constructor.
  - exists []. vm_compute. repeat split; auto; try lia; repeat constructor.
Qed.
Lemma solid_proper3 : Forall (proper3 (map TilesBoxSpec.real_point (points3 (cloud solid) g_pos))) [(0, 1, 2); (3, 1, 0)].
Proof.
  rewrite solid_reals. repeat constructor; cbn [proper3 point map nth solid]; apply proper_cross; unfold cross3, minus3, HullExamples.real_point; cbn [px py pz]; intros X; injection X; intros; lra.
Qed.
Lemma solid_proper2 : Forall (proper2 (map TilesBoxSpec.real_point (points3 (cloud solid) g_pos))) [(0, 1); (2, 3)].
Proof.
  rewrite solid_reals. repeat constructor; cbn [proper2 point map nth solid]; unfold HullExamples.real_point; intros X; injection X; intros; lra.
Qed.

(* three points of a line, and a point twice *)
Definition straight : list (Z * Z * Z) := [(0, 0, 0); (1, 1, 1); (2, 2, 2)]%Z.
Definition twice : list (Z * Z * Z) := [(1, 2, 3); (1, 2, 3)]%Z.
Lemma straight_grid : Forall (grid_point 0) (points3 (cloud straight) g_pos).
Proof. replace (points3 (cloud straight) g_pos) with (map float_point straight) by (vm_compute; reflexivity). apply Forall_map. unfold straight. repeat (constructor; [apply float_grid; cbn; lia|]). constructor. Qed.
Lemma twice_grid : Forall (grid_point 0) (points3 (cloud twice) g_pos).
Proof. replace (points3 (cloud twice) g_pos) with (map float_point twice) by (vm_compute; reflexivity). apply Forall_map. unfold twice. repeat (constructor; [apply float_grid; cbn; lia|]). constructor. Qed.
Lemma straight_result : match ransac_plane_serial (cloud straight) g_half 1 [0; 1; 2] with Some (Ok h) => h_inliers h = [] | _ => False end.
Proof. vm_compute. reflexivity. Qed.
Lemma twice_result : match ransac_line_serial (cloud twice) g_half 1 [0; 1] with Some (Ok h) => h_inliers h = [] | _ => False end.
Proof. vm_compute. reflexivity. Qed.
Lemma sample_012 n : 3 <= n -> sample3 n [0; 1; 2] (0, 1, 2).
Proof. intros H. exists [], []. repeat split; auto; lia. Qed.
Lemma sample_01 n : 2 <= n -> sample2 n [0; 1] (0, 1).
Proof. intros H. exists []. repeat split; auto; lia. Qed.
Lemma collinear_fails : exists b m e thr run t h, has_positions b m /\ Forall (grid_point e) (points3 b m) /\ real_f64 thr /\ (0 < number thr)%R /\ sample3 (bf_len b) run t
  /\ ransac_plane_serial b thr 1 run = Some (Ok h) /\ ~ incl (three t) (h_inliers h).
Proof.
  pose proof straight_result as R. destruct (ransac_plane_serial (cloud straight) g_half 1 [0; 1; 2]) as [[h| |]|] eqn:E; try contradiction.
  exists (cloud straight), g_pos, 0%Z, g_half, [0; 1; 2], (0, 1, 2), h. split; [apply cloud_positions|]. split; [exact straight_grid|]. split; [apply half_real|]. split; [apply half_real|].
  split; [apply sample_012; vm_compute; lia|]. split; [exact E|]. rewrite R. intros X. exact (X 0 (or_introl eq_refl)).
Qed.
Lemma duplicate_fails : exists b m e thr run t h, has_positions b m /\ Forall (grid_point e) (points3 b m) /\ real_f64 thr /\ (0 < number thr)%R /\ sample2 (bf_len b) run t
  /\ ransac_line_serial b thr 1 run = Some (Ok h) /\ ~ incl (two t) (h_inliers h).
Proof.
  pose proof twice_result as R. destruct (ransac_line_serial (cloud twice) g_half 1 [0; 1]) as [[h| |]|] eqn:E; try contradiction.
  exists (cloud twice), g_pos, 0%Z, g_half, [0; 1], (0, 1), h. split; [apply cloud_positions|]. split; [exact twice_grid|]. split; [apply half_real|]. split; [apply half_real|].
  split; [apply sample_01; vm_compute; lia|]. split; [exact E|]. rewrite R. intros X. exact (X 0 (or_introl eq_refl)).
Qed.

(* points far from the origin: the sampled plane misses one of them by more than half a unit *)
Definition distant : list (Z * Z * Z) := [(1011407225261664, 917331431516346, 4199275713821); (1011407225261691, 917331431516327, 4199275713905); (1011407225261675, 917331431516340, 4199275713865)]%Z.
Lemma distant_result : match ransac_plane_serial (cloud distant) g_half 1 [0; 1; 2] with Some (Ok h) => h_inliers h = [0; 2] | _ => False end.
Proof. vm_compute. reflexivity. Qed.
Lemma int_reals l : points3 (cloud l) g_pos = map float_point l -> Forall (fun t => let '(x, y, z) := t in Z.abs x <= 2 ^ 53 /\ Z.abs y <= 2 ^ 53 /\ Z.abs z <= 2 ^ 53)%Z l ->
  map TilesBoxSpec.real_point (points3 (cloud l) g_pos) = map HullExamples.real_point l.
Proof.
  intros -> F. rewrite map_map. apply map_ext_in. intros ((x, y), z) H. apply (proj1 (Forall_forall _ _) F) in H. cbn in H.
  unfold TilesBoxSpec.real_point, HullExamples.real_point, float_point. cbn [px py pz]. f_equal; change number with val; apply of_int; lia.
Qed.
Lemma distant_reals : map TilesBoxSpec.real_point (points3 (cloud distant) g_pos) = map HullExamples.real_point distant.
Proof. apply int_reals; [vm_compute; reflexivity|]. unfold distant. repeat constructor; lia. Qed.
Lemma distant_proper : proper3 (map TilesBoxSpec.real_point (points3 (cloud distant) g_pos)) (0, 1, 2).
Proof.
  rewrite distant_reals. cbn [proper3 point map nth distant]. apply proper_cross. unfold cross3, minus3, HullExamples.real_point. cbn [px py pz]. intros X. injection X. intros. lra.
Qed.
Lemma rounding_fails : exists b m thr run t h, has_positions b m /\ real_f64 thr /\ (0 < number thr)%R /\ sample3 (bf_len b) run t
  /\ proper3 (map TilesBoxSpec.real_point (points3 b m)) t /\ ransac_plane_serial b thr 1 run = Some (Ok h) /\ ~ incl (three t) (h_inliers h).
Proof.
  pose proof distant_result as R. destruct (ransac_plane_serial (cloud distant) g_half 1 [0; 1; 2]) as [[h| |]|] eqn:E; try contradiction.
  exists (cloud distant), g_pos, g_half, [0; 1; 2], (0, 1, 2), h. split; [apply cloud_positions|]. split; [apply half_real|]. split; [apply half_real|].
  split; [apply sample_012; vm_compute; lia|]. split; [exact distant_proper|]. split; [exact E|]. rewrite R. intros X. specialize (X 1 (or_intror (or_introl eq_refl))). destruct X as [X|[X|[]]]; discriminate.
Qed.

(* points of a survey in millimetres: the coordinates are not small multiples of a power of two *)
Definition survey : list (Z * Z * Z) := [(500000123, 5400000456, 300017); (500001123, 5400000461, 300020); (500000130, 5400001459, 300001); (500000700, 5400000700, 300800); (500000333, 5400000222, 300111)]%Z.
Lemma survey_reals : map TilesBoxSpec.real_point (points3 (cloud survey) g_pos) = map HullExamples.real_point survey.
Proof. apply int_reals; [vm_compute; reflexivity|]. unfold survey. repeat constructor; lia. Qed.
Lemma survey_below : Forall (below (bpow radix2 33)) (points3 (cloud survey) g_pos).
Proof.
  replace (points3 (cloud survey) g_pos) with (map float_point survey) by (vm_compute; reflexivity). apply Forall_map.
  assert (X : forall z, (Z.abs z <= 2 ^ 33)%Z -> real_f64 (SpecFloat.binary_normalize 53 1024 z 0 false) /\ (Rabs (number (SpecFloat.binary_normalize 53 1024 z 0 false)) <= bpow radix2 33)%R).
  { intros z H. destruct (of_int z ltac:(lia)) as (R & V). split; [exact R|]. change number with val. rewrite V, <- abs_IZR. change (bpow radix2 33) with (IZR (2 ^ 33)). now apply IZR_le. }
  unfold survey. repeat (constructor; [split; [|split]; apply X; vm_compute; discriminate|]). constructor.
Qed.
Lemma shaped_sq K (a b c : p3 R) : (0 <= K)%R -> let ab := minus3 b a in let ac := minus3 c a in let n := cross3 ab ac in
  (1 <= dot3 ab ab)%R -> (dot3 ab ab * dot3 ab ab <= K * K * dot3 n n)%R -> (dot3 ac ac * dot3 ac ac <= K * K * dot3 n n)%R -> well_shaped K a b c.
Proof.
  intros PK ab ac n H1 H2 H3. assert (N : (0 <= dot3 n n)%R) by (unfold dot3; nra). assert (S : forall x, (x * x <= K * K * dot3 n n -> x <= K * sqrt (dot3 n n))%R).
  { intros x X. apply Rsqr_incr_0_var; [|apply Rmult_le_pos; [exact PK|apply sqrt_pos]]. unfold Rsqr. replace (K * sqrt (dot3 n n) * (K * sqrt (dot3 n n)))%R with (K * K * (sqrt (dot3 n n) * sqrt (dot3 n n)))%R by ring. rewrite sqrt_sqrt; assumption. }
  unfold well_shaped. fold ab ac n. split; [now apply S|]. split; [now apply S|]. apply Rle_trans with 1%R; [|exact H1]. change 1%R with (bpow radix2 0). apply bpow_le. lia.
Qed.
Lemma survey_shaped : Forall (shaped3 4 (map TilesBoxSpec.real_point (points3 (cloud survey) g_pos))) [(0, 1, 2); (3, 1, 0)].
Proof.
  rewrite survey_reals. constructor; [|constructor; [|constructor]]; cbn [shaped3 point map nth survey]; apply shaped_sq; unfold dot3, cross3, minus3, HullExamples.real_point; cbn [px py pz]; lra.
Qed.
Lemma survey_apart : Forall (apart2 (map TilesBoxSpec.real_point (points3 (cloud survey) g_pos))) [(0, 1); (2, 3)].
Proof.
  rewrite survey_reals. assert (X : (bpow radix2 (-300) <= 1)%R) by (change 1%R with (bpow radix2 0); apply bpow_le; lia).
  constructor; [|constructor; [|constructor]]; cbn [apart2 point map nth survey]; unfold apart; apply (Rle_trans _ _ _ X); unfold dot3, minus3, HullExamples.real_point; cbn [px py pz]; lra.
Qed.
Lemma survey_samples3 : Forall2 (sample3 (bf_len (cloud survey))) [[0; 0; 1; 2]; [3; 1; 3; 0]] [(0, 1, 2); (3, 1, 0)].
Proof.
  repeat constructor.
  - exists [0], []. vm_compute. repeat split; auto; try lia; repeat constructor.
  - exists [], [3]. vm_compute. repeat split; auto; try lia; repeat constructor.
Qed.
Lemma survey_samples2 : Forall2 (sample2 (bf_len (cloud survey))) [[0; 0; 1]; [2; 3]] [(0, 1); (2, 3)].
Proof.
  repeat constructor.
  - exists [0]. vm_compute. repeat split; auto; try lia; repeat constructor.
  - exists []. vm_compute. repeat split; auto; try lia; repeat constructor.
Qed.
Lemma survey_threshold : (bpow radix2 (-44) * 4 * bpow radix2 33 < number g_half /\ bpow radix2 (-45) * bpow radix2 33 < number g_half)%R.
Proof.
  assert (H : number g_half = bpow radix2 (-1)).
  { replace (bpow radix2 (-1)) with (bpow radix2 52 * bpow radix2 (-53))%R by (rewrite <- bpow_plus; reflexivity). reflexivity. }
  rewrite H. change 4%R with (bpow radix2 2). rewrite <- !bpow_plus. split; apply bpow_lt; reflexivity.
Qed.
