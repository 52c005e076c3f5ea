(* compute_normals *)
From Coq Require Import String List Arith ZArith Lia Reals Lra Bool Permutation SpecFloat.
From Flocq Require Import Core BinarySingleNaN.
From Verif Require Import Base MathModel MathSpec SegModel SegSpec VoxModel VoxSpec FloatReal F64Real NormModel NormSpec NormProofs NormProofs2 NormFloat ConvProofs4.
Import ListNotations.
Open Scope R_scope.

Lemma Forall2_entries {A B} (f : A -> res B) l l' : Forall2 (fun a b => f a = Ok b) l l' ->
  length l' = length l /\ forall i a b, nth_error l i = Some a -> nth_error l' i = Some b -> f a = Ok b.
Proof.
  induction 1 as [|a b l l' E H (L & IH)]; [split; auto; intros [|i] p r X; discriminate|]. split; [cbn; congruence|]. intros [|i] p r X Y; cbn in X, Y; [congruence|eauto].
Qed.
Lemma normals_entry T (o : nops T) nearest ps k out : compute_normals o nearest ps k = Ok out ->
  (3 <= length ps)%nat /\ (3 <= k)%nat /\ length out = length ps /\ forall i p r, nth_error ps i = Some p -> nth_error out i = Some r -> normal_estimation o (nearest ps p k) = Ok r.
Proof.
  unfold compute_normals. intros H. destruct (Nat.ltb_spec (length ps) 3); [discriminate|]. cbn [assert negb bind] in H. destruct (Nat.ltb_spec k 3); [discriminate|]. cbn [assert negb bind] in H.
  apply mapM_ok in H. apply Forall2_entries in H. destruct H as (L & H). auto.
Qed.
Lemma few T (o : nops T) nearest ps k : (length ps < 3)%nat \/ (k < 3)%nat -> compute_normals o nearest ps k = Panic.
Proof.
  unfold compute_normals. intros [H|H]; [destruct (Nat.ltb_spec (length ps) 3); [reflexivity|lia]|]. destruct (Nat.ltb_spec (length ps) 3); [reflexivity|]. cbn [assert negb bind]. destruct (Nat.ltb_spec k 3); [reflexivity|lia].
Qed.
Lemma normals_some T (o : nops T) nearest ps k : (3 <= length ps)%nat -> (3 <= k)%nat -> (forall p, In p ps -> exists r, normal_estimation o (nearest ps p k) = Ok r) -> exists out, compute_normals o nearest ps k = Ok out.
Proof.
  intros A B H. unfold compute_normals. destruct (Nat.ltb_spec (length ps) 3); [lia|]. cbn [assert negb bind]. destruct (Nat.ltb_spec k 3); [lia|]. cbn [assert negb bind]. now apply mapM_all.
Qed.
Lemma exact_some nearest ps k : finds_neighbours nearest -> (3 <= length ps)%nat -> (3 <= k)%nat -> exists out, compute_normals r_nops nearest ps k = Ok out.
Proof.
  intros F A B. apply normals_some; auto. intros p Hp. destruct (F ps p k Hp) as (_ & L). destruct (estimation_some (nearest ps p k)) as (c & E); [rewrite L; lia|]. eauto.
Qed.
Lemma pow_bpow n : 2 ^ n = bpow radix2 (Z.of_nat n).
Proof. rewrite bpow_powerRZ. apply pow_powerRZ. Qed.
Lemma f64_some atan2 cos sin nearest ps k : libm_ok atan2 cos sin -> finds_neighbours nearest -> (3 <= length ps)%nat -> (3 <= k)%nat -> (Z.of_nat k <= 2 ^ 32)%Z ->
  (forall p, In p ps -> point_within (2 ^ 64) p) ->
  exists out, compute_normals (f64_nops atan2 cos sin) nearest ps k = Ok out /\
    forall i p n c, nth_error ps i = Some p -> nth_error out i = Some (n, c) -> (spread (/ 2 ^ 400) (nearest ps p k) -> finite_point n) /\ c <> S754_nan.
Proof.
  intros LM F A B K H. assert (E : 2 ^ 64 = bpow radix2 64) by (apply (pow_bpow 64)).
  assert (X : forall p, In p ps -> exists n c, normal_estimation (f64_nops atan2 cos sin) (nearest ps p k) = Ok (n, c) /\ (spread (bpow radix2 (-400)) (nearest ps p k) -> PW 1 n) /\ c <> S754_nan).
  { intros p Hp. destruct (F ps p k Hp) as (I & L). apply estimation_bound; auto; [|rewrite L; lia|rewrite L; lia]. apply Forall_forall. intros q Hq. specialize (H q (I q Hq)). unfold point_within in H. rewrite E in H. exact H. }
  destruct (normals_some _ (f64_nops atan2 cos sin) nearest ps k A B) as (out & O). { intros p Hp. destruct (X p Hp) as (n & c & Y & _). eauto. }
  exists out. split; auto. intros i p n c P Q. destruct (normals_entry _ _ _ _ _ _ O) as (_ & _ & _ & EN). pose proof (EN i p (n, c) P Q) as N. destruct (X p (nth_error_In _ _ P)) as (n' & c' & Y & S & C).
  rewrite N in Y. inversion Y; subst n' c'. split; auto. intros SP. assert (E4 : / 2 ^ 400 = bpow radix2 (-400)). { change (-400)%Z with (- (400))%Z. rewrite bpow_opp. f_equal. apply (pow_bpow 400). }
  rewrite E4 in SP. destruct (S SP) as (((U & _) & _) & ((V & _) & _) & ((W & _) & _)). split; auto.
Qed.

(* ------------------------------------------------------------------ order of the neighbours *)

Lemma sum_perm l l' : Permutation l l' -> sum l = sum l'.
Proof. unfold sum. induction 1; cbn [fold_right]; lra. Qed.
Lemma covariance_perm ps qs : Permutation ps qs -> covariance_matrix ps = covariance_matrix qs.
Proof.
  intros P. assert (M : forall f, mean f ps = mean f qs) by (intros f; unfold mean; now rewrite (Permutation_length P), (sum_perm _ _ (Permutation_map f P))).
  assert (C : forall f g, covariance f g ps = covariance f g qs).
  { intros f g. unfold covariance. rewrite (M f), (M g). apply sum_perm. now apply Permutation_map. }
  unfold covariance_matrix. cbv zeta. now rewrite !C.
Qed.
Lemma coplanar_perm ps qs : Permutation ps qs -> coplanar ps <-> coplanar qs.
Proof. intros P. rewrite !coplanar_singular. now rewrite (covariance_perm ps qs P). Qed.

(* ------------------------------------------------------------------ witnesses *)

Definition v3 (x y z : R) : p3 R := mk_p3 x y z.
Definition eight : list (p3 R) := [v3 1 1 0; v3 (-1) (-1) 0; v3 0 1 1; v3 0 (-1) (-1); v3 1 0 0; v3 (-1) 0 0; v3 0 0 1; v3 0 0 (-1)].
Definition six : list (p3 R) := [v3 1 0 0; v3 (-1) 0 0; v3 0 1 0; v3 0 (-1) 0; v3 0 0 1; v3 0 0 (-1)].
Lemma eight_covariance : covariance_matrix eight = mk_p3 (v3 4 2 0) (v3 2 4 2) (v3 0 2 4).
Proof.
  assert (M : mean (@px R) eight = 0 /\ mean (@py R) eight = 0 /\ mean (@pz R) eight = 0).
  { unfold mean. cbn [eight map sum fold_right v3 px py pz length INR]. repeat split; field. }
  destruct M as (M1 & M2 & M3). unfold covariance_matrix, covariance. cbv zeta. rewrite M1, M2, M3. cbn [eight map sum fold_right v3 px py pz]. unfold v3. f_equal; f_equal; ring.
Qed.
Lemma six_covariance : covariance_matrix six = mk_p3 (v3 2 0 0) (v3 0 2 0) (v3 0 0 2).
Proof.
  assert (M : mean (@px R) six = 0 /\ mean (@py R) six = 0 /\ mean (@pz R) six = 0).
  { unfold mean. cbn [six map sum fold_right v3 px py pz length INR]. repeat split; field. }
  destruct M as (M1 & M2 & M3). unfold covariance_matrix, covariance. cbv zeta. rewrite M1, M2, M3. cbn [six map sum fold_right v3 px py pz]. unfold v3. f_equal; f_equal; ring.
Qed.
Lemma eight_normal qs n c : Permutation qs eight -> normal_estimation r_nops qs = Ok (n, c) -> ~ coplanar qs /\ n <> zero3 /\ ~ eigenvector (covariance_matrix qs) n.
Proof.
  intros P E. destruct (estimation_normal _ _ _ E) as (_ & ->). pose proof (covariance_perm _ _ P) as CM. rewrite eight_covariance in CM.
  assert (NC : ~ coplanar qs). { rewrite coplanar_singular, CM. unfold det, v3. cbn [px py pz]. lra. }
  destruct (normal_axis qs NC) as (N0 & AX). split; auto. split; auto. intros EV. specialize (AX EV). destruct (normal_cases qs) as (k & C & _). rewrite CM in C. rewrite !cross_def in C. unfold v3 in C. cbn [px py pz] in C.
  assert (K : k <> 0). { intros ->. apply N0. destruct C as [-> |[-> | ->]]; unfold times, zero3; cbn [px py pz]; f_equal; ring. }
  destruct C as [C|[C|C]]; rewrite C in AX; unfold times, on_axis in AX; cbn [px py pz] in AX; lra.
Qed.
Lemma six_curvature qs n c : Permutation qs six -> normal_estimation r_nops qs = Ok (n, c) -> c = 2 / 3 /\ forall k, surface_variation (covariance_matrix qs) k <-> k = 1 / 3.
Proof.
  intros P E. pose proof (covariance_perm _ _ P) as CM. rewrite six_covariance in CM. set (m := mk_p3 (v3 2 0 0) (v3 0 2 0) (v3 0 0 2)) in *.
  assert (EV : forall l, eigenvalue m l <-> l = 2).
  { intros l. unfold eigenvalue, m, det, shifted, v3. cbn [px py pz]. split; [|intros ->; ring]. intros H. assert (Z : (2 - l) * ((2 - l) * (2 - l)) = 0) by lra. apply Rmult_integral in Z. destruct Z as [Z|Z]; [lra|]. apply Rmult_integral in Z. lra. }
  assert (TR : trace m = 6) by (unfold trace, m, v3; cbn [px py pz]; ring). split.
  - assert (D : / 2 ^ 52 <= Rabs (det (covariance_matrix qs))).
    { rewrite CM. replace (det m) with 8 by (unfold det, m, v3; cbn [px py pz]; ring). rewrite Rabs_right by lra. apply Rle_trans with 1; [|lra]. replace 1 with (/ 1) by lra. apply Rinv_le_contravar; [lra|]. apply pow_R1_Rle. lra. }
    destruct (regular_curvature _ _ _ D E) as (l & s & (L & _) & _ & (SX & SM) & _ & ->). rewrite CM in *. apply EV in L. subst l. rewrite TR.
    assert (s = 2). { unfold m, v3 in SX, SM. cbn [px py pz] in SX, SM. destruct SX as (x & Hx & ->). pose proof (SM 2 ltac:(cbn; auto)) as G. rewrite (Rabs_right 2) in G by lra.
      assert (x = 2 \/ x = 0) as [-> | ->] by (cbn [In] in Hx; lra); [apply Rabs_right; lra|rewrite Rabs_R0 in G; lra]. }
    subst s. lra.
  - intros k. rewrite CM. unfold surface_variation, smallest_eigenvalue. rewrite TR. split.
    + intros (l & (L & _) & ->). apply EV in L. subst l. lra.
    + intros ->. exists 2. split; [split; [now apply EV|intros k K; apply EV in K; lra]|lra].
Qed.
