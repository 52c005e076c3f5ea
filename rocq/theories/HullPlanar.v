(* The convex hull in exact arithmetic: distances to segments, and four points in a plane. *)
From Coq Require Import String List ZArith Lia Bool Arith Permutation Reals Lra Psatz.
From Verif Require Import Base ListLemmas MathModel SegModel SegSpec SegReal HullModel HullSpec HullReal.
Import ListNotations.
Open Scope R_scope.

(* ------------------------------------------------------------------ the distance to a segment *)

Lemma sq_sum_pos x y z : 0 <= x * x + y * y + z * z.
Proof. pose proof (Rle_0_sqr x). pose proof (Rle_0_sqr y). pose proof (Rle_0_sqr z). unfold Rsqr in *. lra. Qed.
Lemma segment_distance p a b : is_distance p (segment a b) (dist_point_to_line_segment r_hops p a b).
Proof.
  destruct p as [x y z], a as [ax ay az], b as [bx by_ bz]. unfold dist_point_to_line_segment, ge_, v_norm, v_dot, v_cross, v_sub. change (h_ops r_hops) with r_ops.
  change (o_add r_ops) with Rplus. change (o_mul r_ops) with Rmult. change (o_sub r_ops) with Rminus. change (o_div r_ops) with Rdiv. change (o_sqrt r_ops) with sqrt. change (h_le r_hops) with (fun x y => if Rle_dec x y then true else false). change (h_zero r_hops) with 0. cbv beta. cbn [px py pz].
  set (u := bx - ax). set (v := by_ - ay). set (w := bz - az). set (f := x - ax). set (g := y - ay). set (h := z - az). set (L := u * u + v * v + w * w). set (D := f * u + g * v + h * w).
  assert (PL : 0 <= L) by apply sq_sum_pos.
  assert (Q : forall q, segment (mk_p3 ax ay az) (mk_p3 bx by_ bz) q -> exists t, 0 <= t <= 1 /\ euclid (mk_p3 x y z) q = sqrt (f * f + g * g + h * h - 2 * t * D + t * t * L)).
  { intros q (t & T & E1 & E2 & E3). exists t. split; [exact T|]. unfold euclid. cbn [px py pz] in *. rewrite E1, E2, E3. f_equal. unfold D, L, f, g, h, u, v, w. ring. }
  destruct (Rle_dec D 0) as [D0|D0]; [|destruct (Rle_dec 0 ((x - bx) * u + (y - by_) * v + (z - bz) * w)) as [D1|D1]].
  - split.
    + intros q S. destruct (Q q S) as (t & T & ->). apply sqrt_le_1_alt. assert (0 <= t * - D) by (apply Rmult_le_pos; lra). assert (0 <= t * t * L) by (apply Rmult_le_pos; [apply Rmult_le_pos|]; lra). lra.
    + exists (mk_p3 ax ay az). split; [exists 0; cbn [px py pz]; repeat split; lra|reflexivity].
  - replace ((x - bx) * u + (y - by_) * v + (z - bz) * w) with (D - L) in D1 by (unfold D, L, f, g, h, u, v, w; ring). split.
    + intros q S. destruct (Q q S) as (t & T & ->). replace ((x - bx) * (x - bx) + (y - by_) * (y - by_) + (z - bz) * (z - bz)) with (f * f + g * g + h * h - 2 * D + L) by (unfold D, L, f, g, h, u, v, w; ring).
      apply sqrt_le_1_alt. assert (0 <= (1 - t) * (D - L)) by (apply Rmult_le_pos; lra). assert (0 <= (1 - t) * ((1 - t) * L)) by (repeat apply Rmult_le_pos; lra). lra.
    + exists (mk_p3 bx by_ bz). split; [exists 1; cbn [px py pz]; repeat split; lra|]. unfold euclid. cbn [px py pz]. reflexivity.
  - replace ((x - bx) * u + (y - by_) * v + (z - bz) * w) with (D - L) in D1 by (unfold D, L, f, g, h, u, v, w; ring). assert (LP : 0 < L) by lra. set (X := f * f + g * g + h * h).
    assert (E : sqrt ((v * h - w * g) * (v * h - w * g) + (w * f - u * h) * (w * f - u * h) + (u * g - v * f) * (u * g - v * f)) / sqrt L = sqrt (X - D * D / L)).
    { rewrite <- sqrt_div_alt by exact LP. f_equal. unfold X, D, L in *. field. lra. }
    rewrite E. split.
    + intros q S. destruct (Q q S) as (t & T & ->). fold X. apply sqrt_le_1_alt. replace (X - 2 * t * D + t * t * L) with (X - D * D / L + (t * L - D) * (t * L - D) / L) by (field; lra).
      assert (0 <= (t * L - D) * (t * L - D) / L); [|lra]. apply Rmult_le_pos; [apply Rle_0_sqr|]. apply Rlt_le, Rinv_0_lt_compat, LP.
    + exists (mk_p3 (ax + D / L * u) (ay + D / L * v) (az + D / L * w)). split.
      * exists (D / L). cbn [px py pz]. fold u v w. split; [|auto]. split; [apply Rmult_le_pos; [lra|apply Rlt_le, Rinv_0_lt_compat, LP]|]. apply (Rmult_le_reg_r L); [exact LP|]. unfold Rdiv. rewrite Rmult_assoc, Rinv_l by lra. lra.
      * unfold euclid. cbn [px py pz]. f_equal. replace (x - (ax + D / L * u)) with (f - D / L * u) by (unfold f; ring). replace (y - (ay + D / L * v)) with (g - D / L * v) by (unfold g; ring). replace (z - (az + D / L * w)) with (h - D / L * w) by (unfold h; ring).
        transitivity (X - 2 * (D / L) * D + D / L * (D / L) * L); [field; lra|]. unfold X. set (k := D / L). unfold D, L. ring.
Qed.

(* ------------------------------------------------------------------ decisions *)

Lemma ge_true x : 0 <= x -> ge_ r_hops x 0 = true.
Proof. intros H. unfold ge_, r_hops, h_le. destruct (Rle_dec 0 x); [reflexivity|contradiction]. Qed.
Lemma ge_false x : x < 0 -> ge_ r_hops x 0 = false.
Proof. intros H. unfold ge_, r_hops, h_le. destruct (Rle_dec 0 x); [lra|reflexivity]. Qed.
Lemma lt_true x : x < 0 -> o_lt r_ops x 0 = true.
Proof. intros H. unfold r_ops, o_lt. destruct (Rlt_dec x 0); [reflexivity|contradiction]. Qed.
Lemma lt_false x : 0 <= x -> o_lt r_ops x 0 = false.
Proof. intros H. unfold r_ops, o_lt. destruct (Rlt_dec x 0); [lra|reflexivity]. Qed.
Lemma gt_false x : x <= 0 -> gt_ r_hops x 0 = false.
Proof. intros H. unfold gt_. change (h_ops r_hops) with r_ops. unfold r_ops, o_lt. destruct (Rlt_dec 0 x); [lra|reflexivity]. Qed.

Ltac reals := change (h_ops r_hops) with r_ops; change (o_add r_ops) with Rplus; change (o_mul r_ops) with Rmult; change (o_sub r_ops) with Rminus; change (o_neg r_ops) with Ropp.

Lemma occ_opposite p ea eb n oa ob on : v_dot r_ops n on <= 0 -> occludes r_hops p ea eb n oa ob on = false.
Proof. intros H. unfold occludes. change (h_ops r_hops) with r_ops. change (h_zero r_hops) with 0. rewrite (gt_false _ H). reflexivity. Qed.
Lemma lt_of x y : x = y -> 0 <= y -> o_lt r_ops x 0 = false.
Proof. intros ->. apply lt_false. Qed.
Lemma gt_of x y : x = y -> y <= 0 -> gt_ r_hops x 0 = false.
Proof. intros ->. apply gt_false. Qed.
Lemma occ_after p a b c n : 0 < dist_point_to_edge r_hops p a b n -> occludes r_hops p a b n b c n = false.
Proof.
  intros H. unfold occludes. change (h_ops r_hops) with r_ops. change (h_zero r_hops) with 0. destruct (gt_ r_hops (v_dot r_ops n n) 0); [|reflexivity]. cbv zeta.
  rewrite (lt_of (v_dot r_ops (v_cross r_ops n (v_sub r_ops b p)) (v_sub r_ops a b)) (dist_point_to_edge r_hops p a b n)); [|unfold dist_point_to_edge, v_dot, v_cross, v_sub; reals; cbn [px py pz]; ring|lra].
  rewrite (lt_of (v_dot r_ops (v_cross r_ops n (v_sub r_ops b p)) (v_sub r_ops b b)) 0); [|unfold v_dot, v_cross, v_sub; reals; cbn [px py pz]; ring|lra]. reflexivity.
Qed.
Lemma occ_before p a b c n : 0 < dist_point_to_edge r_hops p b c n -> occludes r_hops p b c n a b n = false.
Proof.
  intros H. unfold occludes. change (h_ops r_hops) with r_ops. change (h_zero r_hops) with 0. destruct (gt_ r_hops (v_dot r_ops n n) 0); [|reflexivity]. cbv zeta.
  rewrite (gt_of (v_dot r_ops (v_cross r_ops n (v_sub r_ops b p)) (v_sub r_ops c b)) (- dist_point_to_edge r_hops p b c n)); [|unfold dist_point_to_edge, v_dot, v_cross, v_sub; reals; cbn [px py pz]; ring|lra].
  rewrite (gt_of (v_dot r_ops (v_cross r_ops n (v_sub r_ops b p)) (v_sub r_ops b b)) 0); [|unfold v_dot, v_cross, v_sub; reals; cbn [px py pz]; ring|lra].
  rewrite !andb_false_r. reflexivity.
Qed.

(* ------------------------------------------------------------------ four points in a plane *)

Section Four.
Variables (a b c p : p3 R) (r s t : R).
Let n := calc_normal r_hops a b c.
Let N := v_dot r_ops n n.
Hypothesis NP : 0 < N.
Hypothesis RST : r + s + t = 1.
Hypothesis HP : p = mk_p3 (r * px a + s * px b + t * px c) (r * py a + s * py b + t * py c) (r * pz a + s * pz b + t * pz c).
Let pos (i : nat) := vec_at [a; b; c; p] i.
Let start := [mk_tri 0 1 2 n; mk_tri 0 2 1 (v_neg r_hops n)].

Ltac geom := replace r with (1 - s - t) in * by lra; unfold dist_point_to_edge, N, n, calc_normal, v_neg, v_dot, v_cross, v_sub; reals; rewrite HP; cbn [px py pz]; ring.
Lemma d_ab : dist_point_to_edge r_hops p a b n = - (t * N). Proof. geom. Qed.
Lemma d_bc : dist_point_to_edge r_hops p b c n = - (r * N). Proof. geom. Qed.
Lemma d_ca : dist_point_to_edge r_hops p c a n = - (s * N). Proof. geom. Qed.
Lemma d_ac : dist_point_to_edge r_hops p a c (v_neg r_hops n) = - (s * N). Proof. geom. Qed.
Lemma d_cb : dist_point_to_edge r_hops p c b (v_neg r_hops n) = - (r * N). Proof. geom. Qed.
Lemma d_ba : dist_point_to_edge r_hops p b a (v_neg r_hops n) = - (t * N). Proof. geom. Qed.
Lemma flat_1 : v_dot r_ops (v_sub r_ops a p) n = 0. Proof. geom. Qed.
Lemma flat_2 : v_dot r_ops (v_sub r_ops a p) (v_neg r_hops n) = 0. Proof. geom. Qed.
Lemma opp_1 : v_dot r_ops n (v_neg r_hops n) <= 0.
Proof. replace (v_dot r_ops n (v_neg r_hops n)) with (- N); [lra|]. unfold N, v_neg, v_dot. reals. cbn [px py pz]. ring. Qed.
Lemma opp_2 : v_dot r_ops (v_neg r_hops n) n <= 0.
Proof. replace (v_dot r_ops (v_neg r_hops n) n) with (- N); [lra|]. unfold N, v_neg, v_dot. reals. cbn [px py pz]. ring. Qed.
Lemma neg_pos x : x < 0 -> 0 < - (x * N).
Proof. intros H. assert (0 < - x * N) by (apply Rmult_lt_0_compat; lra). lra. Qed.
Lemma pos_neg x : 0 < x -> - (x * N) < 0.
Proof. intros H. assert (0 < x * N) by (apply Rmult_lt_0_compat; lra). lra. Qed.

Lemma eq_zero : h_eq r_hops 0 0 = true.
Proof. unfold r_hops, h_eq. destruct (Req_EM_T 0 0); [reflexivity|contradiction]. Qed.
Lemma fourth order : iteration r_hops pos order start 3 p = grow_planar r_hops pos 3 p start start.
Proof.
  unfold iteration, start. cbn [Nat.eqb]. unfold retain. cbn [foldM]. unfold retain_step at 1. cbn [t_a t_n]. change (pos 0%nat) with (Ok a). cbn [bind]. change (h_ops r_hops) with r_ops. change (h_zero r_hops) with 0. rewrite flat_1, lt_false by lra. rewrite eq_zero. cbn [bind vi_kept vi_edges vi_planar app].
  unfold retain_step. cbn [t_a t_n]. change (pos 0%nat) with (Ok a). cbn [bind]. change (h_ops r_hops) with r_ops. change (h_zero r_hops) with 0. rewrite flat_2, lt_false by lra. rewrite eq_zero. cbn [bind vi_kept vi_edges vi_planar app]. reflexivity.
Qed.
Ltac look := unfold start; cbn [facing t_a t_b t_c t_n]; change (pos 0%nat) with (Ok a); change (pos 1%nat) with (Ok b); change (pos 2%nat) with (Ok c); cbn [bind]; change (h_ops r_hops) with r_ops; change (h_zero r_hops) with 0;
  rewrite ?d_ab, ?d_bc, ?d_ca, ?d_ac, ?d_cb, ?d_ba; unfold add_facing; change (h_zero r_hops) with 0.
Ltac see S T U := rewrite ?(ge_true (- (S * N))), ?(lt_false (- (S * N))) by (apply Rlt_le, neg_pos; assumption); rewrite ?(ge_false (- (T * N))), ?(lt_true (- (T * N))), ?(ge_false (- (U * N))), ?(lt_true (- (U * N))) by (apply pos_neg; assumption).
Lemma inside : 0 < r -> 0 < s -> 0 < t -> grow_planar r_hops pos 3 p start start = Ok start.
Proof.
  intros PR PS PT. unfold grow_planar. assert (F : exists ids, facing r_hops pos p 0 start [] [] = Ok ([], ids)).
  { look. rewrite !(ge_false (- (t * N))), !(ge_false (- (r * N))), !(ge_false (- (s * N))), !(lt_true (- (t * N))), !(lt_true (- (r * N))), !(lt_true (- (s * N))) by (apply pos_neg; assumption). cbn [fst snd app andb]. eexists. reflexivity. }
  destruct F as (ids & ->). cbn [bind length remove_occluded Nat.ltb Nat.leb]. reflexivity.
Qed.

Lemma remove_step planar edges ids i normals e ea eb id u : nth_error edges i = Some e -> pos (e_a e) = Ok ea -> pos (e_b e) = Ok eb -> nth_error ids i = Some id -> nth_error planar id = Some u ->
  occluded r_hops pos p planar edges ids i ea eb (t_n u) (seq 0 (length edges)) = Ok false ->
  remove_occluded r_hops pos p planar (S i) edges ids normals = remove_occluded r_hops pos p planar i edges ids (v_neg r_hops (t_n u) :: normals).
Proof.
  intros E EA EB EI ET OC. cbn [remove_occluded]. unfold vec_at. rewrite E. cbn [unwrap bind]. rewrite EA. cbn [bind]. rewrite EB. cbn [bind]. rewrite EI. cbn [unwrap bind]. rewrite ET. cbn [unwrap bind]. rewrite OC. reflexivity.
Qed.
Ltac others := cbn [length seq occluded Nat.eqb]; unfold vec_at; cbn [nth_error unwrap bind e_a e_b t_n start];
  change (pos 0%nat) with (Ok a); change (pos 1%nat) with (Ok b); change (pos 2%nat) with (Ok c); cbn [bind];
  repeat first [rewrite (occ_opposite _ _ _ _ _ _ _ opp_1) | rewrite (occ_opposite _ _ _ _ _ _ _ opp_2)
               | rewrite occ_after by (first [rewrite d_ab|rewrite d_bc|rewrite d_ca|rewrite d_ac|rewrite d_cb|rewrite d_ba]; apply neg_pos; assumption)
               | rewrite occ_before by (first [rewrite d_ab|rewrite d_bc|rewrite d_ca|rewrite d_ac|rewrite d_cb|rewrite d_ba]; apply neg_pos; assumption)]; reflexivity.
Ltac step := erewrite remove_step; [|reflexivity|reflexivity|reflexivity|reflexivity|reflexivity|others].
Lemma beyond_ab : t < 0 -> 0 < s -> 0 < r -> exists ts, grow_planar r_hops pos 3 p start start = Ok ts /\ indices ts = [(0, 1, 2); (0, 2, 1); (0, 1, 3); (1, 0, 3)]%nat.
Proof.
  intros PT PS PR. unfold grow_planar. assert (F : facing r_hops pos p 0 start [] [] = Ok ([mk_edge 0 1; mk_edge 1 0], [0; 1]%nat)). { look. see t s r. reflexivity. }
  rewrite F. cbn [bind length]. do 2 step. cbn [remove_occluded bind]. eexists. split; [reflexivity|reflexivity].
Qed.
Lemma beyond_ca : s < 0 -> 0 < t -> 0 < r -> exists ts, grow_planar r_hops pos 3 p start start = Ok ts /\ indices ts = [(0, 1, 2); (0, 2, 1); (2, 0, 3); (0, 2, 3)]%nat.
Proof.
  intros PS PT PR. unfold grow_planar. assert (F : facing r_hops pos p 0 start [] [] = Ok ([mk_edge 2 0; mk_edge 0 2], [0; 1]%nat)). { look. see s t r. reflexivity. }
  rewrite F. cbn [bind length]. do 2 step. cbn [remove_occluded bind]. eexists. split; [reflexivity|reflexivity].
Qed.
Lemma beyond_bc : r < 0 -> 0 < t -> 0 < s -> exists ts, grow_planar r_hops pos 3 p start start = Ok ts /\ indices ts = [(0, 1, 2); (0, 2, 1); (1, 2, 3); (2, 1, 3)]%nat.
Proof.
  intros PR PT PS. unfold grow_planar. assert (F : facing r_hops pos p 0 start [] [] = Ok ([mk_edge 1 2; mk_edge 2 1], [0; 1]%nat)). { look. see r t s. reflexivity. }
  rewrite F. cbn [bind length]. do 2 step. cbn [remove_occluded bind]. eexists. split; [reflexivity|reflexivity].
Qed.
Ltac see2 S T U := rewrite ?(ge_true (- (S * N))), ?(lt_false (- (S * N))), ?(ge_true (- (T * N))), ?(lt_false (- (T * N))) by (apply Rlt_le, neg_pos; assumption); rewrite ?(ge_false (- (U * N))), ?(lt_true (- (U * N))) by (apply pos_neg; assumption).
Lemma behind_a : s < 0 -> t < 0 -> exists ts, grow_planar r_hops pos 3 p start start = Ok ts /\ indices ts = [(1, 2, 3); (2, 1, 3)]%nat.
Proof.
  intros PS PT. assert (PR : 0 < r) by lra. unfold grow_planar. assert (F : facing r_hops pos p 0 start [] [] = Ok ([mk_edge 0 1; mk_edge 2 0; mk_edge 0 2; mk_edge 1 0], [0; 0; 1; 1]%nat)). { look. see2 s t r. reflexivity. }
  rewrite F. cbn [bind length]. do 4 step. cbn [remove_occluded bind]. eexists. split; reflexivity.
Qed.
Lemma behind_b : r < 0 -> t < 0 -> exists ts, grow_planar r_hops pos 3 p start start = Ok ts /\ indices ts = [(2, 0, 3); (0, 2, 3)]%nat.
Proof.
  intros PR PT. assert (PS : 0 < s) by lra. unfold grow_planar. assert (F : facing r_hops pos p 0 start [] [] = Ok ([mk_edge 0 1; mk_edge 1 2; mk_edge 2 1; mk_edge 1 0], [0; 0; 1; 1]%nat)). { look. see2 r t s. reflexivity. }
  rewrite F. cbn [bind length]. do 4 step. cbn [remove_occluded bind]. eexists. split; reflexivity.
Qed.
Lemma behind_c : r < 0 -> s < 0 -> exists ts, grow_planar r_hops pos 3 p start start = Ok ts /\ indices ts = [(0, 1, 3); (1, 0, 3)]%nat.
Proof.
  intros PR PS. assert (PT : 0 < t) by lra. unfold grow_planar. assert (F : facing r_hops pos p 0 start [] [] = Ok ([mk_edge 1 2; mk_edge 2 0; mk_edge 0 2; mk_edge 2 1], [0; 0; 1; 1]%nat)). { look. see2 r s t. reflexivity. }
  rewrite F. cbn [bind length]. do 4 step. cbn [remove_occluded bind]. eexists. split; reflexivity.
Qed.

(* which of the points are in the triangle of the others *)
Definition along (x y z : R) (q : p3 R) : Prop := px q = x * px a + y * px b + z * px c /\ py q = x * py a + y * py b + z * py c /\ pz q = x * pz a + y * pz b + z * pz c.
Lemma independent y z : y * (px b - px a) + z * (px c - px a) = 0 -> y * (py b - py a) + z * (py c - py a) = 0 -> y * (pz b - pz a) + z * (pz c - pz a) = 0 -> y = 0 /\ z = 0.
Proof.
  intros E1 E2 E3. assert (Z : forall k, k * N = 0 -> k = 0) by (intros k K; apply Rmult_integral in K; destruct K; lra).
  assert (C1 : forall x1 x2 x3 y1 y2 y3, x1 = 0 -> x2 = 0 -> x3 = 0 -> x1 * y1 + x2 * y2 + x3 * y3 = 0) by (intros; subst; ring).
  split; apply Z.
  - rewrite <- (C1 _ _ _ ((py c - py a) * pz n - (pz c - pz a) * py n) ((pz c - pz a) * px n - (px c - px a) * pz n) ((px c - px a) * py n - (py c - py a) * px n) E1 E2 E3).
    unfold N, n, calc_normal, v_dot, v_cross, v_sub. reals. cbn [px py pz]. ring.
  - rewrite <- (C1 _ _ _ (- ((py b - py a) * pz n - (pz b - pz a) * py n)) (- ((pz b - pz a) * px n - (px b - px a) * pz n)) (- ((px b - px a) * py n - (py b - py a) * px n)) E1 E2 E3).
    unfold N, n, calc_normal, v_dot, v_cross, v_sub. reals. cbn [px py pz]. ring.
Qed.
Lemma same_place x y z x' y' z' q : x + y + z = 1 -> x' + y' + z' = 1 -> along x y z q -> along x' y' z' q -> x = x' /\ y = y' /\ z = z'.
Proof.
  intros S1 S2 (A1 & A2 & A3) (B1 & B2 & B3). destruct (independent (y - y') (z - z')); [replace x with (1 - y - z) in * by lra; replace x' with (1 - y' - z') in * by lra; lra..|]. lra.
Qed.
Ltac place q := unfold along; rewrite ?HP; cbn [px py pz]; repeat split; ring.
Lemma p_inside : in_triangle a b c p <-> 0 <= r /\ 0 <= s /\ 0 <= t.
Proof.
  split.
  - intros (x & y & z & X & Y & Z & S & E). destruct (same_place x y z r s t p S RST E) as (-> & -> & ->); [place p|auto].
  - intros (X & Y & Z). exists r, s, t. rewrite HP at 1 2 3. cbn [px py pz]. repeat split; auto.
Qed.
Lemma combined x y z w q : along x y z q -> w = mk_p3 (px q) (py q) (pz q) -> along x y z w.
Proof. intros H ->. exact H. Qed.
Lemma a_inside : in_triangle b c p a <-> s <= 0 /\ t <= 0.
Proof.
  split.
  - intros (x & y & z & X & Y & Z & S & E1 & E2 & E3). rewrite HP in E1, E2, E3. cbn [px py pz] in *. destruct (same_place 1 0 0 (z * r) (x + z * s) (y + z * t) a) as (A & B & C); [lra|rewrite <- S; replace z with (z * (r + s + t)) at 4 by (rewrite RST; ring); ring|place a|unfold along; repeat split; lra|].
    assert (PZ : 0 < z) by (destruct Z as [Z|<-]; [exact Z|lra]). split; apply (Rmult_le_reg_l z); lra.
  - intros (Y & Z). assert (PR : 0 < r) by lra. exists (- s / r), (- t / r), (1 / r).
    assert (Q : forall k, 0 <= k -> 0 <= k / r) by (intros k K; apply Rmult_le_pos; [exact K|apply Rlt_le, Rinv_0_lt_compat, PR]).
    split; [apply Q; lra|]. split; [apply Q; lra|]. split; [apply Q; lra|]. split; [replace s with (1 - r - t) by lra; field; lra|]. rewrite HP. cbn [px py pz]. repeat split; field; lra.
Qed.
Lemma b_inside : in_triangle a c p b <-> r <= 0 /\ t <= 0.
Proof.
  split.
  - intros (x & y & z & X & Y & Z & S & E1 & E2 & E3). rewrite HP in E1, E2, E3. cbn [px py pz] in *. destruct (same_place 0 1 0 (x + z * r) (z * s) (y + z * t) b) as (A & B & C); [lra|rewrite <- S; replace z with (z * (r + s + t)) at 4 by (rewrite RST; ring); ring|place b|unfold along; repeat split; lra|].
    assert (PZ : 0 < z) by (destruct Z as [Z|<-]; [exact Z|lra]). split; apply (Rmult_le_reg_l z); lra.
  - intros (Y & Z). assert (PR : 0 < s) by lra. exists (- r / s), (- t / s), (1 / s).
    assert (Q : forall k, 0 <= k -> 0 <= k / s) by (intros k K; apply Rmult_le_pos; [exact K|apply Rlt_le, Rinv_0_lt_compat, PR]).
    split; [apply Q; lra|]. split; [apply Q; lra|]. split; [apply Q; lra|]. split; [replace r with (1 - s - t) by lra; field; lra|]. rewrite HP. cbn [px py pz]. repeat split; field; lra.
Qed.
Lemma c_inside : in_triangle a b p c <-> r <= 0 /\ s <= 0.
Proof.
  split.
  - intros (x & y & z & X & Y & Z & S & E1 & E2 & E3). rewrite HP in E1, E2, E3. cbn [px py pz] in *. destruct (same_place 0 0 1 (x + z * r) (y + z * s) (z * t) c) as (A & B & C); [lra|rewrite <- S; replace z with (z * (r + s + t)) at 4 by (rewrite RST; ring); ring|place c|unfold along; repeat split; lra|].
    assert (PZ : 0 < z) by (destruct Z as [Z|<-]; [exact Z|lra]). split; apply (Rmult_le_reg_l z); lra.
  - intros (Y & Z). assert (PR : 0 < t) by lra. exists (- r / t), (- s / t), (1 / t).
    assert (Q : forall k, 0 <= k -> 0 <= k / t) by (intros k K; apply Rmult_le_pos; [exact K|apply Rlt_le, Rinv_0_lt_compat, PR]).
    split; [apply Q; lra|]. split; [apply Q; lra|]. split; [apply Q; lra|]. split; [replace r with (1 - s - t) by lra; field; lra|]. rewrite HP. cbn [px py pz]. repeat split; field; lra.
Qed.
Lemma corner_dec ts v : corner ts v <-> In v (flat_map (fun u => let '(i, j, k) := u in [i; j; k]) ts).
Proof.
  rewrite in_flat_map. split.
  - intros (i & j & k & H & E). exists (i, j, k). split; [exact H|]. cbn. destruct E as [->|[->| ->]]; auto.
  - intros (((i, j), k) & H & E). exists i, j, k. split; [exact H|]. cbn in E. destruct E as [->|[->|[->|[]]]]; auto.
Qed.
Lemma cases : r <> 0 -> s <> 0 -> t <> 0 -> exists ts, grow_planar r_hops pos 3 p start start = Ok ts
  /\ (corner (indices ts) 0 <-> ~ in_triangle b c p a) /\ (corner (indices ts) 1 <-> ~ in_triangle a c p b) /\ (corner (indices ts) 2 <-> ~ in_triangle a b p c) /\ (corner (indices ts) 3 <-> ~ in_triangle a b c p)
  /\ forall v, corner (indices ts) v -> (v < 4)%nat.
Proof.
  intros R0 S0 T0. assert (GOAL : exists ts, grow_planar r_hops pos 3 p start start = Ok ts /\ (corner (indices ts) 0 <-> ~ (s <= 0 /\ t <= 0)) /\ (corner (indices ts) 1 <-> ~ (r <= 0 /\ t <= 0)) /\ (corner (indices ts) 2 <-> ~ (r <= 0 /\ s <= 0)) /\ (corner (indices ts) 3 <-> ~ (0 <= r /\ 0 <= s /\ 0 <= t)) /\ forall v, corner (indices ts) v -> (v < 4)%nat).
  2: { destruct GOAL as (ts & E & C0 & C1 & C2 & C3 & B). exists ts. rewrite p_inside, a_inside, b_inside, c_inside. auto 10. }
  assert (F : forall l, (exists ts, grow_planar r_hops pos 3 p start start = Ok ts /\ indices ts = l) -> (In 0%nat (flat_map (fun u => let '(i, j, k) := u in [i; j; k]) l) <-> ~ (s <= 0 /\ t <= 0)) -> (In 1%nat (flat_map (fun u => let '(i, j, k) := u in [i; j; k]) l) <-> ~ (r <= 0 /\ t <= 0))
    -> (In 2%nat (flat_map (fun u => let '(i, j, k) := u in [i; j; k]) l) <-> ~ (r <= 0 /\ s <= 0)) -> (In 3%nat (flat_map (fun u => let '(i, j, k) := u in [i; j; k]) l) <-> ~ (0 <= r /\ 0 <= s /\ 0 <= t)) -> Forall (fun v => v < 4)%nat (flat_map (fun u => let '(i, j, k) := u in [i; j; k]) l) ->
    exists ts, grow_planar r_hops pos 3 p start start = Ok ts /\ (corner (indices ts) 0 <-> ~ (s <= 0 /\ t <= 0)) /\ (corner (indices ts) 1 <-> ~ (r <= 0 /\ t <= 0)) /\ (corner (indices ts) 2 <-> ~ (r <= 0 /\ s <= 0)) /\ (corner (indices ts) 3 <-> ~ (0 <= r /\ 0 <= s /\ 0 <= t)) /\ forall v, corner (indices ts) v -> (v < 4)%nat).
  { intros l (ts & E & <-) C0 C1 C2 C3 FB. exists ts. rewrite !corner_dec. split; [exact E|]. split; [exact C0|]. split; [exact C1|]. split; [exact C2|]. split; [exact C3|]. intros v V. apply corner_dec in V. exact (proj1 (Forall_forall _ _) FB v V). }
  destruct (Rlt_or_le r 0) as [R1|R1]; destruct (Rlt_or_le s 0) as [S1|S1]; destruct (Rlt_or_le t 0) as [T1|T1]; try lra.
  - apply (F _ (behind_c R1 S1)); cbn; try (split; intros X; [intuition (try discriminate; lra)|intuition (auto; lra)]); repeat constructor.
  - apply (F _ (behind_b R1 T1)); cbn; try (split; intros X; [intuition (try discriminate; lra)|intuition (auto; lra)]); repeat constructor.
  - apply (F _ (beyond_bc R1 ltac:(lra) ltac:(lra))); cbn; try (split; intros X; [intuition (try discriminate; lra)|intuition (auto; lra)]); repeat constructor.
  - apply (F _ (behind_a S1 T1)); cbn; try (split; intros X; [intuition (try discriminate; lra)|intuition (auto; lra)]); repeat constructor.
  - apply (F _ (beyond_ca S1 ltac:(lra) ltac:(lra))); cbn; try (split; intros X; [intuition (try discriminate; lra)|intuition (auto; lra)]); repeat constructor.
  - apply (F _ (beyond_ab T1 ltac:(lra) ltac:(lra))); cbn; try (split; intros X; [intuition (try discriminate; lra)|intuition (auto; lra)]); repeat constructor.
  - apply (F [(0, 1, 2); (0, 2, 1)]%nat); [exists start; split; [apply inside; lra|reflexivity]|..]; cbn; try (split; intros X; [intuition (try discriminate; lra)|intuition (auto; lra)]); repeat constructor.
Qed.
End Four.

Lemma in_corner (a b c q : p3 R) : q = a \/ q = b \/ q = c -> in_triangle a b c q.
Proof. intros [->|[->| ->]]; [exists 1, 0, 0|exists 0, 1, 0|exists 0, 0, 1]; repeat split; lra. Qed.
Lemma triangle_convex (a b c x y z q : p3 R) : in_triangle a b c x -> in_triangle a b c y -> in_triangle a b c z -> in_triangle x y z q -> in_triangle a b c q.
Proof.
  intros (x1 & x2 & x3 & X1 & X2 & X3 & XS & XA & XB & XC) (y1 & y2 & y3 & Y1 & Y2 & Y3 & YS & YA & YB & YC) (z1 & z2 & z3 & Z1 & Z2 & Z3 & ZS & ZA & ZB & ZC) (u & v & w & U & V & W & S & A & B & C).
  exists (u * x1 + v * y1 + w * z1), (u * x2 + v * y2 + w * z2), (u * x3 + v * y3 + w * z3).
  assert (P : forall f g h, 0 <= f -> 0 <= g -> 0 <= h -> 0 <= u * f + v * g + w * h). { intros f g h F G H. pose proof (Rmult_le_pos u f U F). pose proof (Rmult_le_pos v g V G). pose proof (Rmult_le_pos w h W H). lra. }
  split; [now apply P|]. split; [now apply P|]. split; [now apply P|]. split; [|rewrite A, B, C, XA, XB, XC, YA, YB, YC, ZA, ZB, ZC; repeat split; ring].
  replace (u * x1 + v * y1 + w * z1 + (u * x2 + v * y2 + w * z2) + (u * x3 + v * y3 + w * z3)) with (u * (x1 + x2 + x3) + v * (y1 + y2 + y3) + w * (z1 + z2 + z3)) by ring. rewrite XS, YS, ZS. lra.
Qed.
Lemma hull_corner_of ps v i j k : length ps = 4%nat -> (v < 4)%nat -> (forall x, (x < 4)%nat -> x <> v -> x = i \/ x = j \/ x = k) -> (i < 4 /\ j < 4 /\ k < 4 /\ i <> v /\ j <> v /\ k <> v)%nat ->
  (hull_corner ps v <-> ~ in_triangle (point ps i) (point ps j) (point ps k) (point ps v)).
Proof.
  intros L V O (I & J & K & NI & NJ & NK). unfold hull_corner. rewrite L. split.
  - intros (_ & H). apply H; assumption.
  - intros H. split; [exact V|]. intros i' j' k' I' J' K' NI' NJ' NK' T. apply H. refine (triangle_convex _ _ _ _ _ _ _ _ _ _ T); apply in_corner; [destruct (O i' I' NI') as [->|[->| ->]]|destruct (O j' J' NJ') as [->|[->| ->]]|destruct (O k' K' NK') as [->|[->| ->]]]; auto.
Qed.
Lemma cross_sq (u : p3 R) : u <> mk_p3 0 0 0 -> 0 < v_dot r_ops u u.
Proof.
  intros H. unfold v_dot. reals. pose proof (sq_sum_pos (px u) (py u) (pz u)) as [P|P]; [exact P|]. exfalso. apply H. symmetry in P. apply sum_squares_0 in P. destruct P as (A & B & C). destruct u as [x y z]. cbn in *. now subst.
Qed.
Lemma on_segment_line (a b q : p3 R) k : a <> b -> px q = px a + k * (px b - px a) -> py q = py a + k * (py b - py a) -> pz q = pz a + k * (pz b - pz a) -> ~ not_collinear a b q.
Proof.
  intros AB E1 E2 E3 NC. apply (NC (mk_line a b)). cbn [ln_first ln_second]. split; [exact AB|]. unfold on_line. cbn [ln_first ln_second]. split; [exists 0; repeat split; lra|]. split; [exists 1; repeat split; lra|]. exists k. auto.
Qed.
Lemma coordinates (a b c p : p3 R) : let n := calc_normal r_hops a b c in 0 < v_dot r_ops n n -> volume a b c p = 0 ->
  exists r s t, r + s + t = 1 /\ p = mk_p3 (r * px a + s * px b + t * px c) (r * py a + s * py b + t * py c) (r * pz a + s * pz b + t * pz c).
Proof.
  intros n NP V. set (N := v_dot r_ops n n) in *. set (u := v_sub r_ops b a). set (v := v_sub r_ops c a). set (w := v_sub r_ops p a).
  set (S := v_dot r_ops (v_cross r_ops w v) n). set (T := v_dot r_ops (v_cross r_ops u w) n). exists (1 - S / N - T / N), (S / N), (T / N). split; [ring|].
  assert (E : forall f : p3 R -> R, N * (f p - f a) = S * (f b - f a) + T * (f c - f a) -> f p = (1 - S / N - T / N) * f a + S / N * f b + T / N * f c).
  { intros f H. apply (Rmult_eq_reg_l N); [|lra]. replace (N * ((1 - S / N - T / N) * f a + S / N * f b + T / N * f c)) with (N * f a + (S * (f b - f a) + T * (f c - f a))) by (field; lra). rewrite <- H. ring. }
  assert (Z : forall x y : R, x = y + 0 -> x = y) by (intros; lra).
  destruct p as [x y z]. cbn [px py pz]. f_equal.
  - apply (E (@px R)). cbn [px]. apply Z. rewrite <- (Rmult_0_l (px n)), <- V. unfold N, S, T, n, u, v, w, calc_normal, volume, v_dot, v_cross, v_sub. reals. cbn [px py pz]. ring.
  - apply (E (@py R)). cbn [py]. apply Z. rewrite <- (Rmult_0_l (py n)), <- V. unfold N, S, T, n, u, v, w, calc_normal, volume, v_dot, v_cross, v_sub. reals. cbn [px py pz]. ring.
  - apply (E (@pz R)). cbn [pz]. apply Z. rewrite <- (Rmult_0_l (pz n)), <- V. unfold N, S, T, n, u, v, w, calc_normal, volume, v_dot, v_cross, v_sub. reals. cbn [px py pz]. ring.
Qed.
Lemma cross_not_zero (a b c : p3 R) : not_collinear a b c -> v_cross r_ops (v_sub r_ops b a) (v_sub r_ops c a) <> mk_p3 0 0 0.
Proof. intros NC E. apply (sampled_plane_proper a b c NC). unfold plane_of. rewrite E. cbn. auto. Qed.
Lemma four_in_plane ps order : length ps = 4%nat -> in_a_plane ps -> exists ts, iterate r_hops (fun i => vec_at ps i) order 0 ps [] = Ok ts /\ forall v, corner (indices ts) v <-> hull_corner ps v.
Proof.
  intros L (V & NC). destruct ps as [|a [|b [|c [|p [|? ?]]]]]; try discriminate L. set (ps := [a; b; c; p]) in *. cbn [length ps] in V, NC.
  assert (NC1 : not_collinear a b c) by (apply (NC 0 1 2)%nat; unfold distinct3; lia). assert (NC2 : not_collinear a b p) by (apply (NC 0 1 3)%nat; unfold distinct3; lia).
  assert (NC3 : not_collinear a c p) by (apply (NC 0 2 3)%nat; unfold distinct3; lia). assert (NC4 : not_collinear b c p) by (apply (NC 1 2 3)%nat; unfold distinct3; lia).
  pose proof (cross_not_zero _ _ _ NC1) as X. change (v_cross r_ops (v_sub r_ops b a) (v_sub r_ops c a)) with (calc_normal r_hops a b c) in X. pose proof (cross_sq _ X) as NP.
  destruct (coordinates a b c p NP (V 0 1 2 3 ltac:(lia) ltac:(lia) ltac:(lia) ltac:(lia))%nat) as (r & s & t & RST & HP).
  assert (NE : forall x y z, not_collinear x y z -> x <> y). { intros x y z H ->. apply (cross_not_zero _ _ _ H). unfold v_cross, v_sub. reals. cbn [px py pz]. f_equal; ring. }
  assert (R0 : r <> 0). { intros Z. apply (on_segment_line b c p t) in NC4; [exact NC4|exact (NE _ _ _ NC4)|rewrite HP; cbn [px py pz]; replace s with (1 - t) by lra; rewrite Z; ring..]. }
  assert (S0 : s <> 0). { intros Z. apply (on_segment_line a c p t) in NC3; [exact NC3|exact (NE _ _ _ NC3)|rewrite HP; cbn [px py pz]; replace r with (1 - t) by lra; rewrite Z; ring..]. }
  assert (T0 : t <> 0). { intros Z. apply (on_segment_line a b p s) in NC2; [exact NC2|exact (NE _ _ _ NC2)|rewrite HP; cbn [px py pz]; replace r with (1 - s) by lra; rewrite Z; ring..]. }
  destruct (cases a b c p r s t NP RST HP R0 S0 T0) as (ts & E & C0 & C1 & C2 & C3 & B). exists ts. split.
  - unfold ps at 2. cbn [iterate]. rewrite (first_one (fun i => vec_at ps i)). cbn [bind]. rewrite (first_two (fun i => vec_at ps i)). cbn [bind].
    change (iteration r_hops (fun i => vec_at ps i) (order 2%nat) [mk_tri 0 1 0 a] 2 c) with (grow_line r_hops (fun i => vec_at ps i) 2 c (mk_tri 0 1 0 a)). rewrite (third_point (fun i => vec_at ps i) a b c a eq_refl eq_refl X). cbn [bind].
    pose proof (fourth a b c p r s t RST HP (order 3%nat)) as F4. cbv zeta in F4. unfold ps. rewrite F4. unfold ps in E. rewrite E. reflexivity.
  - intros v. split.
    + intros CV. pose proof (B v CV) as VB. destruct v as [|[|[|[|v]]]]; [| | | |lia].
      * apply (hull_corner_of ps 0 1 2 3); try reflexivity; try lia. now apply C0.
      * apply (hull_corner_of ps 1 0 2 3); try reflexivity; try lia. now apply C1.
      * apply (hull_corner_of ps 2 0 1 3); try reflexivity; try lia. now apply C2.
      * apply (hull_corner_of ps 3 0 1 2); try reflexivity; try lia. now apply C3.
    + intros HC. pose proof (proj1 HC) as VB. cbn in VB. destruct v as [|[|[|[|v]]]]; [| | | |lia].
      * apply (hull_corner_of ps 0 1 2 3) in HC; try reflexivity; try lia. now apply C0.
      * apply (hull_corner_of ps 1 0 2 3) in HC; try reflexivity; try lia. now apply C1.
      * apply (hull_corner_of ps 2 0 1 3) in HC; try reflexivity; try lia. now apply C2.
      * apply (hull_corner_of ps 3 0 1 2) in HC; try reflexivity; try lia. now apply C3.
Qed.
