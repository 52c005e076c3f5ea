(* The distance formulas of the RANSAC segmentation read with real numbers. *)
From Coq Require Import Reals Lra Psatz.
From Verif Require Import MathModel SegModel SegSpec.
Open Scope R_scope.

Lemma sqrt_div_le x n y : 0 <= x -> 0 < n -> 0 <= y -> x <= n * y -> sqrt x / sqrt n <= sqrt y.
Proof.
  intros X N Y H. assert (SN : 0 < sqrt n) by now apply sqrt_lt_R0.
  apply Rmult_le_reg_r with (sqrt n); auto. unfold Rdiv. rewrite Rmult_assoc, Rinv_l, Rmult_1_r by lra.
  rewrite <- sqrt_mult by lra. apply sqrt_le_1_alt. lra.
Qed.
Lemma sqrt_div_eq x n y : 0 <= x -> 0 < n -> 0 <= y -> x = n * y -> sqrt x / sqrt n = sqrt y.
Proof.
  intros X N Y ->. assert (SN : 0 < sqrt n) by now apply sqrt_lt_R0. rewrite sqrt_mult by lra. field. lra.
Qed.
Lemma sum_squares a b c : 0 <= a * a + b * b + c * c.
Proof. nra. Qed.
Lemma sum_squares_pos a b c : ~ (a = 0 /\ b = 0 /\ c = 0) -> 0 < a * a + b * b + c * c.
Proof.
  intros H. destruct (Req_dec a 0) as [->|A]; [|assert (0 < a * a) by nra; nra].
  destruct (Req_dec b 0) as [->|B]; [|assert (0 < b * b) by nra; nra].
  destruct (Req_dec c 0) as [->|C]; [tauto|assert (0 < c * c) by nra; nra].
Qed.

Lemma plane_distance pl p : ~ (pl_a pl = 0 /\ pl_b pl = 0 /\ pl_c pl = 0) -> is_distance p (on_plane pl) (distance_point_plane r_ops p pl).
Proof.
  destruct pl as [a b c d], p as [x y z]. cbn [pl_a pl_b pl_c]. intros NZ. pose proof (sum_squares_pos _ _ _ NZ) as N.
  unfold distance_point_plane, is_distance, on_plane, euclid, r_ops. cbn [pl_a pl_b pl_c pl_d o_abs o_div o_sqrt o_add o_mul px py pz].
  set (n := a * a + b * b + c * c) in *. set (s := a * x + b * y + c * z + d). rewrite <- (sqrt_Rsqr_abs s). unfold Rsqr. split.
  - intros [u v w]. cbn [px py pz]. intros E. apply sqrt_div_le; auto using sum_squares; [nra|].
    assert (S : s = a * (x - u) + b * (y - v) + c * (z - w)) by (unfold s; lra). rewrite S. unfold n.
    set (f := x - u). set (g := y - v). set (h := z - w).
    pose proof (Rle_0_sqr (a * g - b * f)). pose proof (Rle_0_sqr (a * h - c * f)). pose proof (Rle_0_sqr (b * h - c * g)). unfold Rsqr in *. nra.
  - exists (mk_p3 (x - s / n * a) (y - s / n * b) (z - s / n * c)). cbn [px py pz]. split.
    + replace (a * (x - s / n * a) + b * (y - s / n * b) + c * (z - s / n * c) + d) with (s - s / n * n) by (unfold s, n; ring). field. lra.
    + apply sqrt_div_eq; auto using sum_squares; [nra|].
      replace ((x - (x - s / n * a)) * (x - (x - s / n * a)) + (y - (y - s / n * b)) * (y - (y - s / n * b)) + (z - (z - s / n * c)) * (z - (z - s / n * c)))
        with (s / n * (s / n) * n) by (unfold n; ring). field. lra.
Qed.

Lemma line_distance l p : ln_first l <> ln_second l -> is_distance p (on_line l) (distance_point_line r_ops p l).
Proof.
  destruct l as [[x0 y0 z0] [x1 y1 z1]], p as [x y z]. cbn [ln_first ln_second]. intros NE.
  assert (N : 0 < (x1 - x0) * (x1 - x0) + (y1 - y0) * (y1 - y0) + (z1 - z0) * (z1 - z0)).
  { apply sum_squares_pos. intros (A & B & C). apply NE. f_equal; lra. }
  unfold distance_point_line, v_norm, v_dot, v_cross, v_sub, is_distance, on_line, euclid, r_ops.
  cbn [o_div o_sqrt o_add o_mul o_sub px py pz ln_first ln_second].
  set (a := x1 - x0) in *. set (b := y1 - y0) in *. set (c := z1 - z0) in *. set (n := a * a + b * b + c * c) in *.
  split.
  - intros [u v w]. cbn [px py pz]. intros (t & -> & -> & ->).
    apply sqrt_div_le; auto using sum_squares.
    set (f := x0 - x). set (g := y0 - y). set (h := z0 - z).
    replace (x - (x0 + t * a)) with (- f - t * a) by (unfold f; ring). replace (y - (y0 + t * b)) with (- g - t * b) by (unfold g; ring).
    replace (z - (z0 + t * c)) with (- h - t * c) by (unfold h; ring).
    pose proof (Rle_0_sqr (a * f + b * g + c * h + t * n)) as Q. unfold Rsqr in Q.
    replace (n * ((- f - t * a) * (- f - t * a) + (- g - t * b) * (- g - t * b) + (- h - t * c) * (- h - t * c)))
      with (((b * h - c * g) * (b * h - c * g) + (c * f - a * h) * (c * f - a * h) + (a * g - b * f) * (a * g - b * f))
            + (a * f + b * g + c * h + t * n) * (a * f + b * g + c * h + t * n)) by (unfold n; ring). lra.
  - set (f := x0 - x). set (g := y0 - y). set (h := z0 - z). set (t := - (a * f + b * g + c * h) / n).
    exists (mk_p3 (x0 + t * a) (y0 + t * b) (z0 + t * c)). cbn [px py pz]. split; [exists t; auto|].
    apply sqrt_div_eq; auto using sum_squares.
    replace (x - (x0 + t * a)) with (- f - t * a) by (unfold f; ring). replace (y - (y0 + t * b)) with (- g - t * b) by (unfold g; ring).
    replace (z - (z0 + t * c)) with (- h - t * c) by (unfold h; ring).
    assert (TN : a * f + b * g + c * h + t * n = 0) by (unfold t; field; lra).
    replace (n * ((- f - t * a) * (- f - t * a) + (- g - t * b) * (- g - t * b) + (- h - t * c) * (- h - t * c)))
      with (((b * h - c * g) * (b * h - c * g) + (c * f - a * h) * (c * f - a * h) + (a * g - b * f) * (a * g - b * f))
            + (a * f + b * g + c * h + t * n) * (a * f + b * g + c * h + t * n)) by (unfold n; ring). rewrite TN. ring.
Qed.

Lemma plane_through a b c : on_plane (plane_of r_ops a b c) a /\ on_plane (plane_of r_ops a b c) b /\ on_plane (plane_of r_ops a b c) c.
Proof.
  destruct a as [x0 y0 z0], b as [x1 y1 z1], c as [x2 y2 z2]. unfold on_plane, plane_of, v_cross, v_dot, v_sub, r_ops.
  cbn [o_add o_mul o_sub o_neg px py pz pl_a pl_b pl_c pl_d]. repeat split; ring.
Qed.

Lemma p3_eq_dec (a b : p3 R) : a = b \/ a <> b.
Proof.
  destruct a as [x y z], b as [u v w]. destruct (Req_dec x u) as [->|H]; [|right; congruence].
  destruct (Req_dec y v) as [->|H]; [|right; congruence]. destruct (Req_dec z w) as [->|H]; [auto|right; congruence].
Qed.
Lemma first_on_line l : on_line l (ln_first l).
Proof. exists 0. repeat split; ring. Qed.
Lemma second_on_line l : on_line l (ln_second l).
Proof. exists 1. repeat split; ring. Qed.

(* a vector with a vanishing cross product with u <> 0 is a multiple of u *)
Lemma parallel a b c f g h : ~ (a = 0 /\ b = 0 /\ c = 0) -> b * h - c * g = 0 -> c * f - a * h = 0 -> a * g - b * f = 0 ->
  exists t, f = t * a /\ g = t * b /\ h = t * c.
Proof.
  intros NZ E1 E2 E3. destruct (Req_dec a 0) as [A|A].
  - destruct (Req_dec b 0) as [B|B].
    + assert (C : c <> 0) by tauto. subst. exists (h / c). repeat split; [|  |field; auto]; apply Rmult_eq_reg_l with c; auto; lra.
    + exists (g / b). repeat split; [|field; auto|]; apply Rmult_eq_reg_l with b; auto.
      * replace (b * (g / b * a)) with (g * a) by (field; auto). lra.
      * replace (b * (g / b * c)) with (g * c) by (field; auto). lra.
  - exists (f / a). repeat split; [field; auto| |]; apply Rmult_eq_reg_l with a; auto.
    + replace (a * (f / a * b)) with (f * b) by (field; auto). lra.
    + replace (a * (f / a * c)) with (f * c) by (field; auto). lra.
Qed.

Lemma sampled_plane_proper a b c : not_collinear a b c ->
  ~ (pl_a (plane_of r_ops a b c) = 0 /\ pl_b (plane_of r_ops a b c) = 0 /\ pl_c (plane_of r_ops a b c) = 0).
Proof.
  intros NC (E1 & E2 & E3). destruct (p3_eq_dec a b) as [<-|AB].
  - destruct (p3_eq_dec a c) as [<-|AC].
    + apply (NC (mk_line a (mk_p3 (px a + 1) (py a) (pz a)))). split; [cbn [ln_first ln_second]; intros E; apply (f_equal (@px R)) in E; cbn in E; lra|].
      pose proof (first_on_line (mk_line a (mk_p3 (px a + 1) (py a) (pz a)))) as F. cbn [ln_first] in F. auto.
    + apply (NC (mk_line a c)). split; auto. pose proof (first_on_line (mk_line a c)). pose proof (second_on_line (mk_line a c)). auto.
  - apply (NC (mk_line a b)). split; auto. split; [apply first_on_line|]. split; [apply second_on_line|].
    destruct a as [x0 y0 z0], b as [x1 y1 z1], c as [x2 y2 z2].
    unfold plane_of, v_cross, v_dot, v_sub, r_ops in E1, E2, E3. cbn [o_mul o_sub px py pz pl_a pl_b pl_c] in E1, E2, E3.
    destruct (parallel (x1 - x0) (y1 - y0) (z1 - z0) (x2 - x0) (y2 - y0) (z2 - z0)) as (t & T1 & T2 & T3); auto.
    + intros (A & B & C). apply AB. f_equal; lra.
    + exists t. cbn [px py pz ln_first ln_second]. repeat split; lra.
Qed.
Lemma sampled_plane_distance a b c p : not_collinear a b c -> is_distance p (on_plane (plane_of r_ops a b c)) (distance_point_plane r_ops p (plane_of r_ops a b c)).
Proof. intros NC. apply plane_distance, sampled_plane_proper, NC. Qed.
