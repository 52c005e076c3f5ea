(* Distances of RANSAC in f64 arithmetic. *)
From Coq Require Import List ZArith Reals Lia Lra SpecFloat Psatz.
From Flocq Require Import Core.
From Verif Require Import Base MathModel MathSpec SegModel SegSpec SegReal LasGridSpec VoxSpec FloatReal F64Real NormSpec NormFloat LasFloat TilesBoxSpec HullSpec HullModel HullFloatSpec HullFloat HullFloat2 SegFloatSpec.
Import ListNotations.
Open Scope R_scope.

Lemma rel2 y : y = 0 \/ bpow radix2 (-900) <= Rabs y -> Rabs (rnd64 y - y) <= 2 * (e53 * Rabs y).
Proof.
  intros [->|H].
  - unfold rnd64. rewrite rnd_0, Rminus_0_r, Rabs_R0. lra.
  - pose proof (rnd_err y) as X. assert (T : tiny <= e53 * Rabs y).
    { apply Rle_trans with (e53 * bpow radix2 (-900)); [rewrite <- bpow_plus; apply bpow_le; lia|]. apply Rmult_le_compat_l; [apply bpow_ge_0|exact H]. }
    lra.
Qed.
Lemma rel2p y : 0 <= y -> y = 0 \/ bpow radix2 (-900) <= Rabs y -> Rabs (rnd64 y - y) <= 2 * (e53 * y).
Proof. intros P H. pose proof (rel2 y H) as X. rewrite (Rabs_pos_eq y P) in X. exact X. Qed.
Lemma sum_bound S N : 0 < N -> 0 <= S -> Rabs (S - N) <= 7 * (e53 * N) -> Rabs (sqrt S - sqrt N) <= 3.8 * (e53 * sqrt N).
Proof.
  intros PN PS H. rewrite e53_eq in *. pose proof (sqrt_lt_R0 N PN) as Q. assert (L : 0.9 * sqrt N <= sqrt S).
  { rewrite <- (sqrt_Rsqr (0.9 * sqrt N)) by lra. apply sqrt_le_1_alt. unfold Rsqr. replace (0.9 * sqrt N * (0.9 * sqrt N)) with (0.81 * (sqrt N * sqrt N)) by lra. rewrite sqrt_sqrt by lra. apply Rabs_le_inv in H. lra. }
  assert (E : (sqrt S - sqrt N) * (sqrt S + sqrt N) = S - N). { replace ((sqrt S - sqrt N) * (sqrt S + sqrt N)) with (sqrt S * sqrt S - sqrt N * sqrt N) by ring. rewrite !sqrt_sqrt by lra. ring. }
  apply (Rmult_le_reg_r (sqrt S + sqrt N)); [lra|]. rewrite <- (Rabs_pos_eq (sqrt S + sqrt N)) at 1 by lra. rewrite <- Rabs_mult, E.
  apply Rle_trans with (1 := H). apply Rle_trans with (3.8 * (/ 9007199254740992 * sqrt N) * (1.9 * sqrt N)).
  - replace (3.8 * (/ 9007199254740992 * sqrt N) * (1.9 * sqrt N)) with (7.22 * (/ 9007199254740992 * (sqrt N * sqrt N))) by lra. rewrite sqrt_sqrt by lra. lra.
  - apply Rmult_le_compat_l; lra.
Qed.

Section Norm.
Variables f K : Z.
Hypothesis Hf : (-400 <= f <= 400)%Z.
Hypothesis HK : (0 <= K <= 2 ^ 40)%Z.
Lemma grid_sq x r : on f K x r -> (r = 0 \/ bpow radix2 (f + f) <= r * r) /\ r * r <= bpow radix2 (80 + (f + f)).
Proof.
  intros (_ & _ & k & -> & B). replace (IZR k * bpow radix2 f * (IZR k * bpow radix2 f)) with (IZR (k * k) * bpow radix2 (f + f)) by (rewrite mult_IZR, bpow_plus; ring). split.
  - destruct (Z.eq_dec k 0) as [->|N]; [left; ring|right]. rewrite <- (Rmult_1_l (bpow radix2 (f + f))) at 1. apply Rmult_le_compat_r; [apply bpow_ge_0|]. apply IZR_le. nia.
  - rewrite (bpow_plus radix2 80). apply Rmult_le_compat_r; [apply bpow_ge_0|]. change (bpow radix2 80) with (IZR (2 ^ 80)). apply IZR_le. change (2 ^ 80)%Z with (2 ^ 40 * 2 ^ 40)%Z. rewrite <- Z.abs_square. nia.
Qed.
Lemma sq_near x r : on f K x r -> real_f64 (f64_mul x x) /\ Rabs (val (f64_mul x x) - r * r) <= 2 * (e53 * (r * r)) /\ (val (f64_mul x x) = 0 \/ bpow radix2 (-802) <= val (f64_mul x x)) /\ 0 <= val (f64_mul x x).
Proof.
  intros O. destruct (grid_sq x r O) as (L & U). pose proof O as (Rx & Vx & _). assert (P : 0 <= r * r) by apply Rle_0_sqr.
  assert (Z : r * r = 0 \/ bpow radix2 (-900) <= Rabs (r * r)).
  { destruct L as [->|L]; [left; ring|right]. rewrite Rabs_pos_eq by exact P. apply Rle_trans with (2 := L). apply bpow_le. lia. }
  pose proof (rel2p _ P Z) as X.
  destruct (mul_val x x (bpow radix2 (80 + (f + f))) Rx Rx (top_bound (80 + (f + f)) ltac:(lia))) as (R1 & V1).
  { rewrite Vx. apply rnd_bound1; [lia|]. rewrite Rabs_pos_eq by exact P. exact U. }
  rewrite Vx in V1. split; [exact R1|]. rewrite V1. split; [exact X|].
  destruct L as [->|L].
  - rewrite Rmult_0_l in *. unfold rnd64 in *. rewrite rnd_0 in *. split; [now left|lra].
  - assert (H1 : bpow radix2 (-802) <= rnd64 (r * r)).
    { apply Rabs_le_inv in X. rewrite e53_eq in X. apply Rle_trans with (/ 2 * (r * r)); [|lra]. apply Rle_trans with (/ 2 * bpow radix2 (f + f)); [|lra].
      apply Rle_trans with (/ 2 * bpow radix2 (-800)); [|apply Rmult_le_compat_l; [lra|apply bpow_le; lia]]. change (/ 2) with (bpow radix2 (-1)). rewrite <- bpow_plus. apply bpow_le. lia. }
    split; [now right|]. apply Rle_trans with (2 := H1), bpow_ge_0.
Qed.
Lemma norm_rel v r : on3 f K v r -> real_f64 (v_norm f64_ops v) /\ Rabs (val (v_norm f64_ops v) - sqrt (dotr r r)) <= 6 * (e53 * sqrt (dotr r r)).
Proof.
  intros (A & B & C). destruct (sq_near _ _ A) as (R1 & E1 & L1 & P1). destruct (sq_near _ _ B) as (R2 & E2 & L2 & P2). destruct (sq_near _ _ C) as (R3 & E3 & L3 & P3).
  destruct (grid_sq _ _ A) as (_ & U1). destruct (grid_sq _ _ B) as (_ & U2). destruct (grid_sq _ _ C) as (_ & U3).
  unfold v_norm. change (o_sqrt f64_ops) with (SFsqrt 53 1024). change (v_dot f64_ops v v) with (f64_add (f64_add (f64_mul (px v) (px v)) (f64_mul (py v) (py v))) (f64_mul (pz v) (pz v))).
  rewrite dotr_eq. set (s1 := f64_mul (px v) (px v)) in *. set (s2 := f64_mul (py v) (py v)) in *. set (s3 := f64_mul (pz v) (pz v)) in *.
  pose proof (Rle_0_sqr (px r)) as Q1. pose proof (Rle_0_sqr (py r)) as Q2. pose proof (Rle_0_sqr (pz r)) as Q3. unfold Rsqr in Q1, Q2, Q3.
  set (x1 := px r * px r) in *. set (x2 := py r * py r) in *. set (x3 := pz r * pz r) in *. set (M := bpow radix2 (80 + (f + f))) in *.
  assert (TB : bpow radix2 (3 + (80 + (f + f))) < bpow radix2 1024) by (apply top_bound; lia).
  assert (M8 : bpow radix2 (3 + (80 + (f + f))) = 8 * M) by (rewrite bpow_plus; reflexivity). assert (PM : 0 < M) by apply bpow_gt_0.
  assert (SMALL : bpow radix2 (-900) <= bpow radix2 (-802)) by (apply bpow_le; lia). pose proof (bpow_gt_0 radix2 (-802)) as PT.
  assert (Z1 : val s1 + val s2 = 0 \/ bpow radix2 (-900) <= Rabs (val s1 + val s2)).
  { rewrite Rabs_pos_eq by lra. destruct L1 as [L1|L1], L2 as [L2|L2]; [left; lra|right; lra|right; lra|right; lra]. }
  pose proof (rel2p (val s1 + val s2) ltac:(lra) Z1) as X1.
  destruct (add_val s1 s2 _ R1 R2 TB) as (R4 & V4). { apply rnd_bound1; [lia|]. rewrite M8, Rabs_pos_eq by lra. apply Rabs_le_inv in E1, E2. rewrite e53_eq in *. lra. }
  rewrite <- V4 in X1. set (t := f64_add s1 s2) in *.
  assert (T0 : (val t = 0 \/ bpow radix2 (-803) <= val t) /\ 0 <= val t).
  { destruct Z1 as [Z1|_]; [rewrite Z1 in *; replace (val t) with 0 in * by (apply Rabs_le_inv in X1; lra); split; [now left|lra]|].
    assert (val s1 + val s2 = 0 \/ bpow radix2 (-802) <= val s1 + val s2) as [Y|Y] by (destruct L1, L2; lra).
    - rewrite Y in X1. replace (val t) with 0 in * by (apply Rabs_le_inv in X1; lra). split; [now left|lra].
    - assert (bpow radix2 (-803) <= val t); [|split; [now right|pose proof (bpow_gt_0 radix2 (-803)); lra]].
      replace (bpow radix2 (-803)) with (/ 2 * bpow radix2 (-802)) by (change (/ 2) with (bpow radix2 (-1)); rewrite <- bpow_plus; reflexivity). apply Rabs_le_inv in X1. rewrite e53_eq in X1. lra. }
  destruct T0 as (LT & PT0). assert (SM2 : bpow radix2 (-900) <= bpow radix2 (-803)) by (apply bpow_le; lia). pose proof (bpow_gt_0 radix2 (-803)) as PT3.
  assert (Z2 : val t + val s3 = 0 \/ bpow radix2 (-900) <= Rabs (val t + val s3)).
  { rewrite Rabs_pos_eq by lra. destruct LT as [LT|LT], L3 as [L3|L3]; [left; lra|right; lra|right; lra|right; lra]. }
  pose proof (rel2p (val t + val s3) ltac:(lra) Z2) as X2.
  destruct (add_val t s3 _ R4 R3 TB) as (R5 & V5). { apply rnd_bound1; [lia|]. rewrite M8, Rabs_pos_eq by lra. apply Rabs_le_inv in E1, E2, E3, X1. rewrite e53_eq in *. lra. }
  rewrite <- V5 in X2. set (S := f64_add t s3) in *. set (N := x1 + x2 + x3) in *.
  assert (D : Rabs (val S - N) <= 7 * (e53 * N)) by (unfold N; apply Rabs_le; apply Rabs_le_inv in E1, E2, E3, X1, X2; rewrite e53_eq in *; lra).
  assert (PS : 0 <= val S) by (apply Rabs_le_inv in D; rewrite e53_eq in D; unfold N in *; lra).
  destruct (sqrt_val S R5 PS) as (R6 & V6). split; [exact R6|]. rewrite V6.
  destruct (Rle_lt_or_eq_dec 0 N ltac:(unfold N; lra)) as [PN|ZN].
  - pose proof (sum_bound (val S) N PN PS D) as SB. pose proof (sqrt_lt_R0 N PN) as PQ.
    assert (HN : bpow radix2 (-804) <= val S).
    { assert (X : exists y, (y = x1 \/ y = x2 \/ y = x3) /\ 0 < y). { unfold N in PN. destruct (Rlt_or_le 0 x1); [exists x1; auto|]. destruct (Rlt_or_le 0 x2); [exists x2; auto|]. exists x3. split; [auto|lra]. }
      destruct X as (y & Y & Py). assert (LY : bpow radix2 (f + f) <= y).
      { destruct Y as [->|[->| ->]]; [destruct (grid_sq _ _ A) as ([Z|Z] & _)|destruct (grid_sq _ _ B) as ([Z|Z] & _)|destruct (grid_sq _ _ C) as ([Z|Z] & _)]; auto; exfalso; unfold x1, x2, x3 in Py; rewrite Z in Py; lra. }
      assert (LN : bpow radix2 (f + f) <= N) by (unfold N; destruct Y as [->|[->| ->]]; lra).
      apply Rle_trans with (/ 2 * N); [|apply Rabs_le_inv in D; rewrite e53_eq in D; lra].
      apply Rle_trans with (/ 2 * bpow radix2 (-800)); [change (/ 2) with (bpow radix2 (-1)); rewrite <- bpow_plus; apply bpow_le; lia|]. apply Rmult_le_compat_l; [lra|]. apply Rle_trans with (2 := LN). apply bpow_le. lia. }
    assert (HS : bpow radix2 (-402) <= sqrt (val S)).
    { rewrite <- (sqrt_Rsqr (bpow radix2 (-402))) by apply bpow_ge_0. apply sqrt_le_1_alt. unfold Rsqr. rewrite <- bpow_plus. exact HN. }
    pose proof (rel2p (sqrt (val S)) (sqrt_pos _)) as X3. rewrite Rabs_pos_eq in X3 by apply sqrt_pos. assert (X4 : bpow radix2 (-900) <= bpow radix2 (-402)) by (apply bpow_le; lia). specialize (X3 ltac:(right; lra)).
    apply Rabs_le. apply Rabs_le_inv in X3, SB. rewrite e53_eq in *. lra.
  - rewrite <- ZN in *. replace (val S) with 0 by (apply Rabs_le_inv in D; lra). rewrite sqrt_0. unfold rnd64. rewrite rnd_0, Rminus_0_r, Rabs_R0. lra.
Qed.
(* how small and how large the norm is *)
Lemma norm_size v r : on3 f K v r -> (dotr r r = 0 \/ bpow radix2 f <= sqrt (dotr r r)) /\ sqrt (dotr r r) <= bpow radix2 (41 + f).
Proof.
  intros (A & B & C). destruct (grid_sq _ _ A) as (L1 & U1). destruct (grid_sq _ _ B) as (L2 & U2). destruct (grid_sq _ _ C) as (L3 & U3). rewrite dotr_eq.
  pose proof (Rle_0_sqr (px r)) as Q1. pose proof (Rle_0_sqr (py r)) as Q2. pose proof (Rle_0_sqr (pz r)) as Q3. unfold Rsqr in Q1, Q2, Q3. split.
  - assert (X : px r * px r + py r * py r + pz r * pz r = 0 \/ bpow radix2 (f + f) <= px r * px r + py r * py r + pz r * pz r).
    { destruct L1 as [L1|L1]; [|right; lra]. destruct L2 as [L2|L2]; [|right; lra]. destruct L3 as [L3|L3]; [|right; lra]. left. rewrite L1, L2, L3. ring. }
    destruct X as [X|X]; [now left|right]. rewrite <- (sqrt_Rsqr (bpow radix2 f)) by apply bpow_ge_0. apply sqrt_le_1_alt. unfold Rsqr. rewrite <- bpow_plus. exact X.
  - rewrite <- (sqrt_Rsqr (bpow radix2 (41 + f))) by apply bpow_ge_0. apply sqrt_le_1_alt. unfold Rsqr. rewrite <- bpow_plus.
    replace (41 + f + (41 + f))%Z with (2 + (80 + (f + f)))%Z by lia. rewrite (bpow_plus radix2 2). change (bpow radix2 2) with 4. lra.
Qed.
End Norm.

(* a quotient of two such numbers *)
Lemma quot_rel x y a b : real_f64 x -> real_f64 y -> 0 <= a -> Rabs (val x - a) <= 6 * (e53 * a) -> Rabs (val y - b) <= 6 * (e53 * b) ->
  (a = 0 \/ bpow radix2 (-400) <= a) -> a <= bpow radix2 400 -> bpow radix2 (-400) <= b <= bpow radix2 400 ->
  real_f64 (f64_div x y) /\ Rabs (val (f64_div x y) - a / b) <= bpow radix2 (-49) * (a / b).
Proof.
  intros Rx Ry PA HX HY LA UA (LB & UB). pose proof (bpow_gt_0 radix2 (-400)) as P4. assert (PB : 0 < b) by lra.
  assert (LY : b * (1 - 6 * e53) <= val y) by (apply Rabs_le_inv in HY; lra). assert (PY : / 2 * b <= val y) by (rewrite e53_eq in LY; lra). assert (PY0 : 0 < val y) by lra.
  assert (PX : 0 <= val x) by (apply Rabs_le_inv in HX; rewrite e53_eq in HX; lra).
  assert (AB : 0 <= a / b) by (apply Rmult_le_pos; [exact PA|apply Rlt_le, Rinv_0_lt_compat, PB]).
  assert (Q : Rabs (val x / val y - a / b) <= 12.1 * (e53 * (a / b))).
  { replace (val x / val y - a / b) with (((val x - a) * b - a * (val y - b)) / (val y * b)) by (field; lra). unfold Rdiv at 1. rewrite Rabs_mult, Rabs_inv, (Rabs_pos_eq (val y * b)) by (apply Rmult_le_pos; lra).
    apply (Rmult_le_reg_r (val y * b)); [now apply Rmult_lt_0_compat|]. rewrite Rmult_assoc, Rinv_l, Rmult_1_r by (apply Rgt_not_eq, Rmult_lt_0_compat; lra).
    apply Rle_trans with (12 * (e53 * (a * b))).
    - apply Rle_trans with (Rabs ((val x - a) * b) + Rabs (- (a * (val y - b)))); [unfold Rminus at 1; apply Rabs_triang|]. rewrite Rabs_Ropp, !Rabs_mult, (Rabs_pos_eq b), (Rabs_pos_eq a) by lra.
      assert (X1 : Rabs (val x - a) * b <= 6 * (e53 * a) * b) by (apply Rmult_le_compat_r; lra). assert (X2 : a * Rabs (val y - b) <= a * (6 * (e53 * b))) by (apply Rmult_le_compat_l; lra). lra.
    - replace (12.1 * (e53 * (a / b)) * (val y * b)) with (12.1 * e53 * a * val y) by (field; lra). replace (12 * (e53 * (a * b))) with (12 * e53 * a * b) by ring.
      rewrite e53_eq in *. assert (12 * b <= 12.1 * val y) by lra. assert (0 <= / 9007199254740992 * a) by (apply Rmult_le_pos; lra).
      replace (12 * / 9007199254740992 * a * b) with ((/ 9007199254740992 * a) * (12 * b)) by ring. replace (12.1 * / 9007199254740992 * a * val y) with ((/ 9007199254740992 * a) * (12.1 * val y)) by ring. now apply Rmult_le_compat_l. }
  assert (LQ : a = 0 \/ bpow radix2 (-802) <= val x / val y).
  { destruct LA as [LA|LA]; [now left|right]. apply Rle_trans with (bpow radix2 (-401) * bpow radix2 (-401)); [rewrite <- bpow_plus; apply bpow_le; lia|]. unfold Rdiv.
    assert (E2 : bpow radix2 (-401) = / 2 * bpow radix2 (-400)) by (change (/ 2) with (bpow radix2 (-1)); rewrite <- bpow_plus; reflexivity).
    apply Rmult_le_compat; try apply bpow_ge_0.
    - apply Rabs_le_inv in HX. rewrite e53_eq in HX. rewrite E2. lra.
    - replace (bpow radix2 (-401)) with (/ bpow radix2 401) by (symmetry; apply (bpow_opp radix2 401)). apply Rinv_le_contravar; [exact PY0|].
      change 401%Z with (1 + 400)%Z. rewrite bpow_plus. change (bpow radix2 1) with 2. apply Rabs_le_inv in HY. rewrite e53_eq in HY. lra. }
  assert (PQ : 0 <= val x / val y) by (apply Rmult_le_pos; [exact PX|apply Rlt_le, Rinv_0_lt_compat, PY0]).
  assert (ZQ : val x / val y = 0 \/ bpow radix2 (-900) <= Rabs (val x / val y)).
  { rewrite Rabs_pos_eq by exact PQ. destruct LQ as [->|LQ].
    - left. unfold Rdiv in Q at 2 3. rewrite Rmult_0_l in Q. apply Rabs_le_inv in Q. lra.
    - right. apply Rle_trans with (2 := LQ). apply bpow_le. lia. }
  pose proof (rel2p _ PQ ZQ) as X.
  destruct (div_val x y (bpow radix2 810) Rx Ry ltac:(lra) (top_bound 810 ltac:(lia))) as (R1 & V1).
  { apply rnd_bound1; [lia|]. rewrite Rabs_pos_eq by exact PQ. apply Rle_trans with (2 * (a / b)); [apply Rabs_le_inv in Q; rewrite e53_eq in Q; lra|].
    apply Rle_trans with (2 * (bpow radix2 400 * bpow radix2 400)); [|change 2 with (bpow radix2 1); rewrite <- !bpow_plus; apply bpow_le; lia].
    apply Rmult_le_compat_l; [lra|]. unfold Rdiv. apply Rmult_le_compat; auto; [apply Rlt_le, Rinv_0_lt_compat, PB|].
    replace (bpow radix2 400) with (/ bpow radix2 (-400)) by (symmetry; apply (bpow_opp radix2 (-400))). apply Rinv_le_contravar; assumption. }
  split; [exact R1|]. rewrite V1. replace (bpow radix2 (-49)) with (16 * e53) by (change (-49)%Z with (4 + -53)%Z; rewrite bpow_plus; reflexivity).
  apply Rabs_le. apply Rabs_le_inv in X, Q. rewrite e53_eq in *. lra.
Qed.
