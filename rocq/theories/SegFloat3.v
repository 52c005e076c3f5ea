(* Distances of RANSAC in f64 arithmetic: coordinates of any kind, with absolute errors. *)
From Coq Require Import List ZArith Reals Lia Lra SpecFloat Psatz.
From Flocq Require Import Core.
From Flocq Require IEEE754.BinarySingleNaN.
From Verif Require Import Base LayoutModel BufferModel BufferSpec TraitModel TraitSpec MathModel MathSpec SegModel SegSpec SegProofs SegProofs2 SegReal LasGridSpec VoxSpec FloatReal F64Real NormSpec NormFloat LasFloat
  TilesBoxSpec HullSpec HullModel HullFloatSpec HullFloat HullFloat2 SegFloatSpec SegFloat SegFloat2.
Import ListNotations.
Open Scope R_scope.

(* ---- arithmetic with errors of c units of the last place of A, for numbers up to k A ---- *)
Definition ap (c k A : R) (x : spec_float) (r : R) : Prop := real_f64 x /\ Rabs (val x - r) <= c * (e53 * A) /\ Rabs r <= k * A.
Definition sized (A : R) : Prop := bpow radix2 (-700) <= A <= bpow radix2 700.
Lemma sized_pos A : sized A -> 0 < A.
Proof. intros (L & _). apply Rlt_le_trans with (2 := L), bpow_gt_0. Qed.
Lemma sized_tiny A : sized A -> tiny <= / 8 * (e53 * A).
Proof.
  intros (L & _). apply Rle_trans with (bpow radix2 (-3) * (bpow radix2 (-53) * bpow radix2 (-700))); [rewrite <- !bpow_plus; apply bpow_le; lia|].
  change (bpow radix2 (-3)) with (/ 8). apply Rmult_le_compat_l; [lra|]. apply Rmult_le_compat_l; [apply bpow_ge_0|exact L].
Qed.
Lemma sized_top A k x : sized A -> 0 <= k <= 15000 -> Rabs x <= k * A -> Rabs (rnd64 x) <= bpow radix2 800.
Proof.
  intros SA K H. pose proof (sized_pos A SA) as PA. destruct SA as (_ & U). apply rnd_bound1; [lia|]. apply Rle_trans with (1 := H). apply Rle_trans with (bpow radix2 100 * bpow radix2 700); [|rewrite <- bpow_plus; apply bpow_le; lia].
  apply Rmult_le_compat; [lra|lra| |exact U].
  apply Rle_trans with (bpow radix2 14); [|apply bpow_le; lia]. change (bpow radix2 14) with 16384. lra.
Qed.
Lemma ap_size c k A x r : 0 < A -> ap c k A x r -> Rabs (val x) <= (k + c * e53) * A.
Proof. intros P (_ & E & B). replace (val x) with ((val x - r) + r) by ring. apply Rle_trans with (1 := Rabs_triang _ _). lra. Qed.
Lemma ap_weak c c' k k' A x r : 0 < A -> ap c k A x r -> c <= c' -> k <= k' -> ap c' k' A x r.
Proof.
  intros P (R & E & B) HC HK. split; [exact R|]. split; [apply Rle_trans with (1 := E); apply Rmult_le_compat_r; [apply Rmult_le_pos; [apply bpow_ge_0|lra]|exact HC]|apply Rle_trans with (1 := B); apply Rmult_le_compat_r; lra].
Qed.
Lemma ap_round y r c k A : sized A -> 0 <= k <= 10000 -> 0 <= c <= 10000 -> Rabs (y - r) <= c * (e53 * A) -> Rabs r <= k * A -> Rabs (rnd64 y - r) <= (c + k + 1) * (e53 * A) /\ Rabs (rnd64 y) <= bpow radix2 800.
Proof.
  intros S K C E B. pose proof (sized_pos A S) as P. pose proof (sized_tiny A S) as T. pose proof (rnd_err y) as X.
  assert (Y : Rabs y <= (k + c * e53) * A). { replace y with ((y - r) + r) by ring. apply Rle_trans with (1 := Rabs_triang _ _). lra. }
  split; [|apply (sized_top A (k + c * e53)); [exact S|rewrite e53_eq; lra|exact Y]].
  replace (rnd64 y - r) with ((rnd64 y - y) + (y - r)) by ring. apply Rle_trans with (1 := Rabs_triang _ _).
  assert (Q : e53 * Rabs y <= e53 * ((k + c * e53) * A)) by (apply Rmult_le_compat_l; [apply bpow_ge_0|exact Y]).
  assert (Q2 : e53 * (c * e53 * A) <= / 8 * (e53 * A)).
  { replace (e53 * (c * e53 * A)) with ((c * e53) * (e53 * A)) by ring. apply Rmult_le_compat_r; [apply Rmult_le_pos; [apply bpow_ge_0|lra]|]. rewrite e53_eq. lra. }
  replace (e53 * ((k + c * e53) * A)) with (k * (e53 * A) + e53 * (c * e53 * A)) in Q by ring.
  assert (0 <= e53 * A) by (apply Rmult_le_pos; [apply bpow_ge_0|lra]). lra.
Qed.
Lemma ap_sum (x y : spec_float) (r s c d k l A : R) : ap c k A x r -> ap d l A y s -> Rabs (val x + val y - (r + s)) <= (c + d) * (e53 * A) /\ Rabs (r + s) <= (k + l) * A.
Proof.
  intros (_ & E1 & B1) (_ & E2 & B2). split.
  - replace (val x + val y - (r + s)) with ((val x - r) + (val y - s)) by ring. apply Rle_trans with (1 := Rabs_triang _ _). lra.
  - apply Rle_trans with (1 := Rabs_triang _ _). lra.
Qed.
Lemma ap_add x y r s c d k l A : sized A -> 0 <= k <= 1000 -> 0 <= l <= 1000 -> 0 <= c <= 1000 -> 0 <= d <= 1000 ->
  ap c k A x r -> ap d l A y s -> ap (c + d + k + l + 1) (k + l) A (f64_add x y) (r + s).
Proof.
  intros S K L C D X Y. destruct (ap_sum _ _ _ _ _ _ _ _ _ X Y) as (E & B). destruct (ap_round _ _ (c + d) (k + l) A S ltac:(lra) ltac:(lra) E B) as (E' & T).
  destruct (add_val x y _ (proj1 X) (proj1 Y) (top_bound 800 ltac:(lia)) T) as (R & V). split; [exact R|]. rewrite V. split; [lra|exact B].
Qed.
Lemma ap_neg x r c k A : ap c k A x r -> ap c k A (SFopp x) (- r).
Proof.
  intros ((F & V) & E & B). split; [split; destruct x; cbn in *; auto|]. rewrite val_opp. split; [|now rewrite Rabs_Ropp].
  replace (- val x - - r) with (- (val x - r)) by ring. now rewrite Rabs_Ropp.
Qed.
Lemma ap_sub x y r s c d k l A : sized A -> 0 <= k <= 1000 -> 0 <= l <= 1000 -> 0 <= c <= 1000 -> 0 <= d <= 1000 ->
  ap c k A x r -> ap d l A y s -> ap (c + d + k + l + 1) (k + l) A (f64_sub x y) (r - s).
Proof.
  intros S K L C D X Y. pose proof Y as (RY & EY & BY).
  assert (E : Rabs (val x - val y - (r - s)) <= (c + d) * (e53 * A)).
  { destruct X as (_ & E1 & _). replace (val x - val y - (r - s)) with ((val x - r) + - (val y - s)) by ring. apply Rle_trans with (1 := Rabs_triang _ _). rewrite Rabs_Ropp. lra. }
  assert (B : Rabs (r - s) <= (k + l) * A). { destruct X as (_ & _ & B1). unfold Rminus. apply Rle_trans with (1 := Rabs_triang _ _). rewrite Rabs_Ropp. lra. }
  destruct (ap_round _ _ (c + d) (k + l) A S ltac:(lra) ltac:(lra) E B) as (E' & T).
  destruct (sub_val x y _ (proj1 X) RY (top_bound 800 ltac:(lia)) T) as (R & V). split; [exact R|]. rewrite V. split; [lra|exact B].
Qed.
Lemma ap_mul x y r s c d k l A B : sized A -> sized B -> sized (A * B) -> 0 <= k <= 50 -> 0 <= l <= 50 -> 0 <= c <= 50 -> 0 <= d <= 50 ->
  ap c k A x r -> ap d l B y s -> ap (c * l + d * k + k * l + 2) (k * l) (A * B) (f64_mul x y) (r * s).
Proof.
  intros SA SB S K L C D (RX & EX & BX) (RY & EY & BY). pose proof (sized_pos A SA) as PA. pose proof (sized_pos B SB) as PB. pose proof (bpow_ge_0 radix2 (-53)) as PE.
  assert (Bd : Rabs (r * s) <= k * l * (A * B)).
  { rewrite Rabs_mult. replace (k * l * (A * B)) with ((k * A) * (l * B)) by ring. apply Rmult_le_compat; auto using Rabs_pos. }
  assert (E : Rabs (val x * val y - r * s) <= (c * l + d * k + 1) * (e53 * (A * B))).
  { replace (val x * val y - r * s) with ((val x - r) * s + r * (val y - s) + (val x - r) * (val y - s)) by ring.
    apply Rle_trans with (1 := Rabs_triang _ _). apply Rle_trans with (Rabs ((val x - r) * s) + Rabs (r * (val y - s)) + Rabs ((val x - r) * (val y - s))); [apply Rplus_le_compat_r, Rabs_triang|]. rewrite !Rabs_mult.
    assert (H1 : Rabs (val x - r) * Rabs s <= c * (e53 * A) * (l * B)) by (apply Rmult_le_compat; auto using Rabs_pos).
    assert (H2 : Rabs r * Rabs (val y - s) <= k * A * (d * (e53 * B))) by (apply Rmult_le_compat; auto using Rabs_pos).
    assert (H3 : Rabs (val x - r) * Rabs (val y - s) <= c * (e53 * A) * (d * (e53 * B))) by (apply Rmult_le_compat; auto using Rabs_pos).
    assert (H4 : c * (e53 * A) * (d * (e53 * B)) <= 1 * (e53 * (A * B))).
    { replace (c * (e53 * A) * (d * (e53 * B))) with (c * d * e53 * (e53 * (A * B))) by ring. apply Rmult_le_compat_r; [apply Rmult_le_pos; [exact PE|apply Rmult_le_pos; lra]|]. assert (c * d <= 2500) by nra. assert (0 <= c * d) by nra. rewrite e53_eq. lra. }
    lra. }
  assert (0 <= c * l <= 2500) by nra. assert (0 <= d * k <= 2500) by nra. assert (0 <= k * l <= 2500) by nra.
  destruct (ap_round _ _ (c * l + d * k + 1) (k * l) (A * B) S ltac:(lra) ltac:(lra) E Bd) as (E' & T).
  destruct (mul_val x y _ RX RY (top_bound 800 ltac:(lia)) T) as (R & V). split; [exact R|]. rewrite V. split; [lra|exact Bd].
Qed.
(* vectors *)
Definition ap3 (c k A : R) (u : p3 spec_float) (r : p3 R) : Prop := ap c k A (px u) (px r) /\ ap c k A (py u) (py r) /\ ap c k A (pz u) (pz r).
Lemma ap3_cross A B u v r s : sized A -> sized B -> sized (A * B) -> ap3 2 1 A u r -> ap3 2 1 B v s -> ap3 17 2 (A * B) (v_cross f64_ops u v) (v_cross r_ops r s).
Proof.
  intros SA SB S (X1 & X2 & X3) (Y1 & Y2 & Y3).
  assert (ML : forall x y p q, ap 2 1 A x p -> ap 2 1 B y q -> ap 7 1 (A * B) (f64_mul x y) (p * q)).
  { intros x y p q X Y. apply (ap_weak (2 * 1 + 2 * 1 + 1 * 1 + 2) 7 (1 * 1) 1); [now apply sized_pos| |lra|lra]. apply ap_mul; auto; lra. }
  assert (SUB : forall x y p q, ap 7 1 (A * B) x p -> ap 7 1 (A * B) y q -> ap 17 2 (A * B) (f64_sub x y) (p - q)).
  { intros x y p q X Y. apply (ap_weak (7 + 7 + 1 + 1 + 1) 17 (1 + 1) 2); [now apply sized_pos| |lra|lra]. apply ap_sub; auto; lra. }
  split; [|split]; cbn; apply SUB; apply ML; assumption.
Qed.
Lemma ap3_dot A B u v r s : sized A -> sized B -> sized (A * B) -> ap3 17 2 A u r -> ap3 0 1 B v s -> ap 75 6 (A * B) (v_dot f64_ops u v) (v_dot r_ops r s).
Proof.
  intros SA SB S (X1 & X2 & X3) (Y1 & Y2 & Y3). pose proof (sized_pos _ S) as P.
  assert (ML : forall x y p q, ap 17 2 A x p -> ap 0 1 B y q -> ap 21 2 (A * B) (f64_mul x y) (p * q)).
  { intros x y p q X Y. apply (ap_weak (17 * 1 + 0 * 2 + 2 * 1 + 2) 21 (2 * 1) 2); [exact P| |lra|lra]. apply ap_mul; auto; lra. }
  cbn. apply (ap_weak (47 + 21 + 4 + 2 + 1) 75 (4 + 2) 6); [exact P| |lra|lra]. apply ap_add; auto; try lra.
  apply (ap_weak (21 + 21 + 2 + 2 + 1) 47 (2 + 2) 4); [exact P| |lra|lra]. apply ap_add; auto; try lra.
Qed.
(* a difference of coordinates, in units of a bound of the difference *)
Lemma ap_diff x y A : sized A -> real_f64 x -> real_f64 y -> Rabs (val x - val y) <= A -> ap 2 1 A (f64_sub x y) (val x - val y).
Proof.
  intros S X Y B. pose proof (sized_pos _ S) as P. destruct (ap_round (val x - val y) (val x - val y) 0 1 A S ltac:(lra) ltac:(lra)) as (E & T); [rewrite Rminus_eq_0, Rabs_R0; lra|lra|].
  destruct (sub_val x y _ X Y (top_bound 800 ltac:(lia)) T) as (R & V). split; [exact R|]. rewrite V. split; [lra|lra].
Qed.

(* ---- norms ---- *)
Lemma dot_nonneg (u : p3 R) : 0 <= dotr u u.
Proof. rewrite dotr_eq. apply sum_squares. Qed.
Lemma cauchy (u v : p3 R) : Rabs (dotr u v) <= sqrt (dotr u u) * sqrt (dotr v v).
Proof.
  rewrite <- sqrt_mult by apply dot_nonneg. rewrite <- sqrt_Rsqr_abs. apply sqrt_le_1_alt. unfold Rsqr. rewrite !dotr_eq.
  pose proof (Rle_0_sqr (px u * py v - py u * px v)) as A. pose proof (Rle_0_sqr (px u * pz v - pz u * px v)) as B. pose proof (Rle_0_sqr (py u * pz v - pz u * py v)) as C. unfold Rsqr in *. lra.
Qed.
Lemma norm_dist (u v : p3 R) : Rabs (sqrt (dotr u u) - sqrt (dotr v v)) <= sqrt (dotr (minus3 u v) (minus3 u v)).
Proof.
  rewrite <- sqrt_Rsqr_abs. apply sqrt_le_1_alt. pose proof (cauchy u v) as C. apply Rabs_le_inv in C.
  assert (X : Rsqr (sqrt (dotr u u) - sqrt (dotr v v)) = dotr u u + dotr v v - 2 * (sqrt (dotr u u) * sqrt (dotr v v))).
  { unfold Rsqr. replace ((sqrt (dotr u u) - sqrt (dotr v v)) * (sqrt (dotr u u) - sqrt (dotr v v))) with (sqrt (dotr u u) * sqrt (dotr u u) + sqrt (dotr v v) * sqrt (dotr v v) - 2 * (sqrt (dotr u u) * sqrt (dotr v v))) by ring.
    now rewrite !sqrt_sqrt by apply dot_nonneg. }
  rewrite X. assert (Y : dotr (minus3 u v) (minus3 u v) = dotr u u + dotr v v - 2 * dotr u v) by (rewrite !dotr_eq; unfold minus3; cbn [px py pz]; ring). lra.
Qed.
Lemma norm_le (u : p3 R) d : 0 <= d -> Rabs (px u) <= d -> Rabs (py u) <= d -> Rabs (pz u) <= d -> sqrt (dotr u u) <= 2 * d.
Proof.
  intros P A B C. rewrite <- (sqrt_Rsqr (2 * d)) by lra. apply sqrt_le_1_alt. rewrite dotr_eq. unfold Rsqr.
  assert (SQ : forall x, Rabs x <= d -> x * x <= d * d) by (intros x H; rewrite <- (Rabs_pos_eq (x * x)) by apply Rle_0_sqr; rewrite Rabs_mult; apply Rmult_le_compat; auto using Rabs_pos).
  pose proof (SQ _ A). pose proof (SQ _ B). pose proof (SQ _ C). assert (0 <= d * d) by nra. lra.
Qed.
Definition point_of (v : p3 spec_float) : p3 R := mk_p3 (val (px v)) (val (py v)) (val (pz v)).
Definition real3 (v : p3 spec_float) : Prop := real_f64 (px v) /\ real_f64 (py v) /\ real_f64 (pz v).

Section AnyNorm.
Variable v : p3 spec_float.
Hypothesis RV : real3 v.
Hypothesis UV : Rabs (val (px v)) <= bpow radix2 490 /\ Rabs (val (py v)) <= bpow radix2 490 /\ Rabs (val (pz v)) <= bpow radix2 490.
Let N := dotr (point_of v) (point_of v).
Lemma sq_any x : real_f64 x -> Rabs (val x) <= bpow radix2 490 -> real_f64 (f64_mul x x) /\ Rabs (val (f64_mul x x) - val x * val x) <= e53 * (val x * val x) + tiny /\ 0 <= val x * val x <= bpow radix2 980.
Proof.
  intros R B. assert (P : 0 <= val x * val x) by apply Rle_0_sqr.
  assert (U : val x * val x <= bpow radix2 980). { rewrite <- (Rabs_pos_eq (val x * val x)) by exact P. rewrite Rabs_mult. change 980%Z with (490 + 490)%Z. rewrite bpow_plus. apply Rmult_le_compat; auto using Rabs_pos. }
  destruct (mul_val x x (bpow radix2 980) R R (top_bound 980 ltac:(lia))) as (R1 & V1); [apply rnd_bound1; [lia|rewrite Rabs_pos_eq; auto]|].
  split; [exact R1|]. rewrite V1. split; [|auto]. pose proof (rnd_err (val x * val x)) as X. rewrite (Rabs_pos_eq (val x * val x) P) in X. exact X.
Qed.
Lemma square_any : real_f64 (v_dot f64_ops v v) /\ Rabs (val (v_dot f64_ops v v) - N) <= 4 * (e53 * N) + 8 * tiny.
Proof.
  destruct RV as (Rx & Ry & Rz). destruct UV as (Ux & Uy & Uz).
  destruct (sq_any _ Rx Ux) as (R1 & E1 & P1 & T1). destruct (sq_any _ Ry Uy) as (R2 & E2 & P2 & T2). destruct (sq_any _ Rz Uz) as (R3 & E3 & P3 & T3).
  change (v_dot f64_ops v v) with (f64_add (f64_add (f64_mul (px v) (px v)) (f64_mul (py v) (py v))) (f64_mul (pz v) (pz v))).
  unfold N. rewrite dotr_eq. unfold point_of. cbn [px py pz]. set (s1 := f64_mul (px v) (px v)) in *. set (s2 := f64_mul (py v) (py v)) in *. set (s3 := f64_mul (pz v) (pz v)) in *.
  set (x1 := val (px v) * val (px v)) in *. set (x2 := val (py v) * val (py v)) in *. set (x3 := val (pz v) * val (pz v)) in *. set (B := bpow radix2 980) in *.
  assert (TT : 0 < tiny <= / 1000) by (split; [apply bpow_gt_0|apply Rle_trans with (bpow radix2 (-10)); [apply bpow_le; lia|change (bpow radix2 (-10)) with (/ 1024); lra]]).
  assert (B1 : 1 <= B) by (change 1 with (bpow radix2 0); apply bpow_le; lia). assert (TOP : bpow radix2 984 = 16 * B) by (change 984%Z with (4 + 980)%Z; rewrite bpow_plus; reflexivity).
  apply Rabs_le_inv in E1, E2, E3. rewrite e53_eq in *.
  destruct (add_val s1 s2 (bpow radix2 984) R1 R2 (top_bound 984 ltac:(lia))) as (R4 & V4). { apply rnd_bound1; [lia|]. rewrite TOP. apply Rabs_le. lra. }
  pose proof (rnd_err (val s1 + val s2)) as X1. rewrite <- V4 in X1. set (t := f64_add s1 s2) in *. rewrite e53_eq in X1.
  assert (X1' : Rabs (val s1 + val s2) <= x1 + x2 + (/ 9007199254740992 * (x1 + x2) + 2 * tiny)) by (apply Rabs_le; lra).
  assert (X1'' : Rabs (val t - (val s1 + val s2)) <= / 9007199254740992 * (x1 + x2 + (/ 9007199254740992 * (x1 + x2) + 2 * tiny)) + tiny) by lra. apply Rabs_le_inv in X1''.
  destruct (add_val t s3 (bpow radix2 984) R4 R3 (top_bound 984 ltac:(lia))) as (R5 & V5). { apply rnd_bound1; [lia|]. rewrite TOP. apply Rabs_le. lra. }
  pose proof (rnd_err (val t + val s3)) as X2. rewrite <- V5 in X2. rewrite e53_eq in X2.
  assert (X2' : Rabs (val t + val s3) <= 1.1 * (x1 + x2 + x3) + 6 * tiny) by (apply Rabs_le; lra).
  assert (X2'' : Rabs (val (f64_add t s3) - (val t + val s3)) <= / 9007199254740992 * (1.1 * (x1 + x2 + x3) + 6 * tiny) + tiny) by lra. apply Rabs_le_inv in X2''.
  split; [exact R5|]. apply Rabs_le. lra.
Qed.
Lemma norm_any : real_f64 (v_norm f64_ops v) /\ Rabs (val (v_norm f64_ops v) - sqrt N) <= 6 * (e53 * sqrt N) + bpow radix2 (-390).
Proof.
  destruct square_any as (RS & ES). set (S := v_dot f64_ops v v) in *. pose proof (dot_nonneg (point_of v)) as PN. fold N in PN.
  unfold v_norm. fold S. change (o_sqrt f64_ops) with (SFsqrt 53 1024). assert (T1 : 8 * tiny <= e53 * bpow radix2 (-800)).
  { change 8 with (bpow radix2 3). rewrite <- !bpow_plus. apply bpow_le. lia. }
  pose proof (bpow_gt_0 radix2 (-390)) as P390. pose proof (bpow_ge_0 radix2 (-53)) as PE. pose proof (bpow_gt_0 radix2 (-1074)) as PT0.
  destruct (Rle_lt_dec (bpow radix2 (-800)) N) as [BIG|SMALL].
  - assert (D : Rabs (val S - N) <= 7 * (e53 * N)).
    { assert (e53 * bpow radix2 (-800) <= e53 * N) by (apply Rmult_le_compat_l; auto). assert (0 <= e53 * N) by (apply Rmult_le_pos; auto). lra. }
    pose proof (bpow_gt_0 radix2 (-800)) as P8. assert (PN0 : 0 < N) by lra. assert (PS : / 2 * N <= val S) by (apply Rabs_le_inv in D; rewrite e53_eq in D; lra).
    pose proof (sum_bound (val S) N PN0 ltac:(lra) D) as SB. destruct (sqrt_val S RS ltac:(lra)) as (R6 & V6). split; [exact R6|]. rewrite V6. pose proof (sqrt_lt_R0 N PN0) as PQ.
    assert (HS : bpow radix2 (-402) <= sqrt (val S)).
    { rewrite <- (sqrt_Rsqr (bpow radix2 (-402))) by apply bpow_ge_0. apply sqrt_le_1_alt. unfold Rsqr. rewrite <- bpow_plus. apply Rle_trans with (2 := PS). apply Rle_trans with (/ 2 * bpow radix2 (-800)); [change (/ 2) with (bpow radix2 (-1)); rewrite <- bpow_plus; apply bpow_le; lia|lra]. }
    assert (X4 : bpow radix2 (-900) <= bpow radix2 (-402)) by (apply bpow_le; lia). pose proof (rel2p (sqrt (val S)) (sqrt_pos _)) as X3. rewrite (Rabs_pos_eq (sqrt (val S))) in X3 by apply sqrt_pos. specialize (X3 ltac:(right; lra)).
    apply Rabs_le. apply Rabs_le_inv in X3, SB. rewrite e53_eq in *. lra.
  - assert (HS : val S <= bpow radix2 (-798)).
    { apply Rabs_le_inv in ES. change (-798)%Z with (2 + -800)%Z. rewrite (bpow_plus radix2 2). change (bpow radix2 2) with 4. rewrite e53_eq in *. lra. }
    (* the sum of rounded squares is not negative *)
    assert (PS : 0 <= val S).
    { destruct RV as (Rx & Ry & Rz). destruct UV as (Ux & Uy & Uz). destruct (sq_any _ Rx Ux) as (R1 & _ & P1 & T1'). destruct (sq_any _ Ry Uy) as (R2 & _ & P2 & T2). destruct (sq_any _ Rz Uz) as (R3 & _ & P3 & T3).
      assert (RP : forall y, 0 <= y -> 0 <= rnd64 y) by (intros y H; unfold rnd64; rewrite <- (rnd_0 53 1024); apply rnd_le; [exact H53|exact H]).
      assert (Q : forall x, real_f64 x -> Rabs (val x) <= bpow radix2 490 -> 0 <= val (f64_mul x x) <= bpow radix2 981).
      { intros x R B. destruct (sq_any x R B) as (_ & E & P & T). apply Rabs_le_inv in E. destruct (mul_val x x (bpow radix2 980) R R (top_bound 980 ltac:(lia))) as (_ & V); [apply rnd_bound1; [lia|rewrite Rabs_pos_eq; auto]|].
        split; [rewrite V; now apply RP|]. rewrite V. apply Rle_trans with (Rabs (rnd64 (val x * val x))); [apply Rle_abs|]. apply Rle_trans with (bpow radix2 980); [apply rnd_bound1; [lia|rewrite Rabs_pos_eq; auto]|apply bpow_le; lia]. }
      destruct (Q _ Rx Ux) as (A1 & A2). destruct (Q _ Ry Uy) as (A3 & A4). destruct (Q _ Rz Uz) as (A5 & A6).
      assert (D981 : forall k, bpow radix2 (1 + k) = 2 * bpow radix2 k) by (intros; rewrite bpow_plus; reflexivity).
      destruct (add_val _ _ (bpow radix2 982) R1 R2 (top_bound 982 ltac:(lia))) as (R4 & V4). { apply rnd_bound1; [lia|]. rewrite Rabs_pos_eq by lra. change 982%Z with (1 + 981)%Z. rewrite D981. lra. }
      assert (A7 : 0 <= val (f64_add (f64_mul (px v) (px v)) (f64_mul (py v) (py v))) <= bpow radix2 982).
      { rewrite V4. split; [apply RP; lra|]. apply Rle_trans with (1 := Rle_abs _). apply rnd_bound1; [lia|]. rewrite Rabs_pos_eq by lra. change 982%Z with (1 + 981)%Z. rewrite D981. lra. }
      destruct (add_val _ _ (bpow radix2 983) R4 R3 (top_bound 983 ltac:(lia))) as (R5 & V5). { apply rnd_bound1; [lia|]. rewrite Rabs_pos_eq by lra. change 983%Z with (1 + 982)%Z. rewrite D981. assert (bpow radix2 981 <= bpow radix2 982) by (apply bpow_le; lia). lra. }
      change (val S) with (val (f64_add (f64_add (f64_mul (px v) (px v)) (f64_mul (py v) (py v))) (f64_mul (pz v) (pz v)))). rewrite V5. apply RP. lra. }
    destruct (sqrt_val S RS PS) as (R6 & V6). split; [exact R6|]. rewrite V6.
    assert (Q1 : sqrt (val S) <= bpow radix2 (-399)). { rewrite <- (sqrt_Rsqr (bpow radix2 (-399))) by apply bpow_ge_0. apply sqrt_le_1_alt. unfold Rsqr. rewrite <- bpow_plus. exact HS. }
    assert (Q2 : sqrt N <= bpow radix2 (-400)). { rewrite <- (sqrt_Rsqr (bpow radix2 (-400))) by apply bpow_ge_0. apply sqrt_le_1_alt. unfold Rsqr. rewrite <- bpow_plus. change (-400 + -400)%Z with (-800)%Z. lra. }
    pose proof (sqrt_pos (val S)) as Q3. pose proof (sqrt_pos N) as Q4.
    assert (Q5 : Rabs (rnd64 (sqrt (val S))) <= bpow radix2 (-399)) by (apply rnd_bound1; [lia|rewrite Rabs_pos_eq; auto]). apply Rabs_le_inv in Q5.
    assert (Q6 : bpow radix2 (-399) + bpow radix2 (-400) <= bpow radix2 (-390)).
    { change (-390)%Z with (10 + -400)%Z. change (-399)%Z with (1 + -400)%Z. rewrite !(bpow_plus radix2 _ (-400)). change (bpow radix2 10) with 1024. change (bpow radix2 1) with 2. pose proof (bpow_ge_0 radix2 (-400)). lra. }
    assert (0 <= e53 * sqrt N) by (apply Rmult_le_pos; auto). apply Rabs_le. lra.
Qed.
End AnyNorm.
