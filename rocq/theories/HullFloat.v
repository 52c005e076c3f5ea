(* The convex hull in f64 arithmetic: with coordinates on a grid all determinants are exact. *)
From Coq Require Import List ZArith Reals Lia Lra SpecFloat Psatz.
From Flocq Require Import Core BinarySingleNaN.
From Verif Require Import Base MathModel MathSpec SegModel SegSpec LasGridSpec VoxSpec FloatReal F64Real NormSpec NormFloat LasFloat TilesBoxProofs HullModel HullSpec HullFloatSpec.
Import ListNotations.
Open Scope R_scope.

(* ---- exact operations ---- *)
Definition on (e K : Z) (x : spec_float) (r : R) : Prop := real_f64 x /\ val x = r /\ exists k, r = IZR k * bpow radix2 e /\ (Z.abs k <= K)%Z.
Lemma on_val e K x r : on e K x r -> val x = r.
Proof. intros (_ & E & _). exact E. Qed.
Lemma on_real e K x r : on e K x r -> real_f64 x.
Proof. intros (E & _). exact E. Qed.
Lemma on_weak e K L x r : on e K x r -> (K <= L)%Z -> on e L x r.
Proof. intros (A & B & k & E & H) KL. split; [exact A|]. split; [exact B|]. exists k. split; [exact E|lia]. Qed.
Lemma grid_size e k : (Z.abs k <= 2 ^ 53)%Z -> Rabs (IZR k * bpow radix2 e) <= bpow radix2 (53 + e).
Proof.
  intros H. rewrite Rabs_mult, (Rabs_pos_eq (bpow _ _)) by apply bpow_ge_0. rewrite bpow_plus. apply Rmult_le_compat_r; [apply bpow_ge_0|].
  rewrite <- abs_IZR. change (bpow radix2 53) with (IZR (2 ^ 53)). now apply IZR_le.
Qed.
Section Ops.
Variable e : Z.
Hypothesis E : (-1000 <= e <= 900)%Z.
Lemma sum_on k l K L : (Z.abs k <= K)%Z -> (Z.abs l <= L)%Z -> (K + L <= 2 ^ 53)%Z ->
  rnd64 (IZR k * bpow radix2 e + IZR l * bpow radix2 e) = IZR k * bpow radix2 e + IZR l * bpow radix2 e
  /\ IZR k * bpow radix2 e + IZR l * bpow radix2 e = IZR (k + l) * bpow radix2 e.
Proof.
  intros A B C. assert (X : IZR k * bpow radix2 e + IZR l * bpow radix2 e = IZR (k + l) * bpow radix2 e) by (rewrite plus_IZR; ring).
  split; [|exact X]. rewrite X. apply rnd_multiple; [|lia]. revert C. generalize (2 ^ 53)%Z. intros. lia.
Qed.
Lemma add_on x y r s K L : on e K x r -> on e L y s -> (K + L <= 2 ^ 53)%Z -> on e (K + L) (f64_add x y) (r + s).
Proof.
  intros (Rx & Vx & k & Ek & Bk) (Ry & Vy & l & El & Bl) B. destruct (sum_on k l K L Bk Bl B) as (RN & EQ).
  destruct (add_val x y (bpow radix2 (53 + e)) Rx Ry (top_bound (53 + e) ltac:(lia))) as (RR & V).
  { rewrite Vx, Vy, Ek, El, RN, EQ. apply grid_size. revert B. generalize (2 ^ 53)%Z. intros. lia. }
  split; [exact RR|]. rewrite V, Vx, Vy, Ek, El. split; [exact RN|]. exists (k + l)%Z. split; [exact EQ|lia].
Qed.
Lemma sub_on x y r s K L : on e K x r -> on e L y s -> (K + L <= 2 ^ 53)%Z -> on e (K + L) (f64_sub x y) (r - s).
Proof.
  intros (Rx & Vx & k & Ek & Bk) (Ry & Vy & l & El & Bl) B. destruct (sum_on k (- l) K L Bk ltac:(lia) B) as (RN & EQ).
  assert (ES : IZR k * bpow radix2 e + IZR (- l) * bpow radix2 e = r - s) by (rewrite opp_IZR, Ek, El; ring). rewrite ES in RN, EQ.
  destruct (sub_val x y (bpow radix2 (53 + e)) Rx Ry (top_bound (53 + e) ltac:(lia))) as (RR & V).
  { rewrite Vx, Vy, RN, EQ. apply grid_size. revert B. generalize (2 ^ 53)%Z. intros. lia. }
  split; [exact RR|]. rewrite V, Vx, Vy. split; [exact RN|]. exists (k + - l)%Z. split; [exact EQ|lia].
Qed.
Lemma neg_on x r K : on e K x r -> on e K (SFopp x) (- r).
Proof.
  intros (Rx & Vx & k & Ek & Bk). assert (WX : W (53 + e + 1000) x -> True) by auto. split; [|split].
  - destruct Rx as (F & V). split; [destruct x; cbn in *; auto|destruct x; cbn in *; auto].
  - rewrite val_opp, Vx. reflexivity.
  - exists (- k)%Z. split; [rewrite opp_IZR, Ek; ring|lia].
Qed.
End Ops.
Lemma mul_on e f x y r s K L : (-1000 <= e + f <= 900)%Z -> on e K x r -> on f L y s -> (K * L <= 2 ^ 53)%Z -> on (e + f) (K * L) (f64_mul x y) (r * s).
Proof.
  intros E (Rx & Vx & k & Ek & Bk) (Ry & Vy & l & El & Bl) B.
  assert (EQ : r * s = IZR (k * l) * bpow radix2 (e + f)) by (rewrite Ek, El, mult_IZR, bpow_plus; ring).
  assert (BB : (Z.abs (k * l) <= K * L)%Z) by (rewrite Z.abs_mul; apply Z.mul_le_mono_nonneg; lia).
  assert (RN : rnd64 (r * s) = r * s) by (rewrite EQ; apply rnd_multiple; lia).
  destruct (mul_val x y (bpow radix2 (53 + (e + f))) Rx Ry (top_bound (53 + (e + f)) ltac:(lia))) as (RR & V).
  { rewrite Vx, Vy, RN, EQ. apply grid_size. lia. }
  split; [exact RR|]. rewrite V, Vx, Vy. split; [exact RN|]. exists (k * l)%Z. auto.
Qed.

(* ---- vectors ---- *)
Definition on3 (e K : Z) (u : p3 spec_float) (v : p3 R) : Prop := on e K (px u) (px v) /\ on e K (py u) (py v) /\ on e K (pz u) (pz v).
Lemma sub3 e K L u v r s : (-1000 <= e <= 900)%Z -> on3 e K u r -> on3 e L v s -> (K + L <= 2 ^ 53)%Z -> on3 e (K + L) (v_sub f64_ops u v) (v_sub r_ops r s).
Proof. intros E (A & B & C) (A' & B' & C') H. split; [|split]; cbn; now apply sub_on. Qed.
Lemma cross_on e f K L u v r s : (-1000 <= e + f <= 900)%Z -> (0 <= K)%Z -> (0 <= L)%Z -> on3 e K u r -> on3 f L v s -> (K * L + K * L <= 2 ^ 53)%Z ->
  on3 (e + f) (K * L + K * L) (v_cross f64_ops u v) (v_cross r_ops r s).
Proof. intros E PK PL (A & B & C) (A' & B' & C') H. split; [|split]; cbn; apply sub_on; auto; apply mul_on; auto; nia. Qed.
Lemma dot_on e f K L u v r s : (-1000 <= e + f <= 900)%Z -> (0 <= K)%Z -> (0 <= L)%Z -> on3 e K u r -> on3 f L v s -> (K * L + K * L + K * L <= 2 ^ 53)%Z ->
  on (e + f) (K * L + K * L + K * L) (v_dot f64_ops u v) (v_dot r_ops r s).
Proof. intros E PK PL (A & B & C) (A' & B' & C') H. cbn. apply add_on; auto; [apply add_on; auto|]; try apply mul_on; auto; nia. Qed.
Lemma neg3 e K u r : on3 e K u r -> on3 e K (v_neg f64_hops u) (v_neg r_hops r).
Proof. intros (A & B & C). split; [|split]; cbn; now apply neg_on. Qed.
Lemma lt0 e K x r : on e K x r -> SFltb x (S754_zero false) = (if Rlt_dec r 0 then true else false).
Proof.
  intros (R & V & _). unfold SFltb. rewrite (compare_correct 53 1024 x (S754_zero false) (proj1 (f64_valid x) (proj2 R)) eq_refl (proj1 (finite_SF x) (proj1 R)) eq_refl).
  fold (val x). rewrite V. change (value (S754_zero false)) with 0. destruct (Rcompare_spec r 0), (Rlt_dec r 0); try reflexivity; lra.
Qed.
Lemma eq0 e K x r : on e K x r -> SFeqb x (S754_zero false) = (if Req_EM_T r 0 then true else false).
Proof.
  intros (R & V & _). unfold SFeqb. rewrite (compare_correct 53 1024 x (S754_zero false) (proj1 (f64_valid x) (proj2 R)) eq_refl (proj1 (finite_SF x) (proj1 R)) eq_refl).
  fold (val x). rewrite V. change (value (S754_zero false)) with 0. destruct (Rcompare_spec r 0), (Req_EM_T r 0); try reflexivity; lra.
Qed.

(* ---- the third point: the test for points on a line ---- *)
Lemma bpow_band e : (-200 <= e <= 200)%Z -> 0 < tiny <= e53 * bpow radix2 e /\ bpow radix2 e <= bpow radix2 200.
Proof.
  intros E. assert (B : bpow radix2 (-200) <= bpow radix2 e <= bpow radix2 200) by (split; apply bpow_le; lia). split; [|apply B].
  split; [apply bpow_gt_0|]. apply Rle_trans with (e53 * bpow radix2 (-200)).
  - rewrite <- bpow_plus. apply bpow_le. lia.
  - apply Rmult_le_compat_l; [apply bpow_ge_0|apply B].
Qed.
Lemma rel_err e x m : (-200 <= e <= 200)%Z -> bpow radix2 e <= m -> forall c, 0 <= c -> Rabs x <= c * m -> Rabs (rnd64 x - x) <= (c + 1) * (e53 * m).
Proof.
  intros E M c C H. destruct (bpow_band e E) as ((T0 & T) & _). assert (P : 0 < e53) by apply bpow_gt_0.
  pose proof (err_bound x (c * m) (e53 * m) H) as X. apply Rle_trans with (e53 * (c * m) + e53 * m); [|right; ring]. apply X.
  apply Rle_trans with (1 := T). apply Rmult_le_compat_l; lra.
Qed.
Lemma quot_err u s S : 0 < S -> Rabs u <= S -> Rabs (s - S) <= 2 * (e53 * S) -> 0 < s /\ Rabs (u / s - u / S) <= 3 * e53.
Proof.
  intros PS U H. rewrite e53_eq in *. assert (LS : S * (1 - 2 * / 9007199254740992) <= s) by (apply Rabs_le_inv in H; lra). assert (P : 0 < s) by lra. split; [exact P|].
  replace (u / s - u / S) with (u * (S - s) / (s * S)) by (field; lra). unfold Rdiv. rewrite Rabs_mult, Rabs_inv, (Rabs_pos_eq (s * S)) by (apply Rmult_le_pos; lra).
  apply (Rmult_le_reg_r (s * S)); [now apply Rmult_lt_0_compat|]. rewrite Rmult_assoc, Rinv_l, Rmult_1_r by (apply Rgt_not_eq, Rmult_lt_0_compat; lra).
  rewrite Rabs_mult. rewrite Rabs_minus_sym in H.
  apply Rle_trans with (S * (2 * (/ 9007199254740992 * S))); [apply Rmult_le_compat; auto using Rabs_pos|].
  replace (3 * / 9007199254740992 * (s * S)) with (S * (3 * / 9007199254740992 * s)) by ring. apply Rmult_le_compat_l; lra.
Qed.
Lemma prod_err w n c A : 0 <= A -> Rabs w <= A -> Rabs c <= 1 -> Rabs (n - c) <= 6 * e53 -> Rabs (w * n) <= 2 * A /\ Rabs (w * n - w * c) <= 6 * (e53 * A).
Proof.
  intros PA W C H. rewrite e53_eq in *. split.
  - rewrite Rabs_mult, (Rmult_comm 2). apply Rmult_le_compat; auto using Rabs_pos. apply Rabs_le. apply Rabs_le_inv in C, H. lra.
  - replace (w * n - w * c) with (w * (n - c)) by ring. rewrite Rabs_mult. replace (6 * (/ 9007199254740992 * A)) with (A * (6 * / 9007199254740992)) by ring. apply Rmult_le_compat; auto using Rabs_pos.
Qed.

Definition dotr (u v : p3 R) : R := v_dot r_ops u v.
Lemma dotr_eq u v : dotr u v = px u * px v + py u * py v + pz u * pz v.
Proof. reflexivity. Qed.
Lemma comp_le u : Rabs (px u) <= sqrt (dotr u u) /\ Rabs (py u) <= sqrt (dotr u u) /\ Rabs (pz u) <= sqrt (dotr u u).
Proof.
  rewrite dotr_eq. pose proof (Rle_0_sqr (px u)) as A. pose proof (Rle_0_sqr (py u)) as B. pose proof (Rle_0_sqr (pz u)) as C. unfold Rsqr in *.
  split; [|split]; rewrite <- sqrt_Rsqr_abs; apply sqrt_le_1_alt; unfold Rsqr; lra.
Qed.
Lemma grid_norm e K u : on (2 * e) K u (val u) -> 0 < val u -> bpow radix2 e <= sqrt (val u).
Proof.
  intros (_ & _ & k & E & _) P. assert (K1 : (1 <= k)%Z).
  { assert (0 < k)%Z; [|lia]. apply lt_IZR. pose proof (bpow_gt_0 radix2 (2 * e)). rewrite E in P. destruct (Rlt_or_le 0 (IZR k)); auto. nra. }
  rewrite E. rewrite <- (sqrt_Rsqr (bpow radix2 e)) by apply bpow_ge_0. apply sqrt_le_1_alt. unfold Rsqr. rewrite <- bpow_plus. replace (e + e)%Z with (2 * e)%Z by lia.
  rewrite <- (Rmult_1_l (bpow radix2 (2 * e))) at 1. apply Rmult_le_compat_r; [apply bpow_ge_0|]. now apply IZR_le.
Qed.
Lemma dot_pos u : dotr u u <> 0 -> 0 < dotr u u.
Proof. rewrite dotr_eq. intros N. pose proof (Rle_0_sqr (px u)) as A. pose proof (Rle_0_sqr (py u)) as B. pose proof (Rle_0_sqr (pz u)) as C. unfold Rsqr in *. lra. Qed.
(* the norm of a vector of the grid *)
Lemma norm_near e fu u : (-200 <= e <= 200)%Z -> on3 e (2 ^ 16) fu u -> dotr u u <> 0 ->
  bpow radix2 e <= sqrt (dotr u u) /\ sqrt (dotr u u) <= bpow radix2 (e + 17) /\ real_f64 (v_norm f64_ops fu) /\ Rabs (val (v_norm f64_ops fu) - sqrt (dotr u u)) <= 2 * (e53 * sqrt (dotr u u)).
Proof.
  intros E U N. assert (D : on (e + e) (2 ^ 16 * 2 ^ 16 + 2 ^ 16 * 2 ^ 16 + 2 ^ 16 * 2 ^ 16) (v_dot f64_ops fu fu) (dotr u u)) by (apply dot_on; auto; lia).
  pose proof (dot_pos u N) as P. assert (V : val (v_dot f64_ops fu fu) = dotr u u) by apply (on_val _ _ _ _ D).
  destruct (sqrt_val (v_dot f64_ops fu fu) (on_real _ _ _ _ D) ltac:(rewrite V; lra)) as (R & VS).
  assert (LO : bpow radix2 e <= sqrt (dotr u u)). { rewrite <- V. apply (grid_norm e (2 ^ 16 * 2 ^ 16 + 2 ^ 16 * 2 ^ 16 + 2 ^ 16 * 2 ^ 16)); [rewrite V; replace (2 * e)%Z with (e + e)%Z by lia; exact D|rewrite V; exact P]. }
  split; [exact LO|]. split; [|split; [exact R|]].
  - destruct D as (_ & _ & k & EK & B). rewrite EK. rewrite <- (sqrt_Rsqr (bpow radix2 (e + 17))) by apply bpow_ge_0. apply sqrt_le_1_alt. unfold Rsqr. rewrite <- bpow_plus.
    replace (e + 17 + (e + 17))%Z with (34 + (e + e))%Z by lia. rewrite (bpow_plus radix2 34). apply Rmult_le_compat_r; [apply bpow_ge_0|]. change (bpow radix2 34) with (IZR (2 ^ 34)). apply IZR_le. lia.
  - unfold v_norm. change (o_sqrt f64_ops) with (SFsqrt 53 1024). rewrite VS, V. apply Rle_trans with ((1 + 1) * (e53 * sqrt (dotr u u))); [|lra].
    apply (rel_err e); auto; [lra|]. rewrite Rabs_pos_eq by apply sqrt_pos. lra.
Qed.
(* the length of the projection *)
Lemma proj_near e fu fw u w : (-200 <= e <= 200)%Z -> on3 e (2 ^ 16) fu u -> on3 e (2 ^ 16) fw w -> dotr u u <> 0 -> dotr w w <> 0 ->
  W (e + 20) (v_dot f64_ops fw (v_normalize f64_hops fu))
  /\ Rabs (val (v_dot f64_ops fw (v_normalize f64_hops fu)) - dotr w u / sqrt (dotr u u)) <= 37 * (e53 * sqrt (dotr w w)).
Proof.
  intros E U Wf NU NW. destruct (norm_near e fu u E U NU) as (LS & _ & RS & HS). destruct (norm_near e fw w E Wf NW) as (LA & HA & _ & _).
  set (S := sqrt (dotr u u)) in *. set (A := sqrt (dotr w w)) in *. set (s := v_norm f64_ops fu) in *.
  assert (PS : 0 < S) by (apply Rlt_le_trans with (2 := LS), bpow_gt_0). assert (PA : 0 < A) by (apply Rlt_le_trans with (2 := LA), bpow_gt_0).
  assert (TT : 0 < e53) by apply bpow_gt_0.
  assert (Q : forall x a, on e (2 ^ 16) x a -> Rabs a <= S -> real_f64 (f64_div x s) /\ Rabs (val (f64_div x s) - a / S) <= 6 * e53 /\ Rabs (a / S) <= 1).
  { intros x a (Rx & Vx & _) B. destruct (quot_err a (val s) S PS B HS) as (Ps & QE).
    assert (C1 : Rabs (a / S) <= 1). { unfold Rdiv. rewrite Rabs_mult, Rabs_inv, (Rabs_pos_eq S) by lra. apply (Rmult_le_reg_r S); [exact PS|]. rewrite Rmult_assoc, Rinv_l by lra. lra. }
    assert (B2 : Rabs (a / val s) <= 2 * 1). { rewrite e53_eq in QE. apply Rabs_le. apply Rabs_le_inv in QE, C1. lra. }
    assert (RE : Rabs (rnd64 (a / val s) - a / val s) <= (2 + 1) * (e53 * 1)) by (apply (rel_err 0); [lia|simpl; lra|lra|exact B2]).
    destruct (div_val x s (bpow radix2 2) Rx RS ltac:(lra) (top_bound 2 ltac:(lia))) as (R1 & V1).
    { rewrite Vx. apply rnd_bound1; [lia|]. change (bpow radix2 2) with 4. lra. }
    split; [exact R1|]. split; [|exact C1]. rewrite V1, Vx. rewrite e53_eq in *. apply Rabs_le. apply Rabs_le_inv in RE, QE. lra. }
  destruct U as (U1 & U2 & U3), Wf as (W1 & W2 & W3). destruct (comp_le u) as (B1 & B2 & B3). destruct (comp_le w) as (D1 & D2 & D3). fold S in B1, B2, B3. fold A in D1, D2, D3.
  destruct (Q _ _ U1 B1) as (R1 & N1 & C1). destruct (Q _ _ U2 B2) as (R2 & N2 & C2). destruct (Q _ _ U3 B3) as (R3 & N3 & C3). clear Q.
  assert (HA2 : forall c : R, 0 <= c <= 8 -> c * A <= bpow radix2 (e + 20)).
  { intros c Hc. replace (e + 20)%Z with (3 + (e + 17))%Z by lia. rewrite bpow_plus. change (bpow radix2 3) with 8. apply Rmult_le_compat; lra. }
  assert (TB : bpow radix2 (e + 20) < bpow radix2 1024) by (apply top_bound; lia).
  assert (M : forall x b y c, on e (2 ^ 16) x b -> Rabs b <= A -> real_f64 y -> Rabs (val y - c) <= 6 * e53 -> Rabs c <= 1 -> real_f64 (f64_mul x y) /\ Rabs (val (f64_mul x y) - b * c) <= 9 * (e53 * A) /\ Rabs (b * c) <= A).
  { intros x b y c (Rx & Vx & _) B Ry NY C. destruct (prod_err b (val y) c A ltac:(lra) B C NY) as (P1 & P2).
    pose proof (rel_err e (b * val y) A E LA 2 ltac:(lra) P1) as RE.
    destruct (mul_val x y (bpow radix2 (e + 20)) Rx Ry TB) as (R4 & V4).
    { rewrite Vx. apply rnd_bound1; [lia|]. apply Rle_trans with (1 := P1). apply HA2. lra. }
    split; [exact R4|]. split.
    - rewrite V4, Vx. apply Rabs_le. apply Rabs_le_inv in RE, P2. lra.
    - rewrite Rabs_mult, <- (Rmult_1_r A). apply Rmult_le_compat; auto using Rabs_pos. }
  destruct (M _ _ _ _ W1 D1 R1 N1 C1) as (R4 & E4 & F4). destruct (M _ _ _ _ W2 D2 R2 N2 C2) as (R5 & E5 & F5). destruct (M _ _ _ _ W3 D3 R3 N3 C3) as (R6 & E6 & F6). clear M.
  set (t1 := f64_mul (px fw) (f64_div (px fu) s)) in *. set (t2 := f64_mul (py fw) (f64_div (py fu) s)) in *. set (t3 := f64_mul (pz fw) (f64_div (pz fu) s)) in *.
  change (v_dot f64_ops fw (v_normalize f64_hops fu)) with (f64_add (f64_add t1 t2) t3).
  set (g1 := px w * (px u / S)) in *. set (g2 := py w * (py u / S)) in *. set (g3 := pz w * (pz u / S)) in *.
  assert (EA : e53 * A <= / 1000 * A) by (rewrite e53_eq; lra). assert (EA0 : 0 < e53 * A) by now apply Rmult_lt_0_compat.
  assert (H1 : Rabs (val t1 + val t2) <= 3 * A) by (apply Rabs_le; apply Rabs_le_inv in E4, E5, F4, F5; lra).
  pose proof (rel_err e _ A E LA 3 ltac:(lra) H1) as X1.
  destruct (add_val t1 t2 (bpow radix2 (e + 20)) R4 R5 TB) as (R7 & V7). { apply rnd_bound1; [lia|]. apply Rle_trans with (1 := H1). apply HA2. lra. }
  rewrite <- V7 in X1. set (t4 := f64_add t1 t2) in *.
  assert (H2 : Rabs (val t4 + val t3) <= 5 * A) by (apply Rabs_le; apply Rabs_le_inv in E4, E5, F4, F5, E6, F6, X1; lra).
  pose proof (rel_err e _ A E LA 5 ltac:(lra) H2) as X2.
  assert (H3 : Rabs (rnd64 (val t4 + val t3)) <= bpow radix2 (e + 20)). { apply rnd_bound1; [lia|]. apply Rle_trans with (1 := H2). apply HA2. lra. }
  destruct (add_val t4 t3 (bpow radix2 (e + 20)) R7 R6 TB H3) as (R8 & V8).
  split; [apply real_val; [exact R8|rewrite V8; exact H3]|]. rewrite <- V8 in X2.
  replace (dotr w u / S) with (g1 + g2 + g3) by (unfold g1, g2, g3; rewrite dotr_eq; field; lra).
  apply Rabs_le. apply Rabs_le_inv in E4, E5, E6, X1, X2. lra.
Qed.
Lemma val_eqb j k x y : W j x -> W k y -> SFeqb x y = true -> val x = val y.
Proof.
  intros X Y. apply W_real in X, Y. unfold SFeqb.
  rewrite (compare_correct 53 1024 x y (proj1 (f64_valid x) (proj2 X)) (proj1 (f64_valid y) (proj2 Y)) (proj1 (finite_SF x) (proj1 X)) (proj1 (finite_SF y) (proj1 Y))).
  fold (val x) (val y). destruct (Rcompare_spec (val x) (val y)); try discriminate. auto.
Qed.
(* the test does not take a wide angle for a line *)
Lemma not_line e fu fw u w : (-200 <= e <= 200)%Z -> on3 e (2 ^ 16) fu u -> on3 e (2 ^ 16) fw w -> dotr u u <> 0 -> dotr w w <> 0 ->
  bpow radix2 (-46) * (dotr u u * dotr w w) <= dotr u u * dotr w w - dotr w u * dotr w u ->
  SFeqb (SFabs (v_dot f64_ops fw (v_normalize f64_hops fu))) (v_norm f64_ops fw) = false.
Proof.
  intros E U Wf NU NW WA. destruct (proj_near e fu fw u w E U Wf NU NW) as (WP & HP). destruct (norm_near e fw w E Wf NW) as (LA & UA & RA & HA).
  destruct (norm_near e fu u E U NU) as (LS & _).
  destruct (SFeqb _ _) eqn:Q; [|reflexivity]. exfalso. destruct (val_abs _ _ WP) as (WB & VB).
  set (S := sqrt (dotr u u)) in *. set (A := sqrt (dotr w w)) in *. assert (PS : 0 < S) by (apply Rlt_le_trans with (2 := LS), bpow_gt_0). assert (PA : 0 < A) by (apply Rlt_le_trans with (2 := LA), bpow_gt_0).
  assert (WN : W (e + 20) (v_norm f64_ops fw)).
  { apply real_val; [exact RA|]. apply Rle_trans with (2 * A).
    - rewrite e53_eq in HA. apply Rabs_le. apply Rabs_le_inv in HA. lra.
    - replace (e + 20)%Z with (3 + (e + 17))%Z by lia. rewrite bpow_plus. change (bpow radix2 3) with 8. lra. }
  pose proof (val_eqb _ _ _ _ WB WN Q) as EQ. rewrite VB in EQ.
  assert (SS : S * S = dotr u u) by (apply sqrt_sqrt; apply Rlt_le, dot_pos, NU). assert (AA : A * A = dotr w w) by (apply sqrt_sqrt; apply Rlt_le, dot_pos, NW).
  set (r := dotr w u / S) in *. assert (DR : dotr w u = r * S) by (unfold r; field; lra).
  assert (LR : A * (1 - 39 * e53) <= Rabs r).
  { set (pv := val (v_dot f64_ops fw (v_normalize f64_hops fu))) in *. pose proof (Rabs_triang_inv pv (pv - r)) as T. replace (pv - (pv - r)) with r in T by ring. rewrite EQ in T. apply Rabs_le_inv in HA. lra. }
  assert (R2 : r * r <= A * A * (1 - bpow radix2 (-46))).
  { apply (Rmult_le_reg_r (S * S)); [now apply Rmult_lt_0_compat|]. rewrite <- SS, <- AA, DR in WA. lra. }
  assert (R3 : (A * (1 - 39 * e53)) * (A * (1 - 39 * e53)) <= r * r).
  { replace (r * r) with (Rabs r * Rabs r) by (rewrite <- Rabs_mult; apply Rabs_pos_eq, Rle_0_sqr). rewrite e53_eq in *. assert (0 <= A * (1 - 39 * / 9007199254740992)) by lra. apply Rmult_le_compat; auto. }
  assert (C : 1 - bpow radix2 (-46) < (1 - 39 * e53) * (1 - 39 * e53)). { change (bpow radix2 (-46)) with (/ 70368744177664). rewrite e53_eq. lra. }
  assert (PAA : 0 < A * A) by now apply Rmult_lt_0_compat.
  replace ((A * (1 - 39 * e53)) * (A * (1 - 39 * e53))) with (A * A * ((1 - 39 * e53) * (1 - 39 * e53))) in R3 by ring.
  assert (A * A * (1 - bpow radix2 (-46)) < A * A * ((1 - 39 * e53) * (1 - 39 * e53))) by (apply Rmult_lt_compat_l; auto). lra.
Qed.
