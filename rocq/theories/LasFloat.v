(* Grid positions in f64 arithmetic: how far a coordinate is from the coordinate read back. *)
From Coq Require Import ZArith Reals Lia Lra Bool SpecFloat Psatz.
From Flocq Require Import Core BinarySingleNaN Relative.
From Verif Require Import NumModel MathModel MathSpec LasIoSpec VoxModel VoxSpec FloatReal F64Real NormSpec NormFloat.
Open Scope R_scope.

#[local] Instance f53 : Valid_exp (SpecFloat.fexp 53 1024) := fexp_ok 53 1024 H53.
#[local] Existing Instance H53.
Notation e53 := (bpow radix2 (-53)).
Notation tiny := (bpow radix2 (-1075)).

Lemma rnd_err x : Rabs (rnd64 x - x) <= e53 * Rabs x + tiny.
Proof.
  unfold rnd64, rnd. change (SpecFloat.fexp 53 1024) with (FLT_exp (-1074) 53). pose proof (bpow_gt_0 radix2 (-53)) as P. pose proof (bpow_gt_0 radix2 (-1075)) as Q. pose proof (Rabs_pos x) as R0.
  destruct (Rle_or_lt (bpow radix2 (-1074 + 53 - 1)) (Rabs x)) as [N|N].
  - pose proof (relative_error_N_FLT radix2 (-1074) 53 ltac:(reflexivity) (fun x => negb (Z.even x)) x N) as H.
    assert (E : / 2 * bpow radix2 (- (53) + 1) = e53). { change (- (53) + 1)%Z with (1 + -53)%Z. rewrite bpow_plus. cbn [bpow]. change (Z.pow_pos radix2 1) with 2%Z. lra. }
    rewrite E in H. lra.
  - pose proof (error_le_half_ulp radix2 (FLT_exp (-1074) 53) (fun x => negb (Z.even x)) x) as H.
    assert (N2 : Rabs x < bpow radix2 (-1074 + 53)) by (eapply Rlt_le_trans; [exact N|]; apply bpow_le; lia).
    rewrite (ulp_FLT_small radix2 (-1074) 53 x N2) in H.
    assert (E : / 2 * bpow radix2 (-1074) = tiny). { change (-1074)%Z with (1 + -1075)%Z. rewrite bpow_plus. cbn [bpow]. change (Z.pow_pos radix2 1) with 2%Z. lra. }
    rewrite E in H. nra.
Qed.

Lemma toward_zero_val x : real_f64 x -> toward_zero x = Some (Ztrunc (val x)).
Proof.
  intros (F & _). destruct x as [s|s| |s m e]; try (elim F).
  - cbn. f_equal. symmetry. apply (Ztrunc_IZR 0).
  - unfold toward_zero, val, value. cbn [SF2R]. f_equal. unfold F2R. cbn [Fnum Fexp].
    set (v := cond_Zopp s (Zpos m)). change (if s then Zneg m else Zpos m) with v. clearbody v. destruct (Z.leb_spec 0 e) as [E|E].
    + rewrite <- IZR_Zpower by exact E. rewrite <- mult_IZR. symmetry. apply Ztrunc_IZR.
    + replace (bpow radix2 e) with (/ IZR (2 ^ (- e))).
      * symmetry. apply (Ztrunc_div v). assert (0 < 2 ^ (- e))%Z by (apply Z.pow_pos_nonneg; lia). lia.
      * change (2 ^ (- e))%Z with (Zpower radix2 (- e)). rewrite IZR_Zpower by lia. rewrite <- bpow_opp. f_equal. lia.
Qed.
Lemma trunc_near q : IZR (Ztrunc q) - 1 < q < IZR (Ztrunc q) + 1.
Proof.
  destruct (Rle_or_lt 0 q) as [H|H].
  - rewrite Ztrunc_floor by exact H. pose proof (Zfloor_lb q). pose proof (Zfloor_ub q). lra.
  - rewrite Ztrunc_ceil by lra. pose proof (Zceil_ub q). pose proof (Zceil_lb q). lra.
Qed.
Lemma trunc_of_near q k : Rabs (q - IZR k) < 1 -> Ztrunc q = k \/ Ztrunc q = (k - Z.sgn k)%Z.
Proof.
  intros H. apply Rabs_lt_inv in H. destruct (Z.lt_trichotomy k 0) as [K|[->|K]].
  - assert (IZR k <= -1) by (apply IZR_le; lia). rewrite Ztrunc_ceil by lra.
    assert (L : (k - 1 < Zceil q)%Z). { apply lt_IZR. rewrite minus_IZR. pose proof (Zceil_ub q). lra. }
    assert (U : (Zceil q < k + 2)%Z). { apply lt_IZR. rewrite plus_IZR. pose proof (Zceil_lb q). lra. }
    rewrite Z.sgn_neg by exact K. lia.
  - left. destruct (Rle_or_lt 0 q) as [P|P].
    + rewrite Ztrunc_floor by exact P. apply Zfloor_imp. cbn. lra.
    + rewrite Ztrunc_ceil by lra. apply Zceil_imp. cbn. lra.
  - assert (1 <= IZR k) by (apply IZR_le; lia). rewrite Ztrunc_floor by lra.
    assert (L : (k - 2 < Zfloor q)%Z). { apply lt_IZR. rewrite minus_IZR. pose proof (Zfloor_ub q). lra. }
    assert (U : (Zfloor q < k + 1)%Z). { apply lt_IZR. rewrite plus_IZR. pose proof (Zfloor_lb q). lra. }
    rewrite Z.sgn_pos by exact K. lia.
Qed.

Definition band (s : spec_float) : Prop := real_f64 s /\ bpow radix2 (-900) <= val s <= bpow radix2 900.
Lemma int32_val k : (Z.abs k <= 2 ^ 31)%Z -> real_f64 (f64_of_int k) /\ val (f64_of_int k) = IZR k /\ Rabs (IZR k) <= bpow radix2 31.
Proof.
  intros K. destruct (of_int k ltac:(lia)) as (R & V). split; [exact R|]. split; [exact V|]. rewrite <- abs_IZR. change (bpow radix2 31) with (IZR (2 ^ 31)). apply IZR_le. exact K.
Qed.
Lemma world_val k s o : (Z.abs k <= 2 ^ 31)%Z -> band s -> W 900 o ->
  W 932 (world k s o) /\ val (world k s o) = rnd64 (rnd64 (IZR k * val s) + val o).
Proof.
  intros K (S & SL & SU) O. destruct (int32_val k K) as (RK & VK & BK).
  assert (WS : W 900 s). { split; [exact S|]. change (SF2R radix2 s) with (val s). pose proof (bpow_gt_0 radix2 (-900)). rewrite Rabs_pos_eq by lra. exact SU. }
  assert (WK : W 31 (f64_of_int k)). { split; [exact RK|]. change (SF2R radix2 (f64_of_int k)) with (val (f64_of_int k)). rewrite VK. exact BK. }
  pose proof (W_mul 31 900 _ _ WK WS eq_refl) as WM. change (31 + 900)%Z with 931%Z in WM.
  pose proof (W_add 931 900 _ _ WM O eq_refl) as WA. change (Z.max 931 900 + 1)%Z with 932%Z in WA. split; [exact WA|].
  destruct WS as (_ & BS). destruct WK as (_ & BK').
  destruct (mul_val (f64_of_int k) s (bpow radix2 931) RK S (top_bound 931 ltac:(lia))) as (RM & VM).
  { apply rnd_bound1; [lia|]. rewrite Rabs_mult. change (bpow radix2 931) with (bpow radix2 (31 + 900)). rewrite bpow_plus. apply Rmult_le_compat; auto using Rabs_pos. }
  destruct (add_val (f64_mul (f64_of_int k) s) o (bpow radix2 932) RM (proj1 O) (top_bound 932 ltac:(lia))) as (RA & VA).
  { apply rnd_bound1; [lia|]. destruct WM as (_ & BM). destruct O as (_ & BO). change (bpow radix2 932) with (bpow radix2 (1 + 931)). rewrite bpow_plus. change (bpow radix2 1) with 2.
    eapply Rle_trans; [apply Rabs_triang|]. change (SF2R radix2 o) with (val o) in BO. change (SF2R radix2 (f64_mul (f64_of_int k) s)) with (val (f64_mul (f64_of_int k) s)) in BM.
    assert (bpow radix2 900 <= bpow radix2 931) by (apply bpow_le; lia). lra. }
  unfold world. rewrite VA, VM, VK. reflexivity.
Qed.

(* (c - o) / s when the exact quotient is below 2^33 *)
Lemma quotient_val c o s : W 932 c -> W 900 o -> band s -> Rabs (val c - val o) <= bpow radix2 33 * val s ->
  real_f64 (f64_div (f64_sub c o) s) /\ val (f64_div (f64_sub c o) s) = rnd64 (rnd64 (val c - val o) / val s).
Proof.
  intros C O (S & SL & SU) B. pose proof (bpow_gt_0 radix2 (-900)) as P9. pose proof (bpow_gt_0 radix2 900) as P900.
  pose proof (bpow_gt_0 radix2 33) as P33.
  assert (B933 : Rabs (rnd64 (val c - val o)) <= bpow radix2 933).
  { apply rnd_bound1; [lia|]. eapply Rle_trans; [exact B|]. change (bpow radix2 933) with (bpow radix2 (33 + 900)). rewrite bpow_plus. apply Rmult_le_compat_l; lra. }
  destruct (sub_val c o (bpow radix2 933) (proj1 C) (proj1 O) (top_bound 933 ltac:(lia)) B933) as (RS & VS).
  destruct (div_val (f64_sub c o) s (bpow radix2 34) RS S ltac:(lra) (top_bound 34 ltac:(lia))) as (RD & VD).
  { apply rnd_bound1; [lia|]. rewrite VS. unfold Rdiv. rewrite Rabs_mult, (Rabs_pos_eq (/ val s)) by (left; apply Rinv_0_lt_compat; lra).
    apply (Rmult_le_reg_r (val s)); [lra|]. rewrite Rmult_assoc, Rinv_l, Rmult_1_r by lra.
    pose proof (rnd_err (val c - val o)) as H.
    pose proof (Rabs_triang (rnd64 (val c - val o) - (val c - val o)) (val c - val o)) as T. replace (rnd64 (val c - val o) - (val c - val o) + (val c - val o)) with (rnd64 (val c - val o)) in T by ring.
    assert (E : e53 <= 1) by (change 1 with (bpow radix2 0); apply bpow_le; lia).
    assert (TT : tiny <= bpow radix2 (-900)) by (apply bpow_le; lia).
    assert (Q : bpow radix2 34 = 2 * bpow radix2 33) by (change (bpow radix2 34) with (bpow radix2 (1 + 33)); rewrite bpow_plus; reflexivity).
    assert (E2 : e53 * bpow radix2 33 = bpow radix2 (-20)) by (rewrite <- bpow_plus; reflexivity).
    assert (E3 : bpow radix2 (-20) + 1 <= bpow radix2 33). { assert (bpow radix2 (-20) <= bpow radix2 0) by (apply bpow_le; lia). assert (bpow radix2 1 <= bpow radix2 33) by (apply bpow_le; lia). cbn in *. lra. }
    pose proof (bpow_gt_0 radix2 (-53)). pose proof (Rabs_pos (val c - val o)).
    assert (e53 * Rabs (val c - val o) <= bpow radix2 (-20) * val s) by (rewrite <- E2, Rmult_assoc; apply Rmult_le_compat_l; lra). rewrite Q. nra. }
  split; [exact RD|]. rewrite VD, VS. reflexivity.
Qed.

Lemma e53_eq : e53 = / 9007199254740992.
Proof. cbn [bpow]. change (Z.pow_pos radix2 53) with 9007199254740992%Z. reflexivity. Qed.
Lemma tiny_band s : band s -> 0 < tiny <= e53 * val s.
Proof.
  intros (_ & SL & _). split; [apply bpow_gt_0|]. pose proof (bpow_gt_0 radix2 (-53)). eapply Rle_trans with (e53 * bpow radix2 (-900)); [rewrite <- bpow_plus; apply bpow_le; lia|].
  apply Rmult_le_compat_l; lra.
Qed.
Lemma err_bound x m t : Rabs x <= m -> tiny <= t -> Rabs (rnd64 x - x) <= e53 * m + t.
Proof. intros M T. pose proof (rnd_err x). pose proof (bpow_gt_0 radix2 (-53)). nra. Qed.

(* what a coordinate is after integer * scale + offset *)
Lemma world_error k s o : (Z.abs k <= 2 ^ 31)%Z -> band s -> W 900 o ->
  Rabs (val (world k s o) - (IZR k * val s + val o)) <= e53 * (Rabs (val o) + 4294967299 * val s).
Proof.
  intros K B O. destruct (world_val k s o K B O) as (_ & V). rewrite V. clear V. destruct (tiny_band s B) as (T0 & T).
  assert (S0 : 0 < val s). { destruct B as (_ & L & _). pose proof (bpow_gt_0 radix2 (-900)). lra. }
  destruct (int32_val k K) as (_ & _ & BK). change (bpow radix2 31) with 2147483648 in BK.
  set (S := val s) in *. set (x := val o) in *.
  assert (K1 : Rabs (IZR k * S) <= 2147483648 * S) by (rewrite Rabs_mult, (Rabs_pos_eq S) by lra; apply Rmult_le_compat_r; lra).
  pose proof (err_bound _ _ _ K1 T) as E1. set (a := rnd64 (IZR k * S)) in *.
  assert (A : Rabs (a + x) <= 2147483649 * S + Rabs x).
  { replace (a + x) with ((a - IZR k * S) + IZR k * S + x) by ring. eapply Rle_trans; [apply Rabs_triang|]. eapply Rle_trans; [apply Rplus_le_compat_r, Rabs_triang|]. rewrite e53_eq in E1. lra. }
  pose proof (err_bound _ _ _ A T) as E2.
  replace (rnd64 (a + x) - (IZR k * S + x)) with ((rnd64 (a + x) - (a + x)) + (a - IZR k * S)) by ring.
  eapply Rle_trans; [apply Rabs_triang|]. rewrite e53_eq in *. lra.
Qed.

(* what is stored for a coordinate within reach of the grid, before rounding toward zero *)
Lemma quotient_error c o s m : W 932 c -> W 900 o -> band s -> Rabs (val c - val o) <= m * val s -> 0 <= m <= 8589934592 ->
  exists q, grid c o s = (if ((- 2 ^ 31 <=? Ztrunc q) && (Ztrunc q <? 2 ^ 31))%Z then Some (Ztrunc q) else None)
  /\ Rabs (q * val s - (val c - val o)) <= 3 * e53 * (m + 1) * val s.
Proof.
  intros C O B D M. destruct (quotient_val c o s C O B) as (RQ & VQ).
  { change (bpow radix2 33) with 8589934592. assert (0 < val s) by (destruct B as (_ & L & _); pose proof (bpow_gt_0 radix2 (-900)); lra). nra. }
  exists (val (f64_div (f64_sub c o) s)). split; [unfold grid; rewrite (toward_zero_val _ RQ); reflexivity|]. rewrite VQ. clear VQ RQ.
  destruct (tiny_band s B) as (T0 & T). assert (S0 : 0 < val s) by (destruct B as (_ & L & _); pose proof (bpow_gt_0 radix2 (-900)); lra).
  set (S := val s) in *. set (y := val c - val o) in *. pose proof (err_bound _ _ _ D T) as E1. set (d := rnd64 y) in *.
  assert (T2 : tiny <= e53) by (apply bpow_le; lia).
  assert (DB : Rabs (d / S) <= m + e53 * (m + 1)).
  { unfold Rdiv. rewrite Rabs_mult, (Rabs_pos_eq (/ S)) by (left; apply Rinv_0_lt_compat; lra). apply (Rmult_le_reg_r S); [lra|]. rewrite Rmult_assoc, Rinv_l, Rmult_1_r by lra.
    pose proof (Rabs_triang (d - y) y) as H. replace (d - y + y) with d in H by ring. lra. }
  pose proof (err_bound _ _ _ DB T2) as E2. set (q := rnd64 (d / S)) in *.
  replace (q * S - y) with ((q - d / S) * S + (d - y)) by (field; lra).
  eapply Rle_trans; [apply Rabs_triang|]. rewrite Rabs_mult, (Rabs_pos_eq S) by lra.
  assert (Rabs (q - d / S) * S <= (e53 * (m + e53 * (m + 1)) + e53) * S) by (apply Rmult_le_compat_r; lra).
  assert (X : e53 * (e53 * (m + 1)) <= e53 * (m + 1)). { rewrite <- Rmult_assoc. apply Rmult_le_compat_r; [lra|]. rewrite e53_eq. lra. }
  pose proof (bpow_gt_0 radix2 (-53)).
  assert (Y : (e53 * (m + e53 * (m + 1)) + e53) * S <= (e53 * m + e53 * (m + 1) + e53) * S) by (apply Rmult_le_compat_r; lra).
  replace (3 * e53 * (m + 1) * S) with ((e53 * m + e53 * (m + 1) + e53) * S + (e53 * (m * S) + e53 * S)) by ring. lra.
Qed.

Lemma scale_step c o s : W 900 c -> W 900 o -> band s -> Rabs (val c - val o) <= 2147483647 * val s ->
  exists v, grid c o s = Some v /\ (- 2 ^ 31 <= v < 2 ^ 31)%Z /\ Rabs (val (world v s o) - val c) <= val s + bpow radix2 (-50) * (Rabs (val o) + bpow radix2 33 * val s).
Proof.
  intros C O B D. assert (C' : W 932 c) by (apply (W_mono 900); auto).
  destruct (quotient_error c o s 2147483647 C' O B D ltac:(lra)) as (q & G & Q). assert (S0 : 0 < val s) by (destruct B as (_ & L & _); pose proof (bpow_gt_0 radix2 (-900)); lra).
  assert (QB : Rabs q < 2147483647 + /2). 
  { apply (Rmult_lt_reg_r (val s)); [lra|]. rewrite <- (Rabs_pos_eq (val s)) at 1 by lra. rewrite <- Rabs_mult.
    pose proof (Rabs_triang (q * val s - (val c - val o)) (val c - val o)) as H. replace (q * val s - (val c - val o) + (val c - val o)) with (q * val s) in H by ring. rewrite e53_eq in Q. lra. }
  apply Rabs_lt_inv in QB. pose proof (trunc_near q) as TN. set (v := Ztrunc q) in *.
  assert (R1 : (- 2 ^ 31 <= v)%Z). { change (- 2 ^ 31)%Z with (-2147483648)%Z. apply le_IZR. assert (-2147483649 < IZR v) by lra. apply lt_IZR in H. apply IZR_le. lia. }
  assert (R2 : (v < 2 ^ 31)%Z). 
  { unfold v. destruct (Rle_or_lt 0 q) as [P|P].
    - rewrite Ztrunc_floor by exact P. change (2 ^ 31)%Z with 2147483648%Z. apply lt_IZR. pose proof (Zfloor_lb q). lra.
    - rewrite Ztrunc_ceil by lra. change (2 ^ 31)%Z with 2147483648%Z. apply lt_IZR. pose proof (Zceil_lb q). lra. }
  exists v. split; [|split; [lia|]].
  { rewrite G. destruct (Z.leb_spec (- 2 ^ 31) v); [|lia]. destruct (Z.ltb_spec v (2 ^ 31)); [reflexivity|lia]. }
  pose proof (world_error v s o ltac:(lia) B O) as WE.
  replace (val (world v s o) - val c) with ((val (world v s o) - (IZR v * val s + val o)) + (q * val s - (val c - val o)) + (IZR v - q) * val s) by ring.
  eapply Rle_trans; [apply Rabs_triang|]. eapply Rle_trans; [apply Rplus_le_compat_r, Rabs_triang|].
  assert (E : Rabs ((IZR v - q) * val s) <= val s). { rewrite Rabs_mult, (Rabs_pos_eq (val s)) by lra. rewrite <- (Rmult_1_l (val s)) at 2. apply Rmult_le_compat_r; [lra|]. apply Rabs_le. lra. }
  change (bpow radix2 33) with 8589934592. replace (bpow radix2 (-50)) with (8 * e53) by (change 8 with (bpow radix2 3); rewrite <- bpow_plus; reflexivity).
  rewrite e53_eq in *. pose proof (Rabs_pos (val o)). lra.
Qed.

Lemma grid_step k s o : (- 2 ^ 31 <= k < 2 ^ 31)%Z -> band s -> W 900 o -> Rabs (val o) <= bpow radix2 48 * val s ->
  exists v, grid (world k s o) o s = Some v /\ (v = k \/ v = k - Z.sgn k)%Z.
Proof.
  intros K B O OB. destruct (world_val k s o ltac:(lia) B O) as (WW & _). pose proof (world_error k s o ltac:(lia) B O) as WE.
  assert (S0 : 0 < val s) by (destruct B as (_ & L & _); pose proof (bpow_gt_0 radix2 (-900)); lra).
  destruct (int32_val k ltac:(lia)) as (_ & _ & BK). change (bpow radix2 31) with 2147483648 in BK. change (bpow radix2 48) with 281474976710656 in OB.
  set (w := val (world k s o)) in *.
  assert (D : Rabs (w - val o) <= 2147483649 * val s).
  { replace (w - val o) with ((w - (IZR k * val s + val o)) + IZR k * val s) by ring. eapply Rle_trans; [apply Rabs_triang|]. rewrite Rabs_mult, (Rabs_pos_eq (val s)) by lra.
    assert (Rabs (IZR k) * val s <= 2147483648 * val s) by (apply Rmult_le_compat_r; lra). rewrite e53_eq in WE. lra. }
  destruct (quotient_error (world k s o) o s 2147483649 WW O B D ltac:(lra)) as (q & G & Q).
  assert (N : Rabs (q - IZR k) < 1).
  { apply (Rmult_lt_reg_r (val s)); [lra|]. rewrite <- (Rabs_pos_eq (val s)) at 1 by lra. rewrite <- Rabs_mult.
    fold w in Q. replace ((q - IZR k) * val s) with ((q * val s - (w - val o)) + (w - (IZR k * val s + val o))) by ring.
    eapply Rle_lt_trans; [apply Rabs_triang|]. rewrite e53_eq in *. lra. }
  pose proof (trunc_of_near q k N) as T. exists (Ztrunc q). split; [|exact T]. rewrite G.
  assert (- 2 ^ 31 <= Ztrunc q < 2 ^ 31)%Z by lia. destruct (Z.leb_spec (- 2 ^ 31) (Ztrunc q)); [|lia]. destruct (Z.ltb_spec (Ztrunc q) (2 ^ 31)); [reflexivity|lia].
Qed.

(* ------------------------------------------------------------------ powers of two *)
Lemma rnd_multiple z e : (Z.abs z <= 2 ^ 53)%Z -> (-1000 <= e)%Z -> rnd64 (IZR z * bpow radix2 e) = IZR z * bpow radix2 e.
Proof.
  intros Z0 E. apply round_generic; auto with typeclass_instances. apply (generic_format_FLT radix2 (-1074) 53). destruct (Z.eq_dec (Z.abs z) (2 ^ 53)) as [H|H].
  - exists (Float radix2 (Z.sgn z) (53 + e)); cbn [Fnum Fexp]; [|change (Zpower radix2 53) with (2 ^ 53)%Z; lia|lia].
    unfold F2R. cbn [Fnum Fexp]. rewrite bpow_plus, <- Rmult_assoc. f_equal. change (bpow radix2 53) with (IZR (2 ^ 53)). rewrite <- mult_IZR, <- H. f_equal. lia.
  - exists (Float radix2 z e); cbn [Fnum Fexp]; [reflexivity|change (Zpower radix2 53) with (2 ^ 53)%Z; lia|lia].
Qed.
Section Binary.
Variables (s o : spec_float) (e m : Z).
Hypothesis Rs : real_f64 s.
Hypothesis Ro : real_f64 o.
Hypothesis E : (-900 <= e <= 800)%Z.
Hypothesis M : (Z.abs m <= 2 ^ 52)%Z.
Hypothesis Vs : val s = bpow radix2 e.
Hypothesis Vo : val o = IZR m * bpow radix2 e.
Lemma bin_band : band s.
Proof. clear m M Vo Ro. split; [exact Rs|]. rewrite Vs. split; apply bpow_le; lia. Qed.
Lemma bin_offset : W 900 o.
Proof.
  clear Rs Vs. split; [exact Ro|]. change (SF2R radix2 o) with (val o). rewrite Vo, Rabs_mult, (Rabs_pos_eq (bpow radix2 e)) by apply bpow_ge_0.
  apply Rle_trans with (bpow radix2 52 * bpow radix2 e).
  - apply Rmult_le_compat_r; [apply bpow_ge_0|]. rewrite <- abs_IZR. change (bpow radix2 52) with (IZR (2 ^ 52)). now apply IZR_le.
  - rewrite <- bpow_plus. apply bpow_le. lia.
Qed.
Lemma bin_world k : (Z.abs k <= 2 ^ 31)%Z -> W 932 (world k s o) /\ val (world k s o) = IZR k * val s + val o.
Proof.
  intros K. destruct (world_val k s o K bin_band bin_offset) as (R & V). split; [exact R|]. rewrite V, Vs, Vo.
  rewrite (rnd_multiple k) by lia. rewrite <- Rmult_plus_distr_r, <- plus_IZR. apply rnd_multiple; lia.
Qed.
Lemma bin_grid k : (- 2 ^ 31 <= k < 2 ^ 31)%Z -> grid (world k s o) o s = Some k.
Proof.
  intros K. destruct (bin_world k ltac:(lia)) as (R & V). pose proof (bpow_gt_0 radix2 e) as P.
  assert (D : val (world k s o) - val o = IZR k * bpow radix2 e) by (rewrite V, Vs; ring).
  destruct (int32_val k ltac:(lia)) as (_ & _ & BK).
  destruct (quotient_val (world k s o) o s R bin_offset bin_band) as (RQ & VQ).
  { rewrite D, Rabs_mult, Vs, (Rabs_pos_eq (bpow radix2 e)) by lra. apply Rmult_le_compat_r; [lra|]. eapply Rle_trans; [exact BK|]. apply bpow_le. lia. }
  unfold grid. rewrite (toward_zero_val _ RQ), VQ, D. rewrite (rnd_multiple k) by lia. rewrite Vs. unfold Rdiv. rewrite Rmult_assoc, Rinv_r, Rmult_1_r by lra.
  pose proof (rnd_multiple k 0 ltac:(lia) ltac:(lia)) as RK. change (bpow radix2 0) with 1 in RK. rewrite Rmult_1_r in RK. rewrite RK, Ztrunc_IZR.
  destruct (Z.leb_spec (- 2 ^ 31) k); [|lia]. destruct (Z.ltb_spec k (2 ^ 31)); [reflexivity|lia].
Qed.
Lemma bin_step c : W 900 c -> Rabs (val c - val o) <= 2147483647 * val s -> exists v, grid c o s = Some v /\ (- 2 ^ 31 <= v < 2 ^ 31)%Z /\ Rabs (val (world v s o) - val c) <= val s.
Proof.
  intros C D. pose proof (bpow_gt_0 radix2 e) as P. assert (C' : W 932 c) by (apply (W_mono 900); auto).
  destruct (quotient_val c o s C' bin_offset bin_band) as (RQ & VQ).
  { change (bpow radix2 33) with 8589934592. rewrite Vs in *. lra. }
  set (x := (val c - val o) / bpow radix2 e). assert (X : val c - val o = x * bpow radix2 e) by (unfold x; field; lra).
  assert (XB : -2147483647 <= x <= 2147483647).
  { apply Rabs_le_inv. apply (Rmult_le_reg_r (bpow radix2 e)); [lra|]. rewrite <- (Rabs_pos_eq (bpow radix2 e)) at 1 by lra. rewrite <- Rabs_mult, <- X, <- Vs. exact D. }
  rewrite X, Vs in VQ. set (q := rnd64 (rnd64 (x * bpow radix2 e) / bpow radix2 e)) in *.
  assert (B : forall z, (Z.abs z <= 2 ^ 53)%Z -> (IZR z <= x -> IZR z <= q) /\ (x <= IZR z -> q <= IZR z)).
  { intros z Z0. pose proof (rnd_multiple z 0 Z0 ltac:(lia)) as R1. change (bpow radix2 0) with 1 in R1. rewrite Rmult_1_r in R1. pose proof (rnd_multiple z e Z0 ltac:(lia)) as R2.
    split; intros H; unfold q; rewrite <- R1; apply (rnd_le 53 1024 H53); apply (Rmult_le_reg_r (bpow radix2 e)); try lra; unfold Rdiv; rewrite Rmult_assoc, Rinv_l, Rmult_1_r by lra; rewrite <- R2; apply (rnd_le 53 1024 H53); apply Rmult_le_compat_r; lra. }
  set (k := Zfloor x). pose proof (Zfloor_lb x) as LB. pose proof (Zfloor_ub x) as UB. fold k in LB, UB.
  assert (KB : (-2147483647 <= k <= 2147483647)%Z). { split; [apply Zfloor_lub; lra|apply le_IZR; lra]. }
  pose proof (proj1 (B k ltac:(lia)) LB) as QL. pose proof (proj2 (B (k + 1)%Z ltac:(lia)) ltac:(rewrite plus_IZR; lra)) as QU.
  pose proof (proj2 (B 2147483647%Z ltac:(lia)) ltac:(lra)) as QM. pose proof (proj1 (B (-2147483647)%Z ltac:(lia)) ltac:(lra)) as Qm.
  set (v := Ztrunc q).
  assert (V1 : (k <= v)%Z). { unfold v. rewrite <- (Ztrunc_IZR k). now apply Ztrunc_le. }
  assert (V2 : (v <= k + 1)%Z). { unfold v. rewrite <- (Ztrunc_IZR (k + 1)). now apply Ztrunc_le. }
  assert (V3 : (-2147483647 <= v <= 2147483647)%Z). { unfold v. split; [rewrite <- (Ztrunc_IZR (-2147483647)) at 1|rewrite <- (Ztrunc_IZR 2147483647)]; now apply Ztrunc_le. }
  exists v. split; [|split; [lia|]].
  - unfold grid. rewrite (toward_zero_val _ RQ), VQ. fold v. destruct (Z.leb_spec (- 2 ^ 31) v); [|lia]. destruct (Z.ltb_spec v (2 ^ 31)); [reflexivity|lia].
  - destruct (bin_world v ltac:(lia)) as (_ & VW). rewrite VW. replace (IZR v * val s + val o - val c) with (IZR v * val s - (val c - val o)) by ring. rewrite X, Vs.
    replace (IZR v * bpow radix2 e - x * bpow radix2 e) with ((IZR v - x) * bpow radix2 e) by ring. rewrite Rabs_mult, (Rabs_pos_eq (bpow radix2 e)) by lra.
    rewrite <- (Rmult_1_l (bpow radix2 e)) at 2. apply Rmult_le_compat_r; [lra|]. apply Rabs_le.
    apply IZR_le in V1, V2. rewrite plus_IZR in V2. lra.
Qed.
End Binary.
