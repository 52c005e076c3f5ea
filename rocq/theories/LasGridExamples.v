(* Concrete positions, scales and offsets for the theorems about grid positions. *)
From Coq Require Import ZArith Reals Lia Lra Bool SpecFloat.
From Flocq Require Import Core BinarySingleNaN.
From Verif Require Import MathModel MathSpec LasModel LasIoModel LasIoSpec LasIoProofs11 VoxSpec LasGridSpec.
Open Scope R_scope.

Definition hundred : spec_float := S754_finite false 7036874417766400 (-46).        (* 100 *)
Definition coordinate : spec_float := S754_finite true 8795963234641183 (-44).      (* about -499.99 *)
Definition quarter : spec_float := S754_finite false 4503599627370496 (-54).        (* 2^-2 *)
Definition hundredths : transforms := mk_tr (mk_p3 hundredth hundredth hundredth) (mk_p3 hundred hundred hundred).
Definition quarters : transforms := mk_tr (mk_p3 quarter quarter quarter) (mk_p3 hundred hundred hundred).
Lemma finite_number s m e : (-1074 < e <= 0)%Z -> (2 ^ 52 <= Zpos m < 2 ^ 53)%Z -> real_f64 (S754_finite s m e) /\ Rabs (number (S754_finite s m e)) <= bpow radix2 900.
Proof.
  intros E M. split; [split; [exact I|right; lia]|]. unfold number. cbn [SF2R]. unfold F2R. cbn [Fnum Fexp]. rewrite Rabs_mult, (Rabs_pos_eq (bpow radix2 e)) by apply bpow_ge_0.
  assert (A : Rabs (IZR (cond_Zopp s (Zpos m))) <= bpow radix2 53).
  { rewrite <- abs_IZR. change (bpow radix2 53) with (IZR (2 ^ 53)). apply IZR_le. destruct s; cbn [cond_Zopp]; lia. }
  apply Rle_trans with (bpow radix2 53 * bpow radix2 e); [apply Rmult_le_compat_r; [apply bpow_ge_0|exact A]|]. rewrite <- bpow_plus. apply bpow_le. lia.
Qed.
Lemma scale_number m e : (-900 <= e <= 0)%Z -> (2 ^ 52 <= Zpos m < 2 ^ 53)%Z -> moderate_scale (S754_finite false m e).
Proof.
  intros E M. destruct (finite_number false m e ltac:(lia) M) as (R & U). split; [exact R|]. split.
  - unfold number. cbn [SF2R]. unfold F2R. cbn [Fnum Fexp cond_Zopp]. apply Rle_trans with (bpow radix2 e); [apply bpow_le; lia|]. rewrite <- (Rmult_1_l (bpow radix2 e)) at 1.
    apply Rmult_le_compat_r; [apply bpow_ge_0|]. apply IZR_le. lia.
  - pose proof (Rle_abs (number (S754_finite false m e))). lra.
Qed.
Ltac numbers := unfold number, coordinate, hundred, hundredth, quarter; cbn [SF2R]; unfold F2R; cbn [Fnum Fexp cond_Zopp bpow];
  change (Z.pow_pos radix2 44) with 17592186044416%Z; change (Z.pow_pos radix2 46) with 70368744177664%Z; change (Z.pow_pos radix2 59) with 576460752303423488%Z; change (Z.pow_pos radix2 54) with 18014398509481984%Z.
Lemma reach_hundredths : reachable coordinate hundred hundredth.
Proof.
  split; [apply finite_number; lia|]. split; [apply finite_number; lia|]. split; [apply scale_number; lia|]. change (2 ^ 31 - 1)%Z with 2147483647%Z. numbers. apply Rabs_le. cbn [Z.opp]. lra.
Qed.
Lemma reach_quarters : reachable coordinate hundred quarter /\ binary_grid hundred quarter.
Proof.
  split.
  - split; [apply finite_number; lia|]. split; [apply finite_number; lia|]. split; [apply scale_number; lia|]. change (2 ^ 31 - 1)%Z with 2147483647%Z. numbers. apply Rabs_le. cbn [Z.opp]. lra.
  - split; [apply finite_number; lia|]. split; [apply finite_number; lia|]. exists (-2)%Z, 400%Z. split; [lia|]. split; [lia|]. numbers. change (Z.pow_pos radix2 2) with 4%Z. lra.
Qed.
