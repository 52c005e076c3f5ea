(* The f64 operations of the models as rounded operations on real numbers. *)
From Coq Require Import ZArith Reals Lia Lra Bool SpecFloat.
From Flocq Require Import Core BinarySingleNaN.
From Verif Require Import NumProofs2 MathModel MathSpec VoxModel VoxSpec FloatReal.
Open Scope R_scope.

Definition H53 : Prec_gt_0 53 := eq_refl.
Definition H1024 : Prec_lt_emax 53 1024 := eq_refl.
Definition val (x : spec_float) : R := value x.
Definition rank64 (x : spec_float) : R := rank 1024 x.
Definition rnd64 (x : R) : R := rnd 53 1024 x.
Definition clamp64 (x : R) : R := clamp 1024 x.
Notation top := (bpow radix2 1024).

Lemma digits_lt m (k : Z) : (0 <= k)%Z -> (Zpos (SpecFloat.digits2_pos m) <= k <-> Zpos m < 2 ^ k)%Z.
Proof.
  intros K. pose proof (NumProofs.digits2_bounds m) as (L & U). split; intros H.
  - eapply Z.lt_le_trans; [exact U|]. apply Z.pow_le_mono_r; lia.
  - destruct (Z_le_gt_dec (Zpos (SpecFloat.digits2_pos m)) k); auto. exfalso.
    assert (2 ^ k <= 2 ^ (Zpos (SpecFloat.digits2_pos m) - 1))%Z by (apply Z.pow_le_mono_r; lia). lia.
Qed.
Lemma f64_valid x : is_f64 x <-> SpecFloat.valid_binary 53 1024 x = true.
Proof.
  destruct x as [s|s| |s m e]; try (cbn; tauto). cbn [is_f64 SpecFloat.valid_binary].
  pose proof (digits_lt m 53 ltac:(lia)) as D53. pose proof (digits_lt m 52 ltac:(lia)) as D52. split.
  - intros H. apply canonical_intro; [lia|]. change (SpecFloat.emin 53 1024) with (-1074)%Z. lia.
  - intros H. apply canonical_cases in H. change (SpecFloat.emin 53 1024) with (-1074)%Z in H. lia.
Qed.
Lemma finite_SF x : finite x <-> is_finite_SF x = true.
Proof. destruct x; cbn; split; auto; discriminate. Qed.

Lemma add_f64 x y : is_f64 x -> is_f64 y -> is_f64 (f64_add x y).
Proof. rewrite !f64_valid. apply (add_valid 53 1024 H53 H1024). Qed.
Lemma sub_f64 x y : is_f64 x -> is_f64 y -> is_f64 (f64_sub x y).
Proof. rewrite !f64_valid. apply (sub_valid 53 1024 H53 H1024). Qed.
Lemma abs_f64 x : is_f64 x -> is_f64 (SFabs x).
Proof. destruct x; auto. Qed.
Lemma add_rank x y : real_f64 x -> real_f64 y -> rank64 (f64_add x y) = clamp64 (rnd64 (val x + val y)) /\ not_nan (f64_add x y).
Proof. intros (Fx & Vx) (Fy & Vy). apply f64_valid in Vx, Vy. apply finite_SF in Fx, Fy. apply (rank_add 53 1024 H53 H1024); auto. Qed.
Lemma sub_rank x y : real_f64 x -> real_f64 y -> rank64 (f64_sub x y) = clamp64 (rnd64 (val x - val y)) /\ not_nan (f64_sub x y).
Proof. intros (Fx & Vx) (Fy & Vy). apply f64_valid in Vx, Vy. apply finite_SF in Fx, Fy. apply (rank_sub 53 1024 H53 H1024); auto. Qed.
Lemma ltb_rank x y : is_f64 x -> is_f64 y -> not_nan x -> not_nan y -> (SFltb x y = true <-> rank64 x < rank64 y).
Proof. rewrite !f64_valid. apply (rank_ltb 53 1024). Qed.
Lemma ltb_rank_false x y : is_f64 x -> is_f64 y -> not_nan x -> not_nan y -> (SFltb x y = false <-> rank64 y <= rank64 x).
Proof.
  intros. pose proof (ltb_rank x y ltac:(auto) ltac:(auto) ltac:(auto) ltac:(auto)) as E. destruct (SFltb x y).
  - split; [discriminate|]. pose proof (proj1 E eq_refl). lra.
  - split; auto. intros _. destruct (Rle_or_lt (rank64 y) (rank64 x)) as [L|L]; auto. apply E in L. discriminate.
Qed.
Lemma leb_rank x y : is_f64 x -> is_f64 y -> not_nan x -> not_nan y -> (SFleb x y = true <-> rank64 x <= rank64 y).
Proof. rewrite !f64_valid. apply (rank_leb 53 1024). Qed.
Lemma rank_real x : real_f64 x -> rank64 x = val x.
Proof. intros (F & _). apply rank_finite. now apply finite_SF. Qed.
Lemma rank_range x : is_f64 x -> - top <= rank64 x <= top.
Proof. rewrite f64_valid. apply (rank_bounds 53 1024). Qed.
Lemma val_range x : real_f64 x -> - top < val x < top.
Proof. intros (_ & V). apply f64_valid in V. pose proof (value_in_range 53 1024 x V) as Q. unfold in_range in Q. apply Rabs_lt_inv in Q. unfold val. lra. Qed.
Lemma rank_abs64 x : rank64 (SFabs x) = Rabs (rank64 x).
Proof. apply rank_abs. Qed.
Lemma top_positive : 0 < top.
Proof. apply bpow_gt_0. Qed.

(* a float is finite exactly if its rank is not at an end *)
Lemma rank_inner x : is_f64 x -> not_nan x -> - top < rank64 x < top -> real_f64 x.
Proof.
  intros V N R. split; auto. destruct x as [s|s| |s m e]; cbn; auto.
  destruct s; unfold rank64, rank in R; lra.
Qed.
Lemma rank_top x : is_f64 x -> not_nan x -> rank64 x = top -> x = S754_infinity false.
Proof.
  intros V N R. pose proof top_positive. destruct x as [s|s| |s m e]; [cbn in R; lra| |now elim N|].
  - destruct s; [unfold rank64, rank in R; lra|reflexivity].
  - assert (real_f64 (S754_finite s m e)) as Q by (split; cbn; auto). pose proof (val_range _ Q). rewrite (rank_real _ Q) in R. lra.
Qed.
Lemma real_not_nan x : real_f64 x -> not_nan x.
Proof. intros (F & _) ->. exact F. Qed.

(* the real number is the integer multiple of the least positive float *)
Lemma val_scaled x : is_f64 x -> val x = IZR (scaled x) * bpow radix2 (-1074).
Proof.
  destruct x as [s|s| |s m e]; intros V; cbn [val value SF2R scaled]; try (unfold val, value; cbn; lra).
  unfold val, value. cbn [SF2R]. cbn [is_f64] in V. unfold F2R. cbn [Fnum Fexp].
  replace (bpow radix2 e) with (bpow radix2 (e + 1074) * bpow radix2 (-1074)) by (rewrite <- bpow_plus; f_equal; lia).
  rewrite <- Rmult_assoc. f_equal. rewrite <- (IZR_Zpower radix2 (e + 1074)) by lia. rewrite <- mult_IZR. f_equal.
  change (Zaux.radix_val radix2) with 2%Z. destruct s; cbn [cond_Zopp]; nia.
Qed.
Lemma scaled_lt x y : is_f64 x -> is_f64 y -> (val x < val y <-> (scaled x < scaled y)%Z).
Proof.
  intros Vx Vy. rewrite (val_scaled x Vx), (val_scaled y Vy). pose proof (bpow_gt_0 radix2 (-1074)) as P. split; intros H.
  - apply lt_IZR. nra.
  - apply IZR_lt in H. nra.
Qed.

(* integers of at most 2^53 are converted exactly *)
Lemma of_int z : (Z.abs z <= 2 ^ 53)%Z -> real_f64 (SpecFloat.binary_normalize 53 1024 z 0 false) /\ val (SpecFloat.binary_normalize 53 1024 z 0 false) = IZR z.
Proof.
  intros H. assert (E : F2R (Float radix2 z 0) = IZR z) by (unfold F2R; cbn; lra).
  assert (R : rnd 53 1024 (IZR z) = IZR z) by (apply (rnd_int 53 1024 H53); [exact H|vm_compute; discriminate]).
  destruct (normalize_correct 53 1024 H53 H1024 z 0 false) as (F & V).
  { rewrite E, R. unfold in_range. rewrite <- abs_IZR. eapply Rle_lt_trans; [apply IZR_le, H|]. change (IZR (2 ^ 53)) with (bpow radix2 53). apply bpow_lt. reflexivity. }
  rewrite E, R in V. split; [|exact V]. split; [now apply finite_SF|]. apply f64_valid. apply (normalize_valid 53 1024 H53 H1024).
Qed.
