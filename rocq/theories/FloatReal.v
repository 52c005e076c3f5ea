(* The floating point operations of the standard library's SpecFloat, which the models use, as operations on real numbers followed
   by rounding. The proofs go through Flocq's BinarySingleNaN; they use no axioms besides those of the real numbers. *)
From Coq Require Import ZArith Reals Lia Lra Psatz Bool SpecFloat.
From Flocq Require Import Core BinarySingleNaN.
Open Scope R_scope.

Section Format.
Variables prec emax : Z.
Context (Hprec : Prec_gt_0 prec) (Hmax : Prec_lt_emax prec emax).

Notation valid x := (SpecFloat.valid_binary prec emax x = true).
Notation fexp := (SpecFloat.fexp prec emax).
Instance fexp_ok : Valid_exp fexp := FLT_exp_valid (emin prec emax) prec.
Instance fexp_mono : Monotone_exp fexp := FLT_exp_monotone (emin prec emax) prec.

(* the real number a float stands for *)
Definition value (x : spec_float) : R := SF2R radix2 x.
(* rounding to the nearest float, to even in a tie, without regard to the largest exponent *)
Definition rnd (x : R) : R := round radix2 fexp ZnearestE x.
Definition in_range (x : R) : Prop := Rabs x < bpow radix2 emax.

Lemma round_nearest_even_equiv s m l : round_nearest_even m l = choice_mode mode_NE s m l.
Proof. destruct l as [|c]; [reflexivity|]. destruct c; try reflexivity. simpl. unfold Round.cond_incr. now destruct (Z.even m). Qed.
Lemma binary_round_aux_equiv sx mx ex lx : SpecFloat.binary_round_aux prec emax sx mx ex lx = binary_round_aux prec emax mode_NE sx mx ex lx.
Proof.
  unfold SpecFloat.binary_round_aux, binary_round_aux. set (q := shr_fexp _ _ _ _ _). destruct q as (mrs, e). simpl.
  now rewrite (round_nearest_even_equiv sx).
Qed.
Lemma binary_round_equiv s m e : SpecFloat.binary_round prec emax s m e = binary_round prec emax mode_NE s m e.
Proof.
  unfold SpecFloat.binary_round, binary_round, shl_align_fexp. set (q := shl_align _ _ _). destruct q as (mz, ez). apply binary_round_aux_equiv.
Qed.
Lemma binary_normalize_equiv m e z : SpecFloat.binary_normalize prec emax m e z = B2SF (binary_normalize prec emax Hprec Hmax mode_NE m e z).
Proof. destruct m as [|p|p]; simpl; [reflexivity| |]; rewrite B2SF_SF2B; apply binary_round_equiv. Qed.

Notation B x V := (SF2B (prec := prec) (emax := emax) x V).

Lemma add_equiv x y (Vx : valid x) (Vy : valid y) : SFadd prec emax x y = B2SF (Bplus mode_NE (B x Vx) (B y Vy)).
Proof.
  destruct x as [sx|sx| |sx mx ex], y as [sy|sy| |sy my ey]; try reflexivity; simpl; try (now destruct (Bool.eqb sx sy)).
  apply binary_normalize_equiv.
Qed.
Lemma sub_equiv x y (Vx : valid x) (Vy : valid y) : SFsub prec emax x y = B2SF (Bminus mode_NE (B x Vx) (B y Vy)).
Proof.
  destruct x as [sx|sx| |sx mx ex], y as [sy|sy| |sy my ey]; try reflexivity; simpl; try (now destruct (Bool.eqb sx (negb sy))).
  unfold Zminus. rewrite <- cond_Zopp_negb. apply binary_normalize_equiv.
Qed.
Lemma mul_equiv x y (Vx : valid x) (Vy : valid y) : SFmul prec emax x y = B2SF (Bmult mode_NE (B x Vx) (B y Vy)).
Proof.
  destruct x as [sx|sx| |sx mx ex], y as [sy|sy| |sy my ey]; try reflexivity. simpl. rewrite B2SF_SF2B. apply binary_round_aux_equiv.
Qed.
Lemma div_equiv x y (Vx : valid x) (Vy : valid y) : SFdiv prec emax x y = B2SF (Bdiv mode_NE (B x Vx) (B y Vy)).
Proof.
  destruct x as [sx|sx| |sx mx ex], y as [sy|sy| |sy my ey]; try reflexivity; try (simpl; now destruct (Bool.eqb sx sy)).
  simpl. rewrite B2SF_SF2B. set (q := SFdiv_core_binary _ _ _ _ _ _). destruct q as ((mz, ez), lz). apply binary_round_aux_equiv.
Qed.

Lemma value_B x (V : valid x) : B2R (B x V) = value x.
Proof. apply B2R_SF2B. Qed.
Lemma finite_B x (V : valid x) : is_finite (B x V) = is_finite_SF x.
Proof. apply is_finite_SF2B. Qed.
Lemma value_back (f : binary_float prec emax) : value (B2SF f) = B2R f.
Proof. apply SF2R_B2SF. Qed.
Lemma finite_back (f : binary_float prec emax) : is_finite_SF (B2SF f) = is_finite f.
Proof. apply is_finite_SF_B2SF. Qed.

Lemma add_valid x y : valid x -> valid y -> valid (SFadd prec emax x y).
Proof. intros Vx Vy. rewrite (add_equiv x y Vx Vy). apply valid_binary_B2SF. Qed.
Lemma sub_valid x y : valid x -> valid y -> valid (SFsub prec emax x y).
Proof. intros Vx Vy. rewrite (sub_equiv x y Vx Vy). apply valid_binary_B2SF. Qed.
Lemma mul_valid x y : valid x -> valid y -> valid (SFmul prec emax x y).
Proof. intros Vx Vy. rewrite (mul_equiv x y Vx Vy). apply valid_binary_B2SF. Qed.
Lemma div_valid x y : valid x -> valid y -> valid (SFdiv prec emax x y).
Proof. intros Vx Vy. rewrite (div_equiv x y Vx Vy). apply valid_binary_B2SF. Qed.

Lemma add_correct x y : valid x -> valid y -> is_finite_SF x = true -> is_finite_SF y = true ->
  (in_range (rnd (value x + value y)) -> is_finite_SF (SFadd prec emax x y) = true /\ value (SFadd prec emax x y) = rnd (value x + value y))
  /\ (~ in_range (rnd (value x + value y)) -> SFadd prec emax x y = S754_infinity (sign_SF x) /\ sign_SF x = sign_SF y).
Proof.
  intros Vx Vy Fx Fy. rewrite (add_equiv x y Vx Vy), finite_back, value_back.
  pose proof (Bplus_correct prec emax Hprec Hmax mode_NE (B x Vx) (B y Vy)) as C. rewrite !value_B, !finite_B in C. specialize (C Fx Fy).
  unfold in_range, rnd. change (round_mode mode_NE) with ZnearestE in C. destruct (Rlt_bool_spec (Rabs (round radix2 fexp ZnearestE (value x + value y))) (bpow radix2 emax)) as [L|L].
  - destruct C as (E & F & _). split; [auto|lra].
  - destruct C as (E & S). split; [lra|]. intros _. rewrite E. rewrite !Bsign_SF2B in *. auto.
Qed.
Lemma sub_correct x y : valid x -> valid y -> is_finite_SF x = true -> is_finite_SF y = true ->
  (in_range (rnd (value x - value y)) -> is_finite_SF (SFsub prec emax x y) = true /\ value (SFsub prec emax x y) = rnd (value x - value y))
  /\ (~ in_range (rnd (value x - value y)) -> SFsub prec emax x y = S754_infinity (sign_SF x) /\ sign_SF x = negb (sign_SF y)).
Proof.
  intros Vx Vy Fx Fy. rewrite (sub_equiv x y Vx Vy), finite_back, value_back.
  pose proof (Bminus_correct prec emax Hprec Hmax mode_NE (B x Vx) (B y Vy)) as C. rewrite !value_B, !finite_B in C. specialize (C Fx Fy).
  unfold in_range, rnd. change (round_mode mode_NE) with ZnearestE in C. destruct (Rlt_bool_spec (Rabs (round radix2 fexp ZnearestE (value x - value y))) (bpow radix2 emax)) as [L|L].
  - destruct C as (E & F & _). split; [auto|lra].
  - destruct C as (E & S). split; [lra|]. intros _. rewrite E. rewrite !Bsign_SF2B in *. auto.
Qed.
Lemma mul_correct x y : valid x -> valid y -> is_finite_SF x = true -> is_finite_SF y = true ->
  (in_range (rnd (value x * value y)) -> is_finite_SF (SFmul prec emax x y) = true /\ value (SFmul prec emax x y) = rnd (value x * value y))
  /\ (~ in_range (rnd (value x * value y)) -> SFmul prec emax x y = S754_infinity (xorb (sign_SF x) (sign_SF y))).
Proof.
  intros Vx Vy Fx Fy. rewrite (mul_equiv x y Vx Vy), finite_back, value_back.
  pose proof (Bmult_correct prec emax Hprec Hmax mode_NE (B x Vx) (B y Vy)) as C. rewrite !value_B, !finite_B in C.
  unfold in_range, rnd. change (round_mode mode_NE) with ZnearestE in C. destruct (Rlt_bool_spec (Rabs (round radix2 fexp ZnearestE (value x * value y))) (bpow radix2 emax)) as [L|L].
  - destruct C as (E & F & _). rewrite Fx, Fy in F. split; [auto|lra].
  - split; [lra|]. intros _. rewrite C. now rewrite !Bsign_SF2B.
Qed.
Lemma div_correct x y : valid x -> valid y -> is_finite_SF x = true -> value y <> 0 ->
  (in_range (rnd (value x / value y)) -> is_finite_SF (SFdiv prec emax x y) = true /\ value (SFdiv prec emax x y) = rnd (value x / value y))
  /\ (~ in_range (rnd (value x / value y)) -> SFdiv prec emax x y = S754_infinity (xorb (sign_SF x) (sign_SF y))).
Proof.
  intros Vx Vy Fx Ny. rewrite (div_equiv x y Vx Vy), finite_back, value_back.
  pose proof (Bdiv_correct prec emax Hprec Hmax mode_NE (B x Vx) (B y Vy)) as C. rewrite !value_B, !finite_B in C. specialize (C Ny).
  unfold in_range, rnd. change (round_mode mode_NE) with ZnearestE in C. destruct (Rlt_bool_spec (Rabs (round radix2 fexp ZnearestE (value x / value y))) (bpow radix2 emax)) as [L|L].
  - destruct C as (E & F & _). rewrite Fx in F. split; [auto|lra].
  - split; [lra|]. intros _. rewrite C. now rewrite !Bsign_SF2B.
Qed.

Lemma compare_correct x y : valid x -> valid y -> is_finite_SF x = true -> is_finite_SF y = true -> SFcompare x y = Some (Rcompare (value x) (value y)).
Proof.
  intros Vx Vy Fx Fy. pose proof (Bcompare_correct prec emax (B x Vx) (B y Vy)) as C. rewrite !finite_B, !value_B in C. specialize (C Fx Fy).
  unfold Bcompare in C. now rewrite !B2SF_SF2B in C.
Qed.
Lemma ltb_correct x y : valid x -> valid y -> is_finite_SF x = true -> is_finite_SF y = true -> SFltb x y = true <-> value x < value y.
Proof.
  intros Vx Vy Fx Fy. unfold SFltb. rewrite (compare_correct x y Vx Vy Fx Fy). destruct (Rcompare_spec (value x) (value y)); split; try discriminate; auto; lra.
Qed.
Lemma leb_correct x y : valid x -> valid y -> is_finite_SF x = true -> is_finite_SF y = true -> SFleb x y = true <-> value x <= value y.
Proof.
  intros Vx Vy Fx Fy. unfold SFleb. rewrite (compare_correct x y Vx Vy Fx Fy). destruct (Rcompare_spec (value x) (value y)); split; try discriminate; auto; lra.
Qed.

Lemma rnd_le x y : x <= y -> rnd x <= rnd y.
Proof. apply round_le; auto with typeclass_instances. Qed.
Lemma rnd_value x : valid x -> rnd (value x) = value x.
Proof.
  intros V. apply round_generic; auto with typeclass_instances. rewrite <- (value_B x V). apply generic_format_B2R.
Qed.
Lemma value_in_range x : valid x -> in_range (value x).
Proof. intros V. unfold in_range. rewrite <- (value_B x V). apply abs_B2R_lt_emax. Qed.
Lemma rnd_0 : rnd 0 = 0.
Proof. apply round_0. auto with typeclass_instances. Qed.
Lemma rnd_between x lo hi : valid lo -> valid hi -> value lo <= x <= value hi -> value lo <= rnd x <= value hi /\ in_range (rnd x).
Proof.
  intros Vl Vh (L & H). assert (A : value lo <= rnd x) by (rewrite <- (rnd_value lo Vl); now apply rnd_le).
  assert (C : rnd x <= value hi) by (rewrite <- (rnd_value hi Vh); now apply rnd_le). split; [auto|].
  pose proof (value_in_range lo Vl) as Rl. pose proof (value_in_range hi Vh) as Rh. unfold in_range in *. apply Rabs_lt_inv in Rl, Rh. apply Rabs_lt. lra.
Qed.

(* Floats other than NaN in their order, with the infinities at the ends: 2^emax and - 2^emax, which no finite float reaches. *)
Definition rank (x : spec_float) : R :=
  match x with S754_infinity false => bpow radix2 emax | S754_infinity true => - bpow radix2 emax | _ => value x end.
Definition clamp (x : R) : R := Rmax (- bpow radix2 emax) (Rmin (bpow radix2 emax) x).
Lemma top_pos : 0 < bpow radix2 emax.
Proof. apply bpow_gt_0. Qed.
Lemma clamp_le x y : x <= y -> clamp x <= clamp y.
Proof. intros H. unfold clamp. apply Rle_max_compat_l. now apply Rle_min_compat_l. Qed.
Lemma clamp_id x : in_range x -> clamp x = x.
Proof. intros H. unfold in_range in H. apply Rabs_lt_inv in H. unfold clamp. rewrite Rmin_right, Rmax_right by lra. reflexivity. Qed.
Lemma clamp_high x : bpow radix2 emax <= x -> clamp x = bpow radix2 emax.
Proof. pose proof top_pos. intros H'. unfold clamp. rewrite Rmin_left, Rmax_right by lra. reflexivity. Qed.
Lemma clamp_low x : x <= - bpow radix2 emax -> clamp x = - bpow radix2 emax.
Proof. pose proof top_pos. intros H'. unfold clamp. rewrite Rmin_right by lra. rewrite Rmax_left by lra. reflexivity. Qed.
Lemma clamp_opp x : clamp (- x) = - clamp x.
Proof.
  pose proof top_pos. destruct (Rle_or_lt (bpow radix2 emax) x); [rewrite (clamp_high x), (clamp_low (- x)) by lra; lra|].
  destruct (Rle_or_lt x (- bpow radix2 emax)); [rewrite (clamp_low x), (clamp_high (- x)) by lra; lra|].
  rewrite !clamp_id; auto; unfold in_range; apply Rabs_lt; lra.
Qed.
Lemma clamp_bounds x : - bpow radix2 emax <= clamp x <= bpow radix2 emax.
Proof. pose proof top_pos. unfold clamp. split; [apply Rmax_l|]. apply Rmax_lub; [lra|apply Rmin_l]. Qed.

Lemma rank_finite x : is_finite_SF x = true -> rank x = value x.
Proof. destruct x as [s|s| |s m e]; try discriminate; reflexivity. Qed.
Lemma rank_bounds x : valid x -> - bpow radix2 emax <= rank x <= bpow radix2 emax.
Proof.
  intros V. pose proof top_pos. destruct x as [s|s| |s m e]; try (cbn; lra); [destruct s; cbn; lra|].
  pose proof (value_in_range _ V) as Q. unfold in_range in Q. apply Rabs_lt_inv in Q. cbn [rank]. lra.
Qed.
Lemma sign_value x : (sign_SF x = false -> 0 <= value x) /\ (sign_SF x = true -> value x <= 0).
Proof.
  destruct x as [s|s| |s m e]; cbn; try lra. split; intros ->; cbn.
  - apply F2R_ge_0. cbn. lia.
  - apply F2R_le_0. cbn. lia.
Qed.
Lemma rnd_opp x : rnd (- x) = - rnd x.
Proof. apply round_NE_opp. Qed.
Lemma rnd_ge_0 x : 0 <= x -> 0 <= rnd x.
Proof. intros H. rewrite <- rnd_0. now apply rnd_le. Qed.
Lemma rnd_le_0 x : x <= 0 -> rnd x <= 0.
Proof. intros H. rewrite <- rnd_0. now apply rnd_le. Qed.
Lemma not_in_range x : ~ in_range x -> 0 <= x -> bpow radix2 emax <= x.
Proof. unfold in_range. intros H P. destruct (Rle_or_lt (bpow radix2 emax) x); auto. exfalso. apply H. rewrite Rabs_pos_eq; lra. Qed.
Lemma not_in_range_neg x : ~ in_range x -> x <= 0 -> x <= - bpow radix2 emax.
Proof. unfold in_range. intros H P. destruct (Rle_or_lt x (- bpow radix2 emax)); auto. exfalso. apply H. rewrite Rabs_left1; lra. Qed.

Lemma in_range_dec x : in_range x \/ ~ in_range x.
Proof. unfold in_range. destruct (Rlt_dec (Rabs x) (bpow radix2 emax)); auto. Qed.
Lemma rank_add x y : valid x -> valid y -> is_finite_SF x = true -> is_finite_SF y = true ->
  rank (SFadd prec emax x y) = clamp (rnd (value x + value y)) /\ SFadd prec emax x y <> S754_nan.
Proof.
  intros Vx Vy Fx Fy. destruct (add_correct x y Vx Vy Fx Fy) as (A & C). destruct (in_range_dec (rnd (value x + value y))) as [R|R].
  - destruct (A R) as (F & E). split; [rewrite (rank_finite _ F), E, clamp_id; auto|]. intros X. rewrite X in F. discriminate.
  - destruct (C R) as (E & S). rewrite E. split; [|discriminate].
    pose proof (sign_value x) as (X1 & X2). pose proof (sign_value y) as (Y1 & Y2). rewrite <- S in Y1, Y2. destruct (sign_SF x).
    + rewrite clamp_low; [reflexivity|]. apply not_in_range_neg; auto. apply rnd_le_0. specialize (X2 eq_refl). specialize (Y2 eq_refl). lra.
    + rewrite clamp_high; [reflexivity|]. apply not_in_range; auto. apply rnd_ge_0. specialize (X1 eq_refl). specialize (Y1 eq_refl). lra.
Qed.
Lemma rank_sub x y : valid x -> valid y -> is_finite_SF x = true -> is_finite_SF y = true ->
  rank (SFsub prec emax x y) = clamp (rnd (value x - value y)) /\ SFsub prec emax x y <> S754_nan.
Proof.
  intros Vx Vy Fx Fy. destruct (sub_correct x y Vx Vy Fx Fy) as (A & C). destruct (in_range_dec (rnd (value x - value y))) as [R|R].
  - destruct (A R) as (F & E). split; [rewrite (rank_finite _ F), E, clamp_id; auto|]. intros X. rewrite X in F. discriminate.
  - destruct (C R) as (E & S). rewrite E. split; [|discriminate].
    pose proof (sign_value x) as (X1 & X2). pose proof (sign_value y) as (Y1 & Y2). destruct (sign_SF x); destruct (sign_SF y); try discriminate.
    + rewrite clamp_low; [reflexivity|]. apply not_in_range_neg; auto. apply rnd_le_0. specialize (X2 eq_refl). specialize (Y1 eq_refl). lra.
    + rewrite clamp_high; [reflexivity|]. apply not_in_range; auto. apply rnd_ge_0. specialize (X1 eq_refl). specialize (Y2 eq_refl). lra.
Qed.
Lemma rank_compare x y : valid x -> valid y -> x <> S754_nan -> y <> S754_nan -> SFcompare x y = Some (Rcompare (rank x) (rank y)).
Proof.
  intros Vx Vy Nx Ny. pose proof top_pos as T.
  assert (FIN : forall z, z <> S754_nan -> is_finite_SF z = true \/ exists s, z = S754_infinity s).
  { intros [s|s| |s m e] N; try congruence; auto. right. now exists s. }
  destruct (FIN x Nx) as [Fx|(s & ->)], (FIN y Ny) as [Fy|(t & ->)].
  - rewrite (compare_correct x y Vx Vy Fx Fy), !rank_finite by auto. reflexivity.
  - rewrite (rank_finite x Fx). pose proof (value_in_range x Vx) as Q. unfold in_range in Q. apply Rabs_lt_inv in Q.
    destruct t; cbn [rank]; [rewrite Rcompare_Gt by lra|rewrite Rcompare_Lt by lra]; destruct x as [sx|sx| |sx mx ex]; try discriminate; destruct sx; reflexivity.
  - rewrite (rank_finite y Fy). pose proof (value_in_range y Vy) as Q. unfold in_range in Q. apply Rabs_lt_inv in Q.
    destruct s; cbn [rank]; [rewrite Rcompare_Lt by lra|rewrite Rcompare_Gt by lra]; destruct y as [sy|sy| |sy my ey]; try discriminate; destruct sy; reflexivity.
  - destruct s, t; cbn [rank]; [rewrite Rcompare_Eq by lra|rewrite Rcompare_Lt by lra|rewrite Rcompare_Gt by lra|rewrite Rcompare_Eq by lra]; reflexivity.
Qed.
Lemma rank_ltb x y : valid x -> valid y -> x <> S754_nan -> y <> S754_nan -> SFltb x y = true <-> rank x < rank y.
Proof.
  intros Vx Vy Nx Ny. unfold SFltb. rewrite (rank_compare x y Vx Vy Nx Ny). destruct (Rcompare_spec (rank x) (rank y)); split; try discriminate; auto; lra.
Qed.
Lemma rank_leb x y : valid x -> valid y -> x <> S754_nan -> y <> S754_nan -> SFleb x y = true <-> rank x <= rank y.
Proof.
  intros Vx Vy Nx Ny. unfold SFleb. rewrite (rank_compare x y Vx Vy Nx Ny). destruct (Rcompare_spec (rank x) (rank y)); split; try discriminate; auto; lra.
Qed.
Lemma rank_abs x : rank (SFabs x) = Rabs (rank x).
Proof.
  pose proof top_pos. destruct x as [s|s| |s m e]; cbn [SFabs rank].
  - cbn. now rewrite Rabs_R0.
  - destruct s; [rewrite Rabs_left1 by lra; lra|rewrite Rabs_pos_eq by lra; lra].
  - cbn. now rewrite Rabs_R0.
  - unfold value. cbn [SF2R]. rewrite <- F2R_Zabs. f_equal. f_equal. destruct s; reflexivity.
Qed.
Lemma abs_valid x : valid x -> valid (SFabs x).
Proof. destruct x; auto. Qed.
Lemma abs_nan x : x <> S754_nan -> SFabs x <> S754_nan.
Proof. destruct x; cbn; congruence. Qed.

(* integers *)
Lemma normalize_valid z e s : valid (SpecFloat.binary_normalize prec emax z e s).
Proof. rewrite binary_normalize_equiv. apply valid_binary_B2SF. Qed.
Lemma normalize_correct z e s : in_range (rnd (F2R (Float radix2 z e))) ->
  is_finite_SF (SpecFloat.binary_normalize prec emax z e s) = true /\ value (SpecFloat.binary_normalize prec emax z e s) = rnd (F2R (Float radix2 z e)).
Proof.
  intros R. rewrite binary_normalize_equiv, finite_back, value_back. pose proof (binary_normalize_correct prec emax Hprec Hmax mode_NE z e s) as C. cbv zeta in C.
  change (round_mode mode_NE) with ZnearestE in C. unfold in_range, rnd in R. rewrite Rlt_bool_true in C by exact R. split; apply C.
Qed.
Lemma rnd_int z : (Z.abs z <= 2 ^ prec)%Z -> (emin prec emax <= 0)%Z -> rnd (IZR z) = IZR z.
Proof.
  intros Z0 E. apply round_generic; auto with typeclass_instances. apply (generic_format_FLT radix2 (emin prec emax) prec). 
  assert (P : (0 < prec)%Z) by exact Hprec. destruct (Z.eq_dec (Z.abs z) (2 ^ prec)) as [H|H].
  - exists (Float radix2 (Z.sgn z) prec); cbn [Fnum Fexp]; [|assert (1 < 2 ^ prec)%Z by (apply Z.pow_gt_1; lia); change (Zpower radix2 prec) with (2 ^ prec)%Z; lia|lia].
    unfold F2R. cbn [Fnum Fexp]. rewrite <- IZR_Zpower by lia. rewrite <- mult_IZR. f_equal. change (Zpower radix2 prec) with (2 ^ prec)%Z. rewrite <- H. lia.
  - exists (Float radix2 z 0); cbn [Fnum Fexp]; [unfold F2R; cbn; lra|change (Zpower radix2 prec) with (2 ^ prec)%Z; lia|lia].
Qed.

(* adding a positive number that is more than half the spacing of the floats makes progress *)
Lemma add_progress c l : valid c -> is_finite_SF c = true -> valid l -> is_finite_SF l = true -> 0 < value l ->
  Rabs (value c) < value l * bpow radix2 prec -> value c < rnd (value c + value l).
Proof.
  intros Vc Fc Vl Fl P Bd. assert (GE : value c <= rnd (value c + value l)) by (rewrite <- (rnd_value c Vc) at 1; apply rnd_le; lra).
  destruct GE as [LT|E]; [exact LT|]. exfalso.
  pose proof (error_le_half_ulp_round radix2 fexp (fun x => negb (Z.even x)) (value c + value l)) as H. fold (rnd (value c + value l)) in H. rewrite <- E in H.
  replace (value c - (value c + value l)) with (- value l) in H by ring. rewrite Rabs_Ropp, Rabs_pos_eq in H by lra.
  destruct (Rle_or_lt (bpow radix2 (emin prec emax + prec - 1)) (Rabs (value c))) as [N|N].
  - pose proof (ulp_FLT_le radix2 (emin prec emax) prec (value c) N) as U. change (FLT_exp (emin prec emax) prec) with fexp in U.
    assert (M : bpow radix2 prec * bpow radix2 (1 - prec) = 2) by (rewrite <- bpow_plus; replace (prec + (1 - prec))%Z with 1%Z by lia; reflexivity).
    pose proof (bpow_gt_0 radix2 (1 - prec)) as G. pose proof (bpow_gt_0 radix2 prec) as G2. nra.
  - assert (N2 : Rabs (value c) < bpow radix2 (emin prec emax + prec)).
    { eapply Rlt_le_trans; [exact N|]. apply bpow_le. lia. }
    pose proof (ulp_FLT_small radix2 (emin prec emax) prec (value c) N2) as U. change (FLT_exp (emin prec emax) prec) with fexp in U. rewrite U in H.
    assert (G : bpow radix2 (emin prec emax) <= value l).
    { rewrite <- (value_B l Vl) in P |- *. pose proof (abs_B2R_ge_emin prec emax (B l Vl)) as A.
      rewrite Rabs_pos_eq in A by lra. apply A. destruct l as [s|s| |s m e]; try discriminate; cbn in P |- *; [lra|reflexivity]. }
    pose proof (bpow_gt_0 radix2 (emin prec emax)). lra.
Qed.
End Format.
