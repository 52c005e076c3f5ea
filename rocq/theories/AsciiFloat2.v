(* Reading the decimal numbers that were written. *)
From Coq Require Import String Ascii List ZArith QArith Qabs Qreals Reals Lia Lra Bool Arith SpecFloat.
From Flocq Require Import Core BinarySingleNaN.
From Verif Require Import Base LayoutModel LayoutSpec BufferModel BufferSpec TraitModel TraitSpec NumModel AsciiModel AsciiSpec ListLemmas
  AsciiProofs AsciiProofs2 AsciiProofs7 AsciiFloatSpec FloatReal F64Real LasFloat AsciiFloat.
Import ListNotations.
Open Scope nat_scope.

Lemma break_spec t : match break_point t with (a, None) => t = a | (a, Some b) => t = a ++ ch "." :: b end.
Proof.
  induction t as [|c t IH]; [reflexivity|]. cbn [break_point]. destruct (Z.eqb_spec c (ch ".")) as [->|_]; [reflexivity|].
  destruct (break_point t) as [a [b|]]; cbn [app]; now rewrite <- IH.
Qed.
Lemma digits_value_app i f a b : digits_value i = Some a -> digits_value f = Some b -> digits_value (i ++ f) = Some (a * 10 ^ Z.of_nat (length f) + b)%Z.
Proof.
  intros A. revert b. induction f as [|c f IH] using rev_ind; intros b B.
  - rewrite app_nil_r, A. change (digits_value []) with (Some 0%Z) in B. injection B as <-. cbn [length]. f_equal. change (10 ^ Z.of_nat 0)%Z with 1%Z. lia.
  - rewrite app_assoc, digits_value_snoc. rewrite digits_value_snoc in B. destruct (digits_value f) as [v|]; [|discriminate B]. rewrite (IH v eq_refl). cbn [dstep] in *.
    destruct ((48 <=? c)%Z && (c <=? 57)%Z)%bool; [|discriminate B]. apply (f_equal (fun o => match o with Some z => z | None => 0%Z end)) in B. cbv beta iota in B. subst b. rewrite app_length. cbn [length]. f_equal.
    rewrite Nat2Z.inj_add, Z.pow_add_r by lia. change (10 ^ Z.of_nat 1)%Z with 10%Z. ring.
Qed.

Definition fraction_text (f : text) : text := match f with [] => [] | _ => ch "." :: f end.
Lemma decimal_shape t q : decimal_value t = Some q -> exists s i f a, t = sign_text s ++ i ++ fraction_text f /\ i <> [] /\ Forall is_digit i /\ Forall is_digit f
  /\ digits_value (i ++ f) = Some a /\ (q == signed_q s (Qmake a (Z.to_pos (10 ^ Z.of_nat (length f)))))%Q.
Proof.
  unfold decimal_value. intros D.
  assert (X : exists (s : bool) t', t = sign_text s ++ t' /\ (let '(i, f) := break_point t' in
    match i, digits_value i, f with
    | _ :: _, Some a, None => Some (signed_q s (inject_Z a))
    | _ :: _, Some a, Some (d :: f) => match digits_value (d :: f) with Some b => Some (signed_q s (inject_Z a + Qmake b (Z.to_pos (10 ^ Z.of_nat (length (d :: f)))))%Q) | None => None end
    | _, _, _ => None end) = Some q).
  { destruct t as [|c t]; [exists false, []; split; [reflexivity|exact D]|]. destruct (Z.eqb_spec c (ch "-")) as [->|N].
    - exists true, t. split; [reflexivity|exact D].
    - exists false, (c :: t). split; [reflexivity|exact D]. }
  clear D. destruct X as (s & t' & -> & D). exists s. pose proof (break_spec t') as B. destruct (break_point t') as [i fo].
  destruct i as [|c i]; [discriminate D|]. destruct (digits_value (c :: i)) as [a|] eqn:A; [|discriminate D]. pose proof (digits_all (c :: i) 0 _ A) as FI. destruct fo as [[|d f]|].
  - discriminate D.
  - destruct (digits_value (d :: f)) as [b|] eqn:E; [|discriminate D]. injection D as <-. exists (c :: i), (d :: f), (a * 10 ^ Z.of_nat (length (d :: f)) + b)%Z. split; [now rewrite B|].
    split; [discriminate|]. split; [exact FI|]. split; [exact (digits_all _ 0 _ E)|]. split; [exact (digits_value_app _ _ _ _ A E)|]. apply signed_q_eq.
    pose proof (pos10 (length (d :: f))) as T. set (n := (10 ^ Z.of_nat (length (d :: f)))%Z) in *. unfold Qeq. cbn [Qnum Qden Qplus inject_Z]. rewrite Pos.mul_1_l, !Z2Pos.id by lia. change (Z.pow_pos 10 (Pos.of_succ_nat (length f))) with n. ring.
  - injection D as <-. exists (c :: i), [], a. split; [rewrite B; cbn [fraction_text]; now rewrite app_nil_r|]. split; [discriminate|]. split; [exact FI|]. split; [constructor|].
    rewrite app_nil_r. split; [exact A|]. apply signed_q_eq. reflexivity.
Qed.

Lemma take_digits_all i rest : Forall is_digit i -> (forall c r, rest = c :: r -> digit c = None) -> take_digits (i ++ rest) = (i, rest).
Proof.
  intros F R. induction F as [|c i D F IH]; cbn [app].
  - destruct rest as [|c r]; [reflexivity|]. cbn [take_digits]. now rewrite (R c r eq_refl).
  - cbn [take_digits]. unfold digit, is_digit in *. destruct (Z.leb_spec 48 c), (Z.leb_spec c 57); try lia. cbn [andb]. rewrite IH. reflexivity.
Qed.
Definition parse_body (s : bool) (t : text) : option spec_float :=
  let lt := map lower t in
  if (text_eqb lt (txt "inf") || text_eqb lt (txt "infinity"))%bool then Some (S754_infinity s)
  else if text_eqb lt (txt "nan") then Some S754_nan
  else
    let '(i, t) := take_digits t in
    let '(f, t) := match t with c :: t' => if Z.eqb c (ch ".") then take_digits t' else ([], t) | [] => ([], []) end in
    match parse_digits (i ++ f) with
    | None => None
    | Some m =>
        let scale := Z.of_nat (length f) in
        match t with
        | [] => Some (decimal_to_f64 s m (- scale))
        | c :: t' =>
            if Z.eqb (lower c) (ch "e")
            then match (match t' with
                        | c' :: t'' => if Z.eqb c' (ch "+") then parse_digits t''
                                       else if Z.eqb c' (ch "-") then option_map Z.opp (parse_digits t'') else parse_digits t'
                        | [] => None
                        end) with
                 | Some e => Some (decimal_to_f64 s m (e - scale))
                 | None => None
                 end
            else None
        end
    end.
Lemma parse_sign s c t : is_digit c -> parse_f64 (sign_text s ++ c :: t) = parse_body s (c :: t).
Proof.
  intros D. destruct s; cbn [sign_text app].
  - unfold parse_f64. change (Z.eqb (ch "-") (ch "-")) with true. reflexivity.
  - unfold parse_f64. destruct (Z.eqb_spec c (ch "-")) as [->|_]; [nodigit D|]. destruct (Z.eqb_spec c (ch "+")) as [->|_]; [nodigit D|]. reflexivity.
Qed.
Lemma digit_text c t c' t' : is_digit c -> (c' < 48 \/ 57 < c')%Z -> text_eqb (map lower (c :: t)) (c' :: t') = false.
Proof.
  intros D N. unfold text_eqb. destruct (list_eq_dec Z.eq_dec (map lower (c :: t)) (c' :: t')) as [E|_]; [|reflexivity]. exfalso. cbn [map] in E.
  apply (f_equal (hd 0%Z)) in E. cbn [hd] in E. unfold lower, is_digit in *. destruct (Z.leb_spec 65 c); [lia|]. cbn [andb] in E. lia.
Qed.
Lemma parse_shape s i f a : i <> [] -> Forall is_digit i -> Forall is_digit f -> digits_value (i ++ f) = Some a ->
  parse_f64 (sign_text s ++ i ++ fraction_text f) = Some (decimal_to_f64 s a (- Z.of_nat (length f))).
Proof.
  intros NE FI FF A. destruct i as [|c i]; [congruence|]. assert (DC : is_digit c) by (inversion FI; assumption).
  change ((c :: i) ++ fraction_text f) with (c :: i ++ fraction_text f). rewrite parse_sign by exact DC. unfold parse_body.
  change (txt "inf") with (105 :: tl (txt "inf"))%Z. change (txt "infinity") with (105 :: tl (txt "infinity"))%Z. change (txt "nan") with (110 :: tl (txt "nan"))%Z.
  rewrite !digit_text by (exact DC || lia). cbn [orb].
  change (c :: i ++ fraction_text f) with ((c :: i) ++ fraction_text f). rewrite (take_digits_all (c :: i) (fraction_text f) FI).
  2: { intros x r E. destruct f; [discriminate E|]. cbn [fraction_text] in E. injection E as <- _. reflexivity. }
  destruct f as [|d f]; cbn [fraction_text].
  - rewrite parse_digits_value. rewrite A. destruct ((c :: i) ++ []) eqn:Q; [discriminate Q|]. reflexivity.
  - change (Z.eqb (ch ".") (ch ".")) with true. cbv iota. pose proof (take_digits_all (d :: f) [] FF ltac:(discriminate)) as T. rewrite app_nil_r in T. rewrite T.
    rewrite parse_digits_value. rewrite A. destruct ((c :: i) ++ d :: f) eqn:Q; [discriminate Q|]. reflexivity.
Qed.

Open Scope R_scope.

Lemma Q2R_decimal s a n : Q2R (signed_q s (Qmake a (Z.to_pos (10 ^ Z.of_nat n)))) = signed_r s (IZR a / IZR (10 ^ Z.of_nat n)).
Proof.
  assert (E : Q2R (Qmake a (Z.to_pos (10 ^ Z.of_nat n))) = IZR a / IZR (10 ^ Z.of_nat n)) by (unfold Q2R; cbn [Qnum Qden]; rewrite Z2Pos.id by apply pos10; reflexivity).
  destruct s; cbn [signed_q signed_r]; [rewrite Q2R_opp|]; now rewrite E.
Qed.
(* a text that is a number is read as the nearest number *)
Lemma parse_decimal t q : decimal_value t = Some q -> exists y, parse_f64 t = Some y /\ SpecFloat.valid_binary 53 1024 y = true
  /\ (in_range 1024 (rnd64 (Q2R q)) -> is_finite_SF y = true /\ val y = rnd64 (Q2R q)).
Proof.
  intros D. destruct (decimal_shape t q D) as (s & i & f & a & -> & NE & FI & FF & A & Q). exists (decimal_to_f64 s a (- Z.of_nat (length f))). split; [exact (parse_shape s i f a NE FI FF A)|].
  rewrite (Qeq_eqR _ _ Q), Q2R_decimal. apply decimal_rounds. exact (AsciiProofs5.digits_value_nonneg _ _ A).
Qed.

Lemma abs_Q q v e : (Qabs (q - v) <= e)%Q -> Rabs (Q2R q - Q2R v) <= Q2R e.
Proof. intros H. apply Qabs_Qle_condition in H. destruct H as [H1 H2]. apply Qle_Rle in H1, H2. rewrite Q2R_opp in H1. rewrite Q2R_minus in H1, H2. apply Rabs_le. lra. Qed.
Lemma Q_abs q v e : Rabs (Q2R q - Q2R v) <= Q2R e -> (Qabs (q - v) <= e)%Q.
Proof. intros H. apply Qabs_Qle_condition. apply Rabs_le_inv in H. split; apply Rle_Qle; rewrite ?Q2R_opp, Q2R_minus; lra. Qed.

Lemma unit_bounds prec : 0 < Q2R (unit_of prec) <= 1.
Proof.
  rewrite unit_R. pose proof (pos10 prec) as T. pose proof (ten_pos prec) as P. split; [apply Rinv_0_lt_compat; exact P|]. rewrite <- Rinv_1. apply Rinv_le; [lra|]. apply IZR_le. lia.
Qed.
Lemma unit_large prec : (prec <= 300)%nat -> bpow radix2 (-1000) < Q2R (unit_of prec).
Proof.
  intros H. rewrite unit_R. replace (-1000)%Z with (- (1000))%Z by lia. rewrite bpow_opp. apply Rinv_lt; [apply ten_pos|]. rewrite <- (IZR_Zpower radix2) by lia. apply IZR_lt.
  apply (Z.le_lt_trans _ (10 ^ 300)); [apply Z.pow_le_mono_r; lia|]. reflexivity.
Qed.
Lemma in_range_1000 x : Rabs x <= bpow radix2 1000 -> in_range 1024 x.
Proof. intros H. unfold in_range. eapply Rle_lt_trans; [exact H|]. apply bpow_lt. lia. Qed.

(* what is read if x was written *)
Lemma read_float prec x t : SpecFloat.valid_binary 53 1024 x = true -> shows prec false (NFlt x) t ->
  exists y, parse_f64 t = Some y /\ SpecFloat.valid_binary 53 1024 y = true /\ read_back prec (NFlt x) (NFlt y).
Proof.
  intros V S. assert (FIN : is_finite_SF x = true -> (exists q v, decimal_value t = Some q /\ float_Q x = Some v /\ (Qabs (q - v) <= (1 # 2) * (1 # Z.to_pos (10 ^ Z.of_nat prec)))%Q
      /\ exists j, (q == inject_Z j * (1 # Z.to_pos (10 ^ Z.of_nat prec)))%Q) ->
    exists y, parse_f64 t = Some y /\ SpecFloat.valid_binary 53 1024 y = true /\ exists v w, float_Q x = Some v /\ float_Q y = Some w /\ (Qabs (w - v) <= unit_of prec)%Q
                                  /\ ((prec <= 300)%nat -> short_decimal prec x -> w == v)%Q).
  { clear S. intros F (q & v & D & FQ & E & j & J). fold (unit_of prec) in E, J. destruct (parse_decimal t q D) as (y & P & VY & Y). exists y. split; [exact P|]. split; [exact VY|].
    pose proof (float_Q_val x v FQ) as VX. apply abs_Q in E. rewrite Q2R_mult in E. replace (Q2R (1 # 2)) with (/ 2) in E by (unfold Q2R; cbn [Qnum Qden]; lra).
    pose proof (unit_bounds prec) as [U0 U1]. set (u := Q2R (unit_of prec)) in *. set (qr := Q2R q) in *. rewrite VX in E.
    pose proof (nearest qr x V) as N. rewrite (Rabs_minus_sym (val x)) in N.
    assert (B : Rabs (rnd64 qr - val x) <= u).
    { replace (rnd64 qr - val x) with ((rnd64 qr - qr) + (qr - val x)) by ring. eapply Rle_trans; [apply Rabs_triang|]. lra. }
    assert (IR : in_range 1024 (rnd64 qr)).
    { pose proof (value_in_range 53 1024 x V) as R. unfold in_range in *. fold (val x) in R.
      assert (TOP : Rabs (val x) <= bpow radix2 1024 - 2 \/ bpow radix2 1024 - 2 < Rabs (val x)) by lra. destruct TOP as [TOP|TOP].
      - pose proof (Rabs_triang (rnd64 qr - val x) (val x)) as T. replace (rnd64 qr - val x + val x) with (rnd64 qr) in T by ring. lra.
      - exfalso. pose proof (abs_B2R_le_emax_minus_prec 53 1024 H53 (SF2B x V)) as M. rewrite B2R_SF2B in M. change (SF2R radix2 x) with (val x) in M.
        assert (2 < bpow radix2 (1024 - 53)) by (change 2 with (bpow radix2 1); apply bpow_lt; lia). lra. }
    destruct (Y IR) as [FY VYV]. destruct (float_Q_finite y FY) as [w FW]. pose proof (float_Q_val y w FW) as WY.
    exists v, w. split; [exact FQ|]. split; [exact FW|]. split; [apply Q_abs; rewrite WY, VX, VYV; exact B|].
    intros P300 (t' & q' & k & PT & DT & QK & KB). destruct (parse_decimal t' q' DT) as (y' & P' & _ & Y'). rewrite PT in P'. injection P' as <-.
    assert (KR : Rabs (IZR k) <= 4503599627370495) by (rewrite <- abs_IZR; change 4503599627370495 with (IZR 4503599627370495); apply IZR_le; change (2 ^ 52)%Z with 4503599627370496%Z in KB; lia).
    assert (QR : Q2R q' = IZR k * u) by (rewrite (Qeq_eqR _ _ QK), Q2R_mult; f_equal; unfold Q2R; cbn [Qnum Qden inject_Z]; lra).
    assert (SM : Rabs (Q2R q') <= 4503599627370495 * u) by (rewrite QR, Rabs_mult, (Rabs_pos_eq u) by lra; apply Rmult_le_compat_r; lra).
    pose proof (rnd_err (Q2R q')) as ER. pose proof (unit_large prec P300) as UL. fold u in UL.
    assert (TN : tiny <= e53 * u / 2).
    { apply Rle_trans with (bpow radix2 (-54) * bpow radix2 (-1000)); [rewrite <- bpow_plus; apply bpow_le; lia|].
      replace (bpow radix2 (-53)) with (2 * bpow radix2 (-54)) by (change (-53)%Z with (1 + -54)%Z; rewrite bpow_plus; reflexivity).
      pose proof (bpow_gt_0 radix2 (-54)). nra. }
    assert (E53 : e53 = / 9007199254740992) by (change (bpow radix2 (-53)) with (/ IZR (Z.pow_pos 2 53)); reflexivity).
    assert (ER2 : Rabs (rnd64 (Q2R q') - Q2R q') < u / 2) by (rewrite E53 in *; lra).
    assert (IR' : in_range 1024 (rnd64 (Q2R q'))).
    { apply in_range_1000. apply Rle_trans with (bpow radix2 60); [|apply bpow_le; lia].
      pose proof (Rabs_triang (rnd64 (Q2R q') - Q2R q') (Q2R q')) as T. replace (rnd64 (Q2R q') - Q2R q' + Q2R q') with (rnd64 (Q2R q')) in T by ring.
      change (bpow radix2 60) with (IZR (Z.pow_pos 2 60)). change (Z.pow_pos 2 60) with 1152921504606846976%Z. lra. }
    destruct (Y' IR') as [_ XV].
    assert (JK : j = k).
    { assert (QJ : qr = IZR j * u) by (unfold qr; rewrite (Qeq_eqR _ _ J), Q2R_mult; f_equal; unfold Q2R; cbn [Qnum Qden inject_Z]; lra).
      assert (D1 : Rabs (IZR j * u - IZR k * u) < u).
      { rewrite <- QJ, <- QR. replace (qr - Q2R q') with ((qr - val x) + (rnd64 (Q2R q') - Q2R q')) by (rewrite XV; ring). eapply Rle_lt_trans; [apply Rabs_triang|]. lra. }
      rewrite <- Rmult_minus_distr_r, Rabs_mult, (Rabs_pos_eq u), <- minus_IZR, <- abs_IZR in D1 by lra.
      assert (D2 : IZR (Z.abs (j - k)) < 1) by (apply (Rmult_lt_reg_r u); lra). apply lt_IZR in D2. lia. }
    apply eqR_Qeq. rewrite WY, VX, VYV, XV. f_equal. unfold qr. apply Qeq_eqR. rewrite J, QK, JK. reflexivity. }
  destruct x as [s|s| |s m e]; cbn [shows] in S.
  - destruct (FIN eq_refl S) as (y & P & VY & R). exists y. split; [exact P|]. split; [exact VY|exact R].
  - subst t. exists (S754_infinity s). destruct s; (split; [reflexivity|split; reflexivity]).
  - subst t. exists S754_nan. split; [reflexivity|split; reflexivity].
  - destruct (FIN eq_refl S) as (y & P & VY & R). exists y. split; [exact P|]. split; [exact VY|exact R].
Qed.
