(* Decimal texts as correctly rounded numbers. *)
From Coq Require Import String Ascii List ZArith QArith Qabs Qreals Reals Lia Lra Bool Arith SpecFloat.
From Flocq Require Import Core BinarySingleNaN.
From Verif Require Import Base LayoutModel LayoutSpec BufferModel BufferSpec TraitModel TraitSpec NumModel AsciiModel AsciiSpec ListLemmas
  AsciiProofs AsciiProofs2 AsciiProofs7 AsciiFloatSpec FloatReal F64Real.
Import ListNotations.
Open Scope R_scope.

#[local] Existing Instance H53.
#[local] Existing Instance H1024.

Definition signed_r (s : bool) (x : R) : R := if s then - x else x.
Lemma ten_pos k : 0 < IZR (10 ^ Z.of_nat k).
Proof. apply IZR_lt, pos10. Qed.

Lemma rnd64_signed s x : rnd64 (signed_r s x) = signed_r s (rnd64 x).
Proof. destruct s; [apply (rnd_opp 53 1024)|reflexivity]. Qed.

(* reading a decimal rounds it *)
Lemma decimal_rounds s a k : (0 <= a)%Z -> let y := decimal_to_f64 s a (- Z.of_nat k) in let x := signed_r s (IZR a / IZR (10 ^ Z.of_nat k)) in
  SpecFloat.valid_binary 53 1024 y = true /\ (in_range 1024 (rnd64 x) -> is_finite_SF y = true /\ val y = rnd64 x).
Proof.
  intros A y x. destruct a as [|m|m]; [| |lia].
  - split; [reflexivity|]. intros _. split; [reflexivity|]. unfold y, x. cbn [decimal_to_f64]. unfold Rdiv. rewrite Rmult_0_l.
    replace (signed_r s 0) with 0 by (destruct s; cbn; lra). unfold rnd64. rewrite rnd_0. reflexivity.
  - unfold y. cbn [decimal_to_f64]. destruct (Z.leb_spec 0 (- Z.of_nat k)) as [K|K].
    + assert (k = 0)%nat by lia. subst k. rewrite (binary_round_equiv 53 1024).
      pose proof (binary_round_correct 53 1024 H53 H1024 mode_NE s (m * Z.to_pos (10 ^ (- Z.of_nat 0))) 0) as C. cbv zeta in C. destruct C as [V C]. split; [exact V|].
      intros IR. change (round_mode mode_NE) with ZnearestE in C.
      assert (E : F2R (Float radix2 (cond_Zopp s (Zpos (m * Z.to_pos (10 ^ (- Z.of_nat 0))))) 0) = x).
      { unfold x, F2R. cbn [Fnum Fexp]. change (10 ^ (- Z.of_nat 0))%Z with 1%Z. change (Z.to_pos 1) with 1%positive. rewrite Pos.mul_1_r. change (10 ^ Z.of_nat 0)%Z with 1%Z.
        destruct s; cbn [cond_Zopp signed_r]; rewrite ?opp_IZR; cbn [bpow]; lra. }
      rewrite E in C. unfold in_range, rnd64, rnd in IR. rewrite Rlt_bool_true in C by exact IR. destruct C as (C1 & C2 & _). split; [exact C2|exact C1].
    + rewrite Z.opp_involutive. pose proof (pos10 k) as T. unfold x. destruct (10 ^ Z.of_nat k)%Z as [|n|n] eqn:N; [lia| |lia].
      pose proof (Bdiv_correct_aux 53 1024 H53 H1024 mode_NE s m 0 false n 0) as C. cbv zeta in C. rewrite xorb_false_r in C.
      destruct (SFdiv_core_binary 53 1024 (Zpos m) 0 (Zpos n) 0) as [[q e'] loc]. rewrite (binary_round_aux_equiv 53 1024). destruct C as [V C]. split; [exact V|].
      intros IR. change (round_mode mode_NE) with ZnearestE in C.
      assert (E : F2R (Float radix2 (cond_Zopp s (Zpos m)) 0) / F2R (Float radix2 (cond_Zopp false (Zpos n)) 0) = signed_r s (IZR (Zpos m) / IZR (Zpos n))).
      { unfold F2R. cbn [Fnum Fexp bpow]. destruct s; cbn [cond_Zopp signed_r]; rewrite ?Rmult_1_r; [|reflexivity]. change (Z.neg m) with (- Zpos m)%Z. rewrite opp_IZR. unfold Rdiv. lra. }
      rewrite E in C. unfold in_range, rnd64, rnd in IR. rewrite Rlt_bool_true in C by exact IR. destruct C as (C1 & C2 & _). split; [exact C2|exact C1].
Qed.

(* the nearest number is at least as near as any other *)
Lemma nearest x v : SpecFloat.valid_binary 53 1024 v = true -> Rabs (rnd64 x - x) <= Rabs (val v - x).
Proof.
  intros V. pose proof (round_N_pt radix2 (SpecFloat.fexp 53 1024) (fun z => negb (Z.even z)) x) as [_ N]. apply N.
  pose proof (rnd_value 53 1024 v V) as E. unfold rnd in E. unfold val. rewrite <- E. apply generic_format_round; [exact (fexp_ok 53 1024 H53)|auto with typeclass_instances].
Qed.

Lemma float_Q_val x v : float_Q x = Some v -> Q2R v = val x.
Proof.
  assert (P : forall e, Q2R (Qpower (2 # 1) e) = bpow radix2 e).
  { intros e. destruct (Z_lt_le_dec e 0) as [N|N].
    - rewrite (Qeq_eqR _ _ (pow2_neg e N)). unfold Q2R. cbn [Qnum Qden]. rewrite Z2Pos.id by (apply Z.pow_pos_nonneg; lia).
      replace e with (- (- e))%Z at 2 by lia. rewrite bpow_opp. rewrite Rmult_1_l. f_equal. rewrite <- (IZR_Zpower radix2) by lia. reflexivity.
    - rewrite (Qeq_eqR _ _ (pow2_nonneg e N)). unfold Q2R. cbn [Qnum Qden inject_Z]. rewrite Rinv_1, Rmult_1_r. rewrite <- (IZR_Zpower radix2) by lia. reflexivity. }
  destruct x as [s|s| |s m e]; cbn [float_Q]; try discriminate; intros E; apply (f_equal (fun o => match o with Some q => q | None => 0%Q end)) in E; cbv beta iota in E; subst v.
  - unfold Q2R. cbn. lra.
  - rewrite Q2R_mult, P. unfold val, value. cbn [SF2R]. unfold F2R. cbn [Fnum Fexp]. f_equal. unfold Q2R. cbn [Qnum Qden inject_Z]. rewrite Rinv_1, Rmult_1_r. destruct s; reflexivity.
Qed.
Lemma float_Q_finite x : is_finite_SF x = true -> exists v, float_Q x = Some v.
Proof. destruct x; cbn; try discriminate; eauto. Qed.
Lemma unit_R prec : Q2R (unit_of prec) = / IZR (10 ^ Z.of_nat prec).
Proof. unfold unit_of, Q2R. cbn [Qnum Qden]. rewrite Z2Pos.id by apply pos10. lra. Qed.
