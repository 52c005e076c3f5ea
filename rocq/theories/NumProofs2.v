From Coq Require Import List ZArith Bool SpecFloat Lia Arith.
From Coq Require Import ZifyBool ZifyNat.
From Verif Require Import Base NumModel NumSpec NumProofs.
Import ListNotations.
Open Scope Z_scope.

(* ---- bit patterns of floats ---- *)
Lemma canonical_cases prec emax m e : bounded prec emax m e = true ->
  (Zpos (digits2_pos m) = prec /\ emin prec emax <= e \/ Zpos (digits2_pos m) < prec /\ e = emin prec emax)
  /\ e <= emax - prec.
Proof.
  unfold bounded, canonical_mantissa, fexp. intros B. apply andb_prop in B as [C L].
  apply Zeq_bool_eq in C. apply Zle_bool_imp_le in L. lia.
Qed.

Lemma canonical_intro prec emax m e : e <= emax - prec ->
  (Zpos (digits2_pos m) = prec /\ emin prec emax <= e \/ Zpos (digits2_pos m) < prec /\ e = emin prec emax) ->
  bounded prec emax m e = true.
Proof.
  intros L C. unfold bounded, canonical_mantissa, fexp. apply andb_true_intro. split.
  - apply Zeq_is_eq_bool. lia.
  - apply Zle_imp_le_bool. exact L.
Qed.

Section Bits.
Variables prec emax ew : Z.
Hypothesis Hprec : 1 < prec.
Hypothesis Hew : 2 <= ew.
Hypothesis Hemax : emax = 2 ^ (ew - 1).
Let w := prec + ew.

Let ex_of (u : Z) := (u / 2 ^ (prec - 1)) mod 2 ^ ew.
Let m_of (u : Z) := u mod 2 ^ (prec - 1).

Lemma pow_w : 2 ^ w = 2 * 2 ^ ew * 2 ^ (prec - 1).
Proof.
  unfold w. replace (prec + ew) with (1 + ew + (prec - 1)) by lia.
  rewrite !Z.pow_add_r by lia. reflexivity.
Qed.
Lemma pow_w1 : 2 ^ (w - 1) = 2 ^ ew * 2 ^ (prec - 1).
Proof. rewrite <- Z.pow_add_r by lia. unfold w. f_equal. lia. Qed.

(* sign, exponent and mantissa fields *)
Lemma fields u : 0 <= u < 2 ^ w ->
  u = (if 2 ^ (w - 1) <=? u then 2 ^ (w - 1) else 0) + ex_of u * 2 ^ (prec - 1) + m_of u
  /\ 0 <= ex_of u < 2 ^ ew /\ 0 <= m_of u < 2 ^ (prec - 1).
Proof.
  intros R. rewrite pow_w in R. rewrite pow_w1.
  assert (P : 0 < 2 ^ (prec - 1)) by (apply Z.pow_pos_nonneg; lia).
  assert (Q : 0 < 2 ^ ew) by (apply Z.pow_pos_nonneg; lia).
  assert (Bm : 0 <= m_of u < 2 ^ (prec - 1)) by (apply Z.mod_pos_bound; lia).
  assert (Be : 0 <= ex_of u < 2 ^ ew) by (apply Z.mod_pos_bound; lia).
  split; [|split]; trivial.
  pose proof (Z.div_mod u (2 ^ (prec - 1)) ltac:(lia)) as D1.
  set (q := u / 2 ^ (prec - 1)) in *.
  assert (Bq : 0 <= q < 2 * 2 ^ ew).
  { split; [apply Z.div_pos; lia|]. apply Z.div_lt_upper_bound; lia. }
  fold (m_of u) in D1. unfold ex_of. fold q.
  destruct (2 ^ ew * 2 ^ (prec - 1) <=? u) eqn:E.
  - assert (2 ^ ew <= q) by nia.
    replace (q mod 2 ^ ew) with (q - 2 ^ ew); [nia|].
    apply (Zmod_unique q (2 ^ ew) 1); lia.
  - assert (q < 2 ^ ew) by nia. rewrite Z.mod_small by lia. nia.
Qed.

Lemma assemble s ex m : 0 <= ex < 2 ^ ew -> 0 <= m < 2 ^ (prec - 1) ->
  let u := (if s : bool then 2 ^ (w - 1) else 0) + ex * 2 ^ (prec - 1) + m in
  0 <= u < 2 ^ w /\ (2 ^ (w - 1) <=? u) = s /\ ex_of u = ex /\ m_of u = m.
Proof.
  intros He Hm. cbv zeta. rewrite pow_w, pow_w1.
  assert (P : 0 < 2 ^ (prec - 1)) by (apply Z.pow_pos_nonneg; lia).
  assert (Q : 0 < 2 ^ ew) by (apply Z.pow_pos_nonneg; lia).
  assert (Hu : (if s then 2 ^ ew * 2 ^ (prec - 1) else 0) + ex * 2 ^ (prec - 1) + m
               = m + ((if s then 2 ^ ew else 0) + ex) * 2 ^ (prec - 1)) by (destruct s; ring).
  rewrite Hu.
  assert (U : ex * 2 ^ (prec - 1) <= (2 ^ ew - 1) * 2 ^ (prec - 1)) by (apply Z.mul_le_mono_nonneg_r; lia).
  assert (U0 : 0 <= ex * 2 ^ (prec - 1)) by (apply Z.mul_nonneg_nonneg; lia).
  assert (U1 : 0 < 2 ^ ew * 2 ^ (prec - 1)) by (apply Z.mul_pos_pos; lia).
  split; [destruct s; lia|]. split; [destruct s; [apply Z.leb_le|apply Z.leb_gt]; lia|]. unfold ex_of, m_of.
  rewrite Z_mod_plus_full, Z_div_plus_full, (Z.mod_small m), (Z.div_small m) by lia.
  split; [|reflexivity]. destruct s.
  - symmetry. apply (Zmod_unique (0 + (2 ^ ew + ex)) (2 ^ ew) 1); lia.
  - rewrite Z.mod_small; lia.
Qed.

Definition nan_bits (u : Z) : Prop := ex_of u = 2 ^ ew - 1 /\ m_of u <> 0.

Lemma w_minus : w - prec = ew. Proof. unfold w; lia. Qed.

Lemma bits_of_float_of_bits u : 0 <= u < 2 ^ w -> ~ nan_bits u ->
  bits_of_float prec emax w (float_of_bits prec emax w u) = u.
Proof.
  intros R NN. destruct (fields u R) as (F & Be & Bm).
  assert (P : 0 < 2 ^ (prec - 1)) by (apply Z.pow_pos_nonneg; lia).
  unfold float_of_bits. rewrite w_minus. fold (ex_of u). fold (m_of u).
  set (s := 2 ^ (w - 1) <=? u) in *.
  destruct (ex_of u =? 0) eqn:E0.
  - destruct (m_of u) as [|p|p] eqn:Em; [|clear Em|lia].
    + cbn [bits_of_float]. lia.
    + cbn [bits_of_float]. replace (Zpos p <? 2 ^ (prec - 1)) with true by lia. lia.
  - destruct (ex_of u =? 2 ^ ew - 1) eqn:E1.
    + destruct (m_of u =? 0) eqn:Em.
      * cbn [bits_of_float]. rewrite w_minus. lia.
      * exfalso. apply NN. split; lia.
    + destruct (m_of u + 2 ^ (prec - 1)) as [|p|p] eqn:Em; try lia.
      cbn [bits_of_float]. replace (Zpos p <? 2 ^ (prec - 1)) with false by lia. lia.
Qed.

Lemma float_of_bits_valid u : 0 <= u < 2 ^ w -> valid_binary prec emax (float_of_bits prec emax w u) = true.
Proof.
  intros R. destruct (fields u R) as (F & Be & Bm).
  assert (P : 0 < 2 ^ (prec - 1)) by (apply Z.pow_pos_nonneg; lia).
  pose proof (pow2_split ew ltac:(lia)) as HP.
  assert (4 <= 2 ^ ew) by (change 4 with (2 ^ 2); apply Z.pow_le_mono_r; lia).
  unfold float_of_bits. rewrite w_minus. fold (ex_of u). fold (m_of u).
  destruct (ex_of u =? 0) eqn:E0.
  - destruct (m_of u) as [|p|p] eqn:Em; try reflexivity. cbn [valid_binary].
    pose proof (digits2_bounds p) as D. apply canonical_intro; unfold emin; [lia|]. right. split; [|reflexivity].
    apply (Z.pow_lt_mono_r_iff 2); try lia.
    destruct (Z_lt_le_dec (Zpos (digits2_pos p)) prec) as [|G]; [apply Z.pow_lt_mono_r; lia|].
    assert (2 ^ (prec - 1) <= 2 ^ (Zpos (digits2_pos p) - 1)) by (apply Z.pow_le_mono_r; lia). lia.
  - destruct (ex_of u =? 2 ^ ew - 1) eqn:E1; [destruct (m_of u =? 0); reflexivity|].
    destruct (m_of u + 2 ^ (prec - 1)) as [|p|p] eqn:Em; try lia. cbn [valid_binary].
    apply canonical_intro; unfold emin; [lia|]. left. split; [|lia].
    apply digits2_unique; [lia|]. rewrite (pow2_split prec) by lia. lia.
Qed.

Lemma float_of_bits_of_float f : valid_binary prec emax f = true -> f <> S754_nan ->
  float_of_bits prec emax w (bits_of_float prec emax w f) = f
  /\ 0 <= bits_of_float prec emax w f < 2 ^ w /\ ~ nan_bits (bits_of_float prec emax w f).
Proof.
  intros V NN.
  assert (P : 0 < 2 ^ (prec - 1)) by (apply Z.pow_pos_nonneg; lia).
  pose proof (pow2_split ew ltac:(lia)) as HP.
  assert (Q4 : 4 <= 2 ^ ew) by (change 4 with (2 ^ 2); apply Z.pow_le_mono_r; lia).
  (* every non-NaN float is the assembly of its fields *)
  assert (G : exists s ex m, 0 <= ex < 2 ^ ew /\ 0 <= m < 2 ^ (prec - 1)
     /\ bits_of_float prec emax w f = (if s : bool then 2 ^ (w - 1) else 0) + ex * 2 ^ (prec - 1) + m
     /\ ~ (ex = 2 ^ ew - 1 /\ m <> 0)
     /\ (if ex =? 0 then match m with Zpos p => S754_finite s p (emin prec emax) | _ => S754_zero s end
         else if ex =? 2 ^ ew - 1 then (if m =? 0 then S754_infinity s else S754_nan)
         else match m + 2 ^ (prec - 1) with Zpos p => S754_finite s p (ex + emin prec emax - 1) | _ => S754_nan end) = f).
  { destruct f as [s|s| |s m e]; [| |congruence|].
    - exists s, 0, 0. cbn [bits_of_float]. repeat split; try lia. 
    - exists s, (2 ^ ew - 1), 0. cbn [bits_of_float]. rewrite w_minus. repeat split; try lia.
      replace (2 ^ ew - 1 =? 0) with false by lia. rewrite Z.eqb_refl. reflexivity.
    - cbn [valid_binary] in V. destruct (canonical_cases _ _ _ _ V) as [[[D E]|[D E]] L]; cbn [bits_of_float].
      + pose proof (digits2_bounds m) as B. rewrite D in B. rewrite (pow2_split prec) in B by lia.
        replace (Zpos m <? 2 ^ (prec - 1)) with false by lia. unfold emin in *.
        exists s, (e - (3 - emax - prec) + 1), (Zpos m - 2 ^ (prec - 1)). repeat split; try lia.
        replace (e - (3 - emax - prec) + 1 =? 0) with false by lia.
        replace (e - (3 - emax - prec) + 1 =? 2 ^ ew - 1) with false by lia.
        replace (Zpos m - 2 ^ (prec - 1) + 2 ^ (prec - 1)) with (Zpos m) by ring. f_equal. ring.
      + pose proof (digits2_bounds m) as B.
        assert (2 ^ Zpos (digits2_pos m) <= 2 ^ (prec - 1)) by (apply Z.pow_le_mono_r; lia).
        replace (Zpos m <? 2 ^ (prec - 1)) with true by lia.
        exists s, 0, (Zpos m). repeat split; try lia. rewrite Z.eqb_refl. now rewrite E. }
  destruct G as (s & ex & m & Be & Bm & -> & N & F).
  destruct (assemble s ex m Be Bm) as (R & Es & Ee & Em).
  split; [|split; [exact R|]].
  - unfold float_of_bits. rewrite w_minus. rewrite Es.
    fold (ex_of ((if s then 2 ^ (w - 1) else 0) + ex * 2 ^ (prec - 1) + m)).
    fold (m_of ((if s then 2 ^ (w - 1) else 0) + ex * 2 ^ (prec - 1) + m)).
    rewrite Ee, Em. exact F.
  - unfold nan_bits. rewrite Ee, Em. exact N.
Qed.
End Bits.

(* the two float types *)
Lemma float_params p prec emax : kind p = KFloat prec emax ->
  exists ew, 1 < prec /\ 2 <= ew /\ emax = 2 ^ (ew - 1) /\ bits p = prec + ew.
Proof.
  destruct p; cbn; intros E; try discriminate E; injection E as <- <-.
  - exists 8. repeat split; try lia.
  - exists 11. repeat split; try lia.
Qed.

(* what is read from memory can be written back *)
Lemma enc_dec p bs : memory_of p bs -> ~ is_nan p bs -> enc_num p (dec_num p bs) = bs.
Proof.
  intros M NN. pose proof (memory_range _ _ M) as R. destruct M as [B L].
  unfold enc_num, dec_num. destruct (kind p) as [s|prec emax] eqn:K.
  - rewrite wrap_mod by (pose proof (bits_pos p); lia). rewrite Z.mod_small by lia.
    rewrite <- L. apply le_enc_dec, B.
  - destruct (float_params _ _ _ K) as (ew & H1 & H2 & H3 & Hb).
    rewrite Hb in *. rewrite (bits_of_float_of_bits prec emax ew); trivial.
    + rewrite <- L. apply le_enc_dec, B.
    + intros [E N]. apply NN. unfold is_nan. rewrite K, Hb, unsigned_le_dec.
      replace (prec + ew - prec) with ew by lia. split; [exact E|exact N].
Qed.

Lemma enc_length p n : length (enc_num p n) = prim_size p \/ enc_num p n = [].
Proof. unfold enc_num. destruct (kind p), n; auto using le_enc_length. Qed.

(* a float of the right format, stored and read *)
Lemma dec_enc_float p prec emax f : kind p = KFloat prec emax -> valid_binary prec emax f = true -> f <> S754_nan ->
  dec_num p (enc_num p (NFlt f)) = NFlt f /\ memory_of p (enc_num p (NFlt f)) /\ ~ is_nan p (enc_num p (NFlt f)).
Proof.
  intros K V NN. destruct (float_params _ _ _ K) as (ew & H1 & H2 & H3 & Hb).
  destruct (float_of_bits_of_float prec emax ew H1 H2 H3 f V NN) as (E & R & N).
  unfold dec_num, enc_num, is_nan. rewrite K, Hb in *.
  assert (D : le_dec (le_enc (prim_size p) (bits_of_float prec emax (prec + ew) f)) = bits_of_float prec emax (prec + ew) f).
  { rewrite le_dec_enc, pow256. fold (bits p). rewrite Hb. apply Z.mod_small, R. }
  split; [|split].
  - now rewrite D, E.
  - split; [apply le_enc_bytes|apply le_enc_length].
  - rewrite unsigned_le_dec, D. replace (prec + ew - prec) with ew by lia. intros [A C]. apply N. split; assumption.
Qed.

Lemma dec_enc_int p s v : kind p = KInt s -> int_min s (bits p) <= v <= int_max s (bits p) ->
  dec_num p (enc_num p (NInt v)) = NInt v.
Proof.
  intros K R. unfold dec_num. rewrite (enc_int_dec p s v K), K. f_equal.
  pose proof (bits_pos p). transitivity (wrap s (bits p) v); [|apply wrap_id; lia].
  unfold wrap. now rewrite Z.mod_mod by (assert (0 < 2 ^ bits p) by (apply Z.pow_pos_nonneg; lia); lia).
Qed.

(* an integer that fits is converted exactly *)
Lemma int_to_float prec emax v : 1 < prec -> 2 <= emax -> prec < emax -> v <> 0 -> Z.abs v < 2 ^ prec ->
  exists m e, binary_normalize prec emax v 0 false = S754_finite (v <? 0) m e /\ bounded prec emax m e = true
    /\ trunc_float (v <? 0) m e = v.
Proof.
  intros Hp He Hpe Hv Hb.
  set (a := Z.to_pos (Z.abs v)).
  assert (Ha : Zpos a = Z.abs v) by (unfold a; rewrite Z2Pos.id; lia).
  pose proof (digits2_bounds a) as D. set (d := Zpos (digits2_pos a)) in *.
  assert (Hd : d <= prec).
  { destruct (Z_lt_le_dec prec d) as [G|]; [|assumption].
    assert (2 ^ prec <= 2 ^ (d - 1)) by (apply Z.pow_le_mono_r; lia). lia. }
  assert (P : 0 < 2 ^ (prec - d)) by (apply Z.pow_pos_nonneg; lia).
  set (m := Z.to_pos (Zpos a * 2 ^ (prec - d))).
  assert (Hm : Zpos m = Zpos a * 2 ^ (prec - d)) by (unfold m; rewrite Z2Pos.id; lia).
  assert (Dm : Zpos (digits2_pos m) = prec).
  { rewrite (digits2_shift a m (prec - d)); [fold d; lia|lia|exact Hm]. }
  assert (B : bounded prec emax m (d - prec) = true).
  { apply canonical_intro; [lia|]. left. split; [exact Dm|]. unfold emin. pose proof (eq_refl : d = Zpos (digits2_pos a)). lia. }
  exists m, (d - prec). split; [|split; [exact B|]].
  - assert (E : forall s, binary_round prec emax s a 0 = S754_finite s m (d - prec)).
    { intros s. apply binary_round_exact; [exact B|].
      rewrite Z.max_l, (Z.max_r (d - prec - 0)) by lia. rewrite Z.pow_0_r, Z.mul_1_r.
      replace (0 - (d - prec)) with (prec - d) by lia. lia. }
    destruct v as [|q|q]; [lia| |]; cbn [binary_normalize Z.ltb Z.compare].
    + replace q with a by lia. apply E.
    + replace q with a by lia. apply E.
  - unfold trunc_float.
    assert (T : (if 0 <=? d - prec then Zpos m * 2 ^ (d - prec) else Zpos m / 2 ^ (- (d - prec))) = Z.abs v).
    { destruct (0 <=? d - prec) eqn:E.
      - replace (d - prec) with 0 by lia. rewrite Hm. replace (prec - d) with 0 by lia. rewrite !Z.pow_0_r. lia.
      - rewrite Hm. replace (- (d - prec)) with (prec - d) by lia. rewrite Z.div_mul by lia. lia. }
    rewrite T. destruct (v <? 0) eqn:E; lia.
Qed.

Lemma float_to_wider prec emax prec' emax' s m e :
  1 < prec -> prec <= prec' -> emax <= emax' -> 2 <= emax -> emin prec' emax' <= emin prec emax - (prec' - 1) ->
  bounded prec emax m e = true ->
  exists m' e', bounded prec' emax' m' e' = true
    /\ binary_round prec' emax' s m e = S754_finite s m' e' /\ binary_round prec emax s m' e' = S754_finite s m e.
Proof.
  intros Hp Hpp Hee He2 Hmin B.
  destruct (canonical_cases prec emax m e B) as [C L].
  pose proof (digits2_bounds m) as D. set (d := Zpos (digits2_pos m)) in *.
  assert (Hd : 1 <= d <= prec) by lia.
  assert (P : 0 < 2 ^ (prec' - d)) by (apply Z.pow_pos_nonneg; lia).
  set (m' := Z.to_pos (Zpos m * 2 ^ (prec' - d))).
  assert (Hm : Zpos m' = Zpos m * 2 ^ (prec' - d)) by (unfold m'; rewrite Z2Pos.id; lia).
  assert (Dm : Zpos (digits2_pos m') = prec').
  { rewrite (digits2_shift m m' (prec' - d)); [fold d; lia|lia|exact Hm]. }
  assert (B' : bounded prec' emax' m' (e - (prec' - d)) = true).
  { apply canonical_intro; lia. }
  exists m', (e - (prec' - d)). split; [exact B'|]. split; (apply binary_round_exact; [assumption|]).
  - rewrite Z.max_l, (Z.max_r (e - (prec' - d) - e)) by lia. rewrite Z.pow_0_r, Z.mul_1_r.
    replace (e - (e - (prec' - d))) with (prec' - d) by lia. lia.
  - rewrite Z.max_r, (Z.max_l (e - (e - (prec' - d)))) by lia. rewrite Z.pow_0_r, Z.mul_1_r.
    replace (e - (e - (prec' - d))) with (prec' - d) by lia. lia.
Qed.

Lemma nan_dec p prec emax bs : kind p = KFloat prec emax -> memory_of p bs -> ~ is_nan p bs ->
  exists f, dec_num p bs = NFlt f /\ valid_binary prec emax f = true /\ f <> S754_nan.
Proof.
  intros K M NN. pose proof (memory_range _ _ M) as R.
  destruct (float_params _ _ _ K) as (ew & H1 & H2 & H3 & Hb).
  exists (float_of_bits prec emax (bits p) (le_dec bs)). rewrite Hb in *.
  split; [unfold dec_num; now rewrite K, Hb|]. split; [apply float_of_bits_valid; trivial|].
  intros E. apply NN. unfold is_nan. rewrite K, unsigned_le_dec, Hb.
  unfold float_of_bits in E. replace (prec + ew - prec) with ew in * by lia.
  destruct (_ =? 0); [destruct (_ mod _) in E; discriminate E|].
  destruct (_ =? 2 ^ ew - 1) eqn:E1 in E.
  - destruct (_ =? 0) eqn:E2 in E; [discriminate E|]. lia.
  - assert (0 < 2 ^ (prec - 1)) by (apply Z.pow_pos_nonneg; lia).
    pose proof (Z.mod_pos_bound (le_dec bs) (2 ^ (prec - 1)) ltac:(lia)).
    destruct (_ + _) eqn:E2 in E; [lia|discriminate E|lia].
Qed.

Theorem conversion_lossless from to bs : contained_in from to -> memory_of from bs -> ~ is_nan from bs ->
  convert_scalar_using_as to from (convert_scalar_using_as from to bs) = bs.
Proof.
  intros C M NN. rewrite <- (enc_dec from bs M NN) at 2.
  unfold convert_scalar_using_as at 1. f_equal.
  unfold convert_scalar_using_as.
  destruct (kind from) as [s|prec emax] eqn:K.
  - assert (Dv : exists v, dec_num from bs = NInt v /\ int_min s (bits from) <= v <= int_max s (bits from)).
    { exists (wrap s (bits from) (le_dec bs)). unfold dec_num. rewrite K. split; [reflexivity|].
      apply wrap_range. pose proof (bits_pos from); lia. }
    destruct Dv as (v & -> & Rv). unfold contained_in in C. rewrite K in C.
    destruct (kind to) as [s'|prec' emax'] eqn:K'.
    + assert (E : as_cast to (NInt v) = NInt v).
      { unfold as_cast. rewrite K'. f_equal. apply wrap_id; [pose proof (bits_pos to); lia|]. lia. }
      rewrite E. rewrite (dec_enc_int to s' v K') by lia. unfold as_cast. rewrite K. f_equal.
      apply wrap_id; [pose proof (bits_pos from); lia|exact Rv].
    + assert (Hb : Z.abs v < 2 ^ prec').
      { clear M NN bs. destruct from; cbn in K; try discriminate K; injection K as <-;
          destruct to; cbn in K'; try discriminate K'; injection K' as <- <-; cbn in C, Rv |- *; lia. }
      assert (Hpe : 1 < prec' /\ prec' < emax').
      { destruct to; cbn in K'; try discriminate K'; injection K' as <- <-; lia. }
      unfold as_cast at 2. rewrite K'.
      destruct (Z.eq_dec v 0) as [->|Hv].
      * cbn [binary_normalize].
        destruct (dec_enc_float to prec' emax' (S754_zero false) K' eq_refl ltac:(discriminate)) as (-> & _).
        unfold as_cast. now rewrite K.
      * destruct (int_to_float prec' emax' v ltac:(lia) ltac:(lia) ltac:(lia) Hv Hb) as (m & e & -> & B & T).
        destruct (dec_enc_float to prec' emax' (S754_finite (v <? 0) m e) K' B ltac:(discriminate)) as (-> & _).
        unfold as_cast. rewrite K, T. f_equal. lia.
  - destruct (nan_dec from prec emax bs K M NN) as (f & -> & V & N).
    unfold contained_in in C. rewrite K in C. destruct (kind to) as [s'|prec' emax'] eqn:K'; [contradiction|].
    unfold as_cast at 2. rewrite K'.
    destruct f as [s0|s0| |s0 m e]; [| |congruence|].
    + destruct (dec_enc_float to prec' emax' (S754_zero s0) K' eq_refl ltac:(discriminate)) as (-> & _).
      unfold as_cast. now rewrite K.
    + destruct (dec_enc_float to prec' emax' (S754_infinity s0) K' eq_refl ltac:(discriminate)) as (-> & _).
      unfold as_cast. now rewrite K.
    + cbn [valid_binary] in V.
      assert (X : 1 < prec /\ 2 <= emax /\ emin prec' emax' <= emin prec emax - (prec' - 1) \/ from = to).
      { destruct from; cbn in K; try discriminate K; injection K as <- <-;
          destruct to; cbn in K'; try discriminate K'; injection K' as <- <-; auto; try lia; left; cbv; repeat split; discriminate. }
      destruct X as [(H1 & H2 & H3)|<-].
      * destruct (float_to_wider prec emax prec' emax' s0 m e H1 ltac:(lia) ltac:(lia) H2 H3 V) as (m' & e' & B & -> & E).
        destruct (dec_enc_float to prec' emax' (S754_finite s0 m' e') K' B ltac:(discriminate)) as (-> & _).
        unfold as_cast. now rewrite K, E.
      * rewrite K in K'. injection K' as <- <-.
        assert (E : binary_round prec emax s0 m e = S754_finite s0 m e).
        { apply binary_round_exact; [exact V|]. now rewrite Z.sub_diag. }
        rewrite E. destruct (dec_enc_float from prec emax (S754_finite s0 m e) K V ltac:(discriminate)) as (-> & _).
        unfold as_cast. now rewrite K, E.
Qed.
