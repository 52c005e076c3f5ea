From Coq Require Import List ZArith Bool SpecFloat Lia Arith.
From Coq Require Import ZifyBool ZifyNat.
From Verif Require Import Base NumModel NumSpec.
Import ListNotations.
Open Scope Z_scope.

(* ---- bytes ---- *)
Lemma unsigned_le_dec bs : unsigned_value bs = le_dec bs.
Proof. induction bs as [|b bs IH]; [reflexivity|]. cbn [le_dec]. rewrite <- IH. reflexivity. Qed.

Lemma le_dec_range bs : is_bytes bs -> 0 <= le_dec bs < 256 ^ Z.of_nat (length bs).
Proof.
  induction 1 as [|b bs Hb _ IH]; [simpl; lia|].
  cbn [le_dec length]. rewrite Nat2Z.inj_succ, Z.pow_succ_r by lia. lia.
Qed.

Lemma le_enc_length n v : length (le_enc n v) = n.
Proof. revert v; induction n; simpl; auto. Qed.

Lemma le_enc_bytes n v : is_bytes (le_enc n v).
Proof.
  revert v; induction n; intros v; [constructor|].
  constructor; [apply Z.mod_pos_bound; lia|apply IHn].
Qed.

Lemma le_dec_enc n v : le_dec (le_enc n v) = v mod 256 ^ Z.of_nat n.
Proof.
  revert v; induction n as [|n IH]; intros v; [simpl; now rewrite Z.mod_1_r|].
  cbn [le_enc le_dec]. rewrite IH, Nat2Z.inj_succ, Z.pow_succ_r by lia.
  rewrite Z.rem_mul_r by lia. lia.
Qed.

Lemma le_enc_dec bs : is_bytes bs -> le_enc (length bs) (le_dec bs) = bs.
Proof.
  induction 1 as [|b bs Hb _ IH]; [reflexivity|].
  cbn [length le_enc le_dec].
  replace ((b + 256 * le_dec bs) mod 256) with b.
  2:{ rewrite (Z.mul_comm 256), Z_mod_plus_full, Z.mod_small; lia. }
  replace ((b + 256 * le_dec bs) / 256) with (le_dec bs).
  2:{ rewrite (Z.mul_comm 256), Z_div_plus_full, Z.div_small; lia. }
  now rewrite IH.
Qed.

Lemma pow256 n : 256 ^ Z.of_nat n = 2 ^ (8 * Z.of_nat n).
Proof. change 256 with (2 ^ 8). rewrite <- Z.pow_mul_r; lia. Qed.

Lemma memory_range p bs : memory_of p bs -> 0 <= le_dec bs < 2 ^ bits p.
Proof. intros [B L]. pose proof (le_dec_range _ B) as R. rewrite L, pow256 in R. exact R. Qed.

Lemma bits_pos p : 8 <= bits p.
Proof. destruct p; cbv; discriminate. Qed.

(* ---- two's complement ---- *)
Lemma wrap_mod s w v : 0 < w -> wrap s w v mod 2 ^ w = v mod 2 ^ w.
Proof.
  intros Hw. unfold wrap.
  assert (P : 0 < 2 ^ w) by (apply Z.pow_pos_nonneg; lia).
  destruct (s && _).
  - replace (v mod 2 ^ w - 2 ^ w) with (v mod 2 ^ w + (-1) * 2 ^ w) by ring.
    rewrite Z.mod_add, Z.mod_mod; lia.
  - rewrite Z.mod_mod; lia.
Qed.

Lemma pow2_split w : 0 < w -> 2 ^ w = 2 * 2 ^ (w - 1).
Proof. intros. rewrite <- Z.pow_succ_r by lia. f_equal; lia. Qed.

Lemma wrap_range s w v : 0 < w -> int_min s w <= wrap s w v <= int_max s w.
Proof.
  intros Hw. unfold wrap, int_min, int_max.
  pose proof (Z.mod_pos_bound v (2 ^ w) ltac:(apply Z.pow_pos_nonneg; lia)) as B.
  pose proof (pow2_split w Hw) as P.
  destruct s; cbn [andb]; [|lia].
  destruct (2 ^ (w - 1) <=? v mod 2 ^ w) eqn:E; lia.
Qed.

Lemma mod_shift v m : 0 < m -> - m <= v < 0 -> v mod m = v + m.
Proof. intros. symmetry. apply (Zmod_unique v m (-1)); lia. Qed.

Lemma wrap_id s w v : 0 < w -> int_min s w <= v <= int_max s w -> wrap s w v = v.
Proof.
  intros Hw. unfold wrap, int_min, int_max. pose proof (pow2_split w Hw) as P.
  assert (Q : 0 < 2 ^ (w - 1)) by (apply Z.pow_pos_nonneg; lia).
  destruct s; cbn [andb]; intros R.
  - destruct (Z_lt_le_dec v 0) as [N|N].
    + rewrite (mod_shift v (2 ^ w)) by lia.
      replace (2 ^ (w - 1) <=? v + 2 ^ w) with true by lia. lia.
    + rewrite Z.mod_small by lia. replace (2 ^ (w - 1) <=? v) with false by lia. reflexivity.
  - rewrite Z.mod_small; lia.
Qed.

Lemma int_value_wrap p bs : memory_of p bs -> is_int p ->
  exists s, kind p = KInt s /\ int_value p bs = wrap s (bits p) (le_dec bs).
Proof.
  intros M [s K]. exists s; split; [exact K|]. unfold int_value. rewrite K, unsigned_le_dec.
  pose proof (memory_range _ _ M) as R. unfold wrap. rewrite Z.mod_small by lia.
  destruct s; cbn [andb]; [|reflexivity].
  destruct (le_dec bs <? _) eqn:E, (2 ^ (bits p - 1) <=? le_dec bs) eqn:E'; lia.
Qed.

Lemma enc_int_length p s v : kind p = KInt s -> length (enc_num p (NInt v)) = prim_size p.
Proof. intros K. unfold enc_num. rewrite K. apply le_enc_length. Qed.

Lemma enc_int_memory p s v : kind p = KInt s -> memory_of p (enc_num p (NInt v)).
Proof. intros K. unfold enc_num. rewrite K. split; [apply le_enc_bytes|apply le_enc_length]. Qed.

Lemma enc_int_dec p s v : kind p = KInt s -> le_dec (enc_num p (NInt v)) = v mod 2 ^ bits p.
Proof.
  intros K. unfold enc_num. rewrite K, le_dec_enc, pow256. apply Z.mod_mod.
  pose proof (bits_pos p). assert (0 < 2 ^ bits p) by (apply Z.pow_pos_nonneg; lia). unfold bits in *. lia.
Qed.

Lemma int_conversion from to bs : is_int from -> is_int to -> memory_of from bs ->
  memory_of to (convert_scalar_using_as from to bs)
  /\ int_value to (convert_scalar_using_as from to bs) mod 2 ^ bits to = int_value from bs mod 2 ^ bits to.
Proof.
  intros If It M. destruct (int_value_wrap _ _ M If) as (s & Ks & ->).
  destruct It as [s' Ks']. unfold convert_scalar_using_as, dec_num. rewrite Ks.
  unfold as_cast. rewrite Ks'. set (v := wrap s (bits from) (le_dec bs)).
  pose proof (bits_pos to) as Bp.
  split; [apply (enc_int_memory to s' _ Ks')|].
  destruct (int_value_wrap to _ (enc_int_memory to s' (wrap s' (bits to) v) Ks') (ex_intro _ s' Ks')) as (s'' & K'' & ->).
  rewrite wrap_mod by lia. rewrite (enc_int_dec to s' _ Ks'), Z.mod_mod, wrap_mod; lia.
Qed.

(* the memory is determined by the value *)
Lemma int_value_inj p bs bs' : is_int p -> memory_of p bs -> memory_of p bs' ->
  int_value p bs mod 2 ^ bits p = int_value p bs' mod 2 ^ bits p -> bs = bs'.
Proof.
  intros I M M' E. pose proof (bits_pos p).
  destruct (int_value_wrap _ _ M I) as (s & _ & Es), (int_value_wrap _ _ M' I) as (s' & _ & Es').
  rewrite Es, Es', !wrap_mod in E by lia.
  pose proof (memory_range _ _ M). pose proof (memory_range _ _ M').
  rewrite !Z.mod_small in E by lia.
  destruct M as [B L], M' as [B' L'].
  rewrite <- (le_enc_dec bs B), <- (le_enc_dec bs' B'). congruence.
Qed.

(* ---- floats ---- *)
Lemma digits2_bounds m : 2 ^ (Zpos (digits2_pos m) - 1) <= Zpos m < 2 ^ Zpos (digits2_pos m).
Proof.
  induction m as [m IH|m IH|]; cbn [digits2_pos]; [| |cbv; split; congruence].
  - rewrite Pos2Z.inj_succ. replace (Z.succ (Zpos (digits2_pos m)) - 1) with (Zpos (digits2_pos m)) by lia.
    rewrite Z.pow_succ_r by lia. pose proof (pow2_split (Zpos (digits2_pos m)) ltac:(lia)). lia.
  - rewrite Pos2Z.inj_succ. replace (Z.succ (Zpos (digits2_pos m)) - 1) with (Zpos (digits2_pos m)) by lia.
    rewrite Z.pow_succ_r by lia. pose proof (pow2_split (Zpos (digits2_pos m)) ltac:(lia)). lia.
Qed.

Lemma digits2_unique m d : 0 < d -> 2 ^ (d - 1) <= Zpos m < 2 ^ d -> Zpos (digits2_pos m) = d.
Proof.
  intros Hd B. pose proof (digits2_bounds m) as D.
  destruct (Z.lt_trichotomy (Zpos (digits2_pos m)) d) as [L|[E|G]]; [|exact E|].
  - assert (2 ^ Zpos (digits2_pos m) <= 2 ^ (d - 1)) by (apply Z.pow_le_mono_r; lia). lia.
  - assert (2 ^ d <= 2 ^ (Zpos (digits2_pos m) - 1)) by (apply Z.pow_le_mono_r; lia). lia.
Qed.

Lemma digits2_shift m m' k : 0 <= k -> Zpos m' = Zpos m * 2 ^ k -> Zpos (digits2_pos m') = Zpos (digits2_pos m) + k.
Proof.
  intros Hk E. apply digits2_unique; [lia|]. pose proof (digits2_bounds m) as D.
  assert (P : 0 < 2 ^ k) by (apply Z.pow_pos_nonneg; lia).
  rewrite E. replace (Zpos (digits2_pos m) + k - 1) with ((Zpos (digits2_pos m) - 1) + k) by lia.
  rewrite !Z.pow_add_r by lia. nia.
Qed.

Lemma iter_plus {A} (f : A -> A) a b x : Nat.iter (a + b) f x = Nat.iter a f (Nat.iter b f x).
Proof. induction a as [|a IH]; [reflexivity|]. cbn [Nat.add Nat.iter nat_rect]. now f_equal. Qed.

Lemma iter_pos_nat {A} (f : A -> A) n x : iter_pos f n x = Nat.iter (Pos.to_nat n) f x.
Proof.
  revert x; induction n as [n IH|n IH|]; intros x; cbn [iter_pos].
  - rewrite !IH, Pos2Nat.inj_xI.
    replace (S (2 * Pos.to_nat n)) with (Pos.to_nat n + (Pos.to_nat n + 1))%nat by lia.
    now rewrite !iter_plus.
  - rewrite !IH, Pos2Nat.inj_xO. replace (2 * Pos.to_nat n)%nat with (Pos.to_nat n + Pos.to_nat n)%nat by lia.
    now rewrite iter_plus.
  - reflexivity.
Qed.

Lemma shr_1_double m : shr_1 {| shr_m := Zpos (xO m); shr_r := false; shr_s := false |}
  = {| shr_m := Zpos m; shr_r := false; shr_s := false |}.
Proof. reflexivity. Qed.

Lemma shr_exact n m m' : Zpos m' = Zpos m * 2 ^ Z.of_nat n ->
  Nat.iter n shr_1 {| shr_m := Zpos m'; shr_r := false; shr_s := false |}
  = {| shr_m := Zpos m; shr_r := false; shr_s := false |}.
Proof.
  revert m m'; induction n as [|n IH]; intros m m' E.
  - change (2 ^ Z.of_nat 0) with 1 in E. rewrite Z.mul_1_r in E. now injection E as ->.
  - change (S n) with (1 + n)%nat. rewrite iter_plus, (IH (xO m)); [reflexivity|].
    rewrite Nat2Z.inj_succ, Z.pow_succ_r in E by lia. rewrite (Pos2Z.inj_xO m). lia.
Qed.

Section Rounding.
Variables prec emax : Z.

Lemma round_aux_canonical s m e : bounded prec emax m e = true ->
  binary_round_aux prec emax s (Zpos m) e loc_Exact = S754_finite s m e.
Proof.
  unfold bounded, canonical_mantissa. intros B. apply andb_prop in B as [C L].
  apply Zeq_bool_eq in C.
  assert (S : shr_fexp prec emax (Zpos m) e loc_Exact = ({| shr_m := Zpos m; shr_r := false; shr_s := false |}, e)).
  { unfold shr_fexp. cbn [Zdigits2 shr_record_of_loc]. rewrite C, Z.sub_diag. reflexivity. }
  unfold binary_round_aux. rewrite S. cbn [shr_m loc_of_shr_record round_nearest_even]. rewrite S. cbn [shr_m].
  now rewrite L.
Qed.

(* A number that is representable is not changed by rounding. *)
Lemma binary_round_exact s m e m' e' : bounded prec emax m' e' = true ->
  Zpos m * 2 ^ (Z.max (e - e') 0) = Zpos m' * 2 ^ (Z.max (e' - e) 0) ->
  binary_round prec emax s m e = S754_finite s m' e'.
Proof.
  intros B E. pose proof B as B'. unfold bounded, canonical_mantissa in B'. apply andb_prop in B' as [C L].
  apply Zeq_bool_eq in C.
  assert (D : Zpos (digits2_pos m) + e = Zpos (digits2_pos m') + e').
  { destruct (Z_lt_le_dec e e') as [G|G].
    - rewrite Z.max_r, Z.max_l in E by lia. rewrite Z.pow_0_r, Z.mul_1_r in E.
      rewrite (digits2_shift m' m (e' - e)); lia.
    - rewrite Z.max_l, (Z.max_r (e' - e)) in E by lia. rewrite Z.pow_0_r, Z.mul_1_r in E.
      rewrite (digits2_shift m m' (e - e')); lia. }
  unfold binary_round. rewrite D, C. unfold shl_align.
  destruct (e' - e) as [|d|d] eqn:Hd.
  - assert (e' = e) by lia. subst. rewrite Z.sub_diag in E. cbn in E. rewrite !Pos.mul_1_r in E. injection E as ->.
    apply round_aux_canonical, B.
  - rewrite (Z.max_r (e - e')) in E by lia. cbn [Z.max Z.compare] in E. rewrite Z.pow_0_r, Z.mul_1_r in E.
    assert (SE : shr_fexp prec emax (Zpos m) e loc_Exact
                 = ({| shr_m := Zpos m'; shr_r := false; shr_s := false |}, e')).
    { unfold shr_fexp. cbn [Zdigits2 shr_record_of_loc]. rewrite D, C, Hd. cbn [shr].
      rewrite iter_pos_nat, (shr_exact (Pos.to_nat d) m' m); [f_equal; lia|].
      rewrite positive_nat_Z. exact E. }
    unfold binary_round_aux. rewrite SE. cbn [shr_m loc_of_shr_record round_nearest_even].
    assert (S : shr_fexp prec emax (Zpos m') e' loc_Exact = ({| shr_m := Zpos m'; shr_r := false; shr_s := false |}, e')).
    { unfold shr_fexp. cbn [Zdigits2 shr_record_of_loc]. rewrite C, Z.sub_diag. reflexivity. }
    rewrite S. cbn [shr_m]. now rewrite L.
  - rewrite (Z.max_l (e - e')) in E by lia. replace (Z.max (Zneg d) 0) with 0 in E by lia.
    rewrite Z.pow_0_r, Z.mul_1_r in E.
    assert (M : shift_pos d m = m').
    { apply Pos2Z.inj. rewrite shift_pos_correct.
      change (Z.pow_pos 2 d) with (2 ^ Zpos d). replace (Zpos d) with (e - e') by lia. lia. }
    rewrite M. apply round_aux_canonical, B.
Qed.
End Rounding.
