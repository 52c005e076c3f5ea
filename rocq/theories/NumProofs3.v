From Coq Require Import List ZArith Bool SpecFloat Lia Arith.
From Coq Require Import ZifyBool ZifyNat.
From Verif Require ListLemmas.
From Verif Require Import Base NumModel NumSpec NumProofs NumProofs2.
Import ListNotations.
Open Scope Z_scope.

Lemma trunc_rounds (s : bool) m e : rounds_toward_zero_to (if s then Zneg m else Zpos m) e (trunc_float s m e).
Proof.
  unfold rounds_toward_zero_to, trunc_float. cbv zeta. destruct (0 <=? e) eqn:E.
  - rewrite (Z.max_l e), (Z.max_r (- e)) by lia. rewrite Z.pow_0_r.
    destruct s; split; intros; lia.
  - rewrite (Z.max_r e), (Z.max_l (- e)) by lia. rewrite Z.pow_0_r.
    assert (P : 0 < 2 ^ (- e)) by (apply Z.pow_pos_nonneg; lia).
    pose proof (Z.div_mod (Zpos m) (2 ^ (- e)) ltac:(lia)) as D.
    pose proof (Z.mod_pos_bound (Zpos m) (2 ^ (- e)) P) as B.
    set (q := Zpos m / 2 ^ (- e)) in *. set (d := 2 ^ (- e)) in *.
    destruct s; split; intros; try lia; nia.
Qed.

Lemma clamp_clamped (s : bool) w v : 0 < w -> clamped s w v (Z.max (int_min s w) (Z.min (int_max s w) v)).
Proof.
  intros Hw. unfold clamped. assert (int_min s w <= int_max s w).
  { unfold int_min, int_max. assert (0 < 2 ^ (w - 1)) by (apply Z.pow_pos_nonneg; lia).
    assert (0 < 2 ^ w) by (apply Z.pow_pos_nonneg; lia). destruct s; lia. }
  lia.
Qed.

Lemma int_value_enc p s v : kind p = KInt s -> int_min s (bits p) <= v <= int_max s (bits p) ->
  memory_of p (enc_num p (NInt v)) /\ int_value p (enc_num p (NInt v)) = v.
Proof.
  intros K R. pose proof (enc_int_memory p s v K) as M. split; [exact M|].
  destruct (int_value_wrap p _ M (ex_intro _ s K)) as (s' & K' & ->). rewrite K in K'. injection K' as <-.
  rewrite (enc_int_dec p s v K). pose proof (bits_pos p).
  transitivity (wrap s (bits p) v); [|apply wrap_id; lia].
  unfold wrap. now rewrite Z.mod_mod by (assert (0 < 2 ^ bits p) by (apply Z.pow_pos_nonneg; lia); lia).
Qed.

(* float to integer *)
Lemma float_to_int from to prec emax s bs : kind from = KFloat prec emax -> kind to = KInt s -> memory_of from bs ->
  let r := convert_scalar_using_as from to bs in
  memory_of to r
  /\ (is_nan from bs -> int_value to r = 0)
  /\ (is_infinite from prec bs -> int_value to r = if sign_bit from bs then int_min s (bits to) else int_max s (bits to))
  /\ (forall m e, finite_float from prec emax bs m e ->
        exists v, rounds_toward_zero_to m e v /\ clamped s (bits to) v (int_value to r)).
Proof.
  intros Kf Kt M r. pose proof (memory_range _ _ M) as R.
  destruct (float_params _ _ _ Kf) as (ew & H1 & H2 & H3 & Hb).
  pose proof (bits_pos to) as Bt.
  assert (Hmm : int_min s (bits to) <= 0 <= int_max s (bits to)).
  { unfold int_min, int_max. assert (0 < 2 ^ (bits to - 1)) by (apply Z.pow_pos_nonneg; lia).
    assert (0 < 2 ^ bits to) by (apply Z.pow_pos_nonneg; lia). destruct s; lia. }
  assert (Er : exists w, r = enc_num to (NInt w) /\ int_min s (bits to) <= w <= int_max s (bits to)
     /\ (is_nan from bs -> w = 0)
     /\ (is_infinite from prec bs -> w = if sign_bit from bs then int_min s (bits to) else int_max s (bits to))
     /\ (forall m e, finite_float from prec emax bs m e ->
        exists v, rounds_toward_zero_to m e v /\ clamped s (bits to) v w)).
  { unfold r, convert_scalar_using_as, dec_num. rewrite Kf. unfold as_cast. rewrite Kt.
    unfold float_of_bits, is_nan, is_infinite, finite_float, sign_bit, exponent_field, mantissa_field.
    rewrite ?Kf, (unsigned_le_dec bs). set (u := le_dec bs) in *.
    set (ex := (u / 2 ^ (prec - 1)) mod 2 ^ (bits from - prec)).
    set (mm := u mod 2 ^ (prec - 1)).
    assert (Bm : 0 <= mm < 2 ^ (prec - 1)) by (apply Z.mod_pos_bound; apply Z.pow_pos_nonneg; lia).
    assert (Be : 0 <= ex < 2 ^ (bits from - prec)) by (apply Z.mod_pos_bound; apply Z.pow_pos_nonneg; lia).
    assert (Bew : 4 <= 2 ^ (bits from - prec)).
    { change 4 with (2 ^ 2). apply Z.pow_le_mono_r; lia. }
    set (sg := 2 ^ (bits from - 1) <=? u).
    destruct (ex =? 0) eqn:E0.
    - assert (F : exists w, NInt match match mm with Z.pos p => S754_finite sg p (SpecFloat.emin prec emax) | _ => S754_zero sg end with
          | S754_infinity true => int_min s (bits to) | S754_infinity false => int_max s (bits to)
          | S754_finite sg0 m e => Z.max (int_min s (bits to)) (Z.min (int_max s (bits to)) (trunc_float sg0 m e))
          | _ => 0 end = NInt w /\ int_min s (bits to) <= w <= int_max s (bits to)
          /\ exists v, rounds_toward_zero_to ((if sg then -1 else 1) * (mm + 0)) (SpecFloat.emin prec emax) v /\ clamped s (bits to) v w).
      { destruct mm as [|p|p] eqn:Em; [| |lia].
        - exists 0. split; [reflexivity|]. split; [lia|]. exists 0. split.
          + replace ((if sg then -1 else 1) * (0 + 0)) with 0 by lia. unfold rounds_toward_zero_to.
            assert (0 < 2 ^ Z.max (- SpecFloat.emin prec emax) 0) by (apply Z.pow_pos_nonneg; lia). lia.
          + replace 0 with (Z.max (int_min s (bits to)) (Z.min (int_max s (bits to)) 0)) at 2 by lia. apply clamp_clamped; lia.
        - eexists. split; [reflexivity|]. split; [lia|]. eexists. split; [|apply clamp_clamped; lia].
          replace ((if sg then -1 else 1) * (Z.pos p + 0)) with (if sg then Z.neg p else Z.pos p) by (destruct sg; lia).
          apply trunc_rounds. }
      destruct F as (w & -> & Bw & v & Rv & Cv). exists w. split; [reflexivity|]. split; [exact Bw|].
      split; [lia|]. split; [lia|]. intros m e (_ & -> & ->). exists v. split; [|exact Cv].
      replace (Z.max 1 ex - (emax - 1) - (prec - 1)) with (SpecFloat.emin prec emax) by (unfold SpecFloat.emin; lia). exact Rv.
    - destruct (ex =? 2 ^ (bits from - prec) - 1) eqn:E1.
      + destruct (mm =? 0) eqn:E2.
        * exists (if sg then int_min s (bits to) else int_max s (bits to)). split; [destruct sg; reflexivity|].
          split; [destruct sg; lia|]. split; [lia|]. split; [reflexivity|]. intros m e (N & _). lia.
        * exists 0. split; [reflexivity|]. split; [lia|]. split; [reflexivity|]. split; [lia|]. intros m e (N & _). lia.
      + assert (P1 : 0 < 2 ^ (prec - 1)) by (apply Z.pow_pos_nonneg; lia).
        destruct (mm + 2 ^ (prec - 1)) as [|p|p] eqn:Em; [lia| |lia].
        eexists. split; [reflexivity|]. split; [lia|]. split; [lia|]. split; [lia|].
        intros m e (_ & -> & ->). eexists. split; [|apply clamp_clamped; lia].
        replace ((if sg then -1 else 1) * Z.pos p) with (if sg then Z.neg p else Z.pos p) by (destruct sg; lia).
        replace (Z.max 1 ex - (emax - 1) - (prec - 1)) with (ex + SpecFloat.emin prec emax - 1) by (unfold SpecFloat.emin; lia).
        apply trunc_rounds. }
  destruct Er as (w & -> & Bw & A & B & C). destruct (int_value_enc to s w Kt Bw) as (Mt & ->). auto.
Qed.

(* vectors *)
Lemma convert_length from to bs : length (convert_scalar_using_as from to bs) = prim_size to.
Proof.
  unfold convert_scalar_using_as, enc_num, as_cast. destruct (kind to); destruct (dec_num from bs); apply le_enc_length.
Qed.

Lemma sub_app_1 {A} (a b : list A) n : length a = n -> sub (a ++ b) 0 n = a.
Proof. intros <-. unfold sub. cbn [skipn]. rewrite firstn_app, Nat.sub_diag, firstn_all. cbn. apply app_nil_r. Qed.
Lemma sub_app_2 {A} (a b : list A) o n : length a = o -> sub (a ++ b) o n = sub b 0 n.
Proof. intros <-. unfold sub. rewrite skipn_app, Nat.sub_diag, skipn_all2 by auto. reflexivity. Qed.

Lemma vec3_components from to bs k : (k < 3)%nat ->
  sub (convert_vec3_using_as from to bs) (k * prim_size to) (prim_size to)
  = convert_scalar_using_as from to (sub bs (k * prim_size from) (prim_size from)).
Proof.
  intros Hk. unfold convert_vec3_using_as.
  destruct k as [|[|[|k]]]; [| | |lia].
  - apply sub_app_1, convert_length.
  - rewrite sub_app_2 by (rewrite convert_length; lia). apply sub_app_1, convert_length.
  - rewrite app_assoc, sub_app_2 by (rewrite app_length, !convert_length; lia).
    unfold sub at 1. cbn [skipn]. rewrite <- (convert_length from to (sub bs (2 * prim_size from) (prim_size from))) at 1.
    apply firstn_all.
Qed.

Lemma vec3_length from to bs : length (convert_vec3_using_as from to bs) = (3 * prim_size to)%nat.
Proof. unfold convert_vec3_using_as. rewrite !app_length, !convert_length. lia. Qed.

Lemma three_parts {A} (l : list A) n : length l = (3 * n)%nat -> l = sub l (0 * n) n ++ sub l (1 * n) n ++ sub l (2 * n) n.
Proof.
  intros L. unfold sub. cbn [Nat.mul skipn]. rewrite Nat.add_0_r.
  rewrite <- (firstn_skipn n l) at 1. f_equal. rewrite <- (firstn_skipn n (skipn n l)) at 1. f_equal.
  rewrite ListLemmas.skipn_skipn, firstn_all2; [reflexivity|]. rewrite skipn_length. lia.
Qed.

Lemma vec3_lossless from to bs : contained_in from to -> length bs = (3 * prim_size from)%nat -> is_bytes bs ->
  (forall k, (k < 3)%nat -> ~ is_nan from (sub bs (k * prim_size from) (prim_size from))) ->
  convert_vec3_using_as to from (convert_vec3_using_as from to bs) = bs.
Proof.
  intros C L B NN. pose proof (vec3_length to from (convert_vec3_using_as from to bs)) as L2.
  assert (X : forall k, (k < 3)%nat -> sub (convert_vec3_using_as to from (convert_vec3_using_as from to bs)) (k * prim_size from) (prim_size from)
     = sub bs (k * prim_size from) (prim_size from)).
  { intros k Hk. rewrite vec3_components, vec3_components by exact Hk. apply conversion_lossless; [exact C| |apply NN, Hk].
    split.
    - unfold sub. unfold is_bytes in *. rewrite Forall_forall in *. intros x Hx. apply B.
      assert (Hx' : In x (skipn (k * prim_size from) bs)).
      { rewrite <- (firstn_skipn (prim_size from) (skipn _ bs)). apply in_or_app. now left. }
      rewrite <- (firstn_skipn (k * prim_size from) bs). apply in_or_app. now right.
    - unfold sub. rewrite firstn_length, skipn_length. nia. }
  rewrite (three_parts _ _ L2), !X by lia. symmetry. apply three_parts, L.
Qed.
