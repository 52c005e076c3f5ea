(* Trimming keeps the number; the written numbers are correctly rounded. *)
From Coq Require Import String Ascii List ZArith QArith Qabs Qpower Qfield Bool Arith Lia Lqa SpecFloat.
From Verif Require Import Base LayoutModel LayoutSpec BufferModel BufferSpec TraitModel TraitSpec NumModel AsciiModel AsciiSpec ListLemmas AsciiProofs.
Import ListNotations.
Open Scope nat_scope.

Lemma trim_snoc t c : trim_zeros (t ++ [c]) =
  if Z.eqb c (ch "0") then (match rev t with c' :: _ => if Z.eqb c' (ch ".") then t ++ [c] else trim_zeros t | [] => trim_zeros t end) else t ++ [c].
Proof.
  unfold trim_zeros. rewrite rev_app_distr. cbn [rev app trim_rev]. destruct (Z.eqb c (ch "0")).
  - destruct (rev t) as [|c' r] eqn:R; [reflexivity|]. destruct (Z.eqb c' (ch ".")); [|reflexivity].
    cbn [rev]. rewrite <- (rev_involutive t), R. reflexivity.
  - cbn [rev]. now rewrite rev_involutive.
Qed.
Lemma trim_fraction pre f : f <> [] -> Forall is_digit f ->
  exists f' k, f = f' ++ repeat (ch "0") k /\ f' <> [] /\ trim_zeros (pre ++ ch "." :: f) = pre ++ ch "." :: f'.
Proof.
  induction f as [|c g IH] using rev_ind; intros NE F; [congruence|]. apply Forall_app in F. destruct F as [Fg Fc].
  change (pre ++ ch "." :: g ++ [c]) with (pre ++ (ch "." :: g) ++ [c]). rewrite app_assoc, trim_snoc.
  destruct (Z.eqb_spec c (ch "0")) as [->|N].
  - rewrite rev_app_distr. cbn [rev]. destruct g as [|c' g'] eqn:G.
    + cbn [rev app]. change (Z.eqb (ch ".") (ch ".")) with true. cbv iota. exists [ch "0"], 0. split; [reflexivity|]. split; [discriminate|].
      rewrite <- app_assoc. reflexivity.
    + rewrite <- G in *. destruct (rev g) as [|z r] eqn:R.
      { exfalso. apply (f_equal (@rev Z)) in R. rewrite rev_involutive in R. rewrite R in G. discriminate. }
      assert (D : is_digit z). { rewrite Forall_forall in Fg. apply Fg. apply in_rev. rewrite R. left. reflexivity. }
      cbn [app]. destruct (Z.eqb_spec z (ch ".")) as [->|_]; [nodigit D|].
      destruct IH as (f' & k & E & NE' & T); [congruence|exact Fg|].
      exists f', (k + 1). split; [rewrite repeat_app, app_assoc, <- E; reflexivity|]. split; [exact NE'|exact T].
  - exists (g ++ [c]), 0. split; [now rewrite app_nil_r|]. split; [destruct g; discriminate|]. rewrite <- app_assoc. reflexivity.
Qed.

Lemma digits_value_zeros t k : digits_value (t ++ repeat (ch "0") k) = option_map (fun v => v * 10 ^ Z.of_nat k)%Z (digits_value t).
Proof.
  induction k as [|k IH].
  - cbn [repeat]. rewrite app_nil_r. destruct (digits_value t); cbn [option_map]; [f_equal; cbn; lia|reflexivity].
  - change (repeat (ch "0") (S k)) with (ch "0" :: repeat (ch "0") k). rewrite repeat_cons, app_assoc, digits_value_snoc, IH. destruct (digits_value t) as [v|]; cbn [option_map]; [|reflexivity].
    rewrite dstep_digit by (unfold is_digit; vm_compute; split; discriminate). f_equal. change (ch "0") with 48%Z. rewrite Nat2Z.inj_succ, Z.pow_succ_r by lia. lia.
Qed.
Lemma pos10 n : (0 < 10 ^ Z.of_nat n)%Z.
Proof. apply Z.pow_pos_nonneg; lia. Qed.
Lemma digits_value_prefix t u v : digits_value (t ++ u) = Some v -> exists a, digits_value t = Some a.
Proof.
  unfold digits_value. rewrite fold_left_app. change (fold_left dstep u (fold_left dstep t (Some 0%Z)) = Some v -> exists a, fold_left dstep t (Some 0%Z) = Some a).
  destruct (fold_left dstep t (Some 0%Z)) as [a|]; [eauto|]. rewrite fold_none. discriminate.
Qed.

Lemma signed_q_eq s q q' : (q == q')%Q -> (signed_q s q == signed_q s q')%Q.
Proof. intros E. unfold signed_q. destruct s; rewrite E; reflexivity. Qed.

Lemma trim_value s i f a b : Forall is_digit i -> i <> [] -> digits_value i = Some a -> f <> [] -> Forall is_digit f -> digits_value f = Some b ->
  exists q, decimal_value (trim_zeros (sign_text s ++ i ++ ch "." :: f)) = Some q
            /\ (q == signed_q s (inject_Z a + Qmake b (Z.to_pos (10 ^ Z.of_nat (length f)))))%Q.
Proof.
  intros F NE V FN FF W. rewrite app_assoc. destruct (trim_fraction (sign_text s ++ i) f FN FF) as (f' & k & E & NE' & T). rewrite T, <- app_assoc.
  rewrite E in W. destruct (digits_value_prefix _ _ _ W) as [b' B]. rewrite digits_value_zeros, B in W. cbn [option_map] in W. injection W as <-.
  rewrite (decimal_value_point s i f' a b' F NE V NE' B). eexists. split; [reflexivity|]. apply signed_q_eq. apply Qplus_inj_l.
  unfold Qeq. cbn [Qnum Qden]. rewrite E, app_length, repeat_length. pose proof (pos10 (length f')). pose proof (pos10 k).
  rewrite Nat2Z.inj_add, Z.pow_add_r by lia. rewrite !Z2Pos.id by lia. lia.
Qed.

(* the text of a scaled number *)
Definition fixed_text (s : bool) (p : nat) (scaled : Z) : text :=
  sign_text s ++ unsigned_text (scaled / 10 ^ Z.of_nat p)
  ++ (match p with O => [] | _ => ch "." :: digits_n p (scaled mod 10 ^ Z.of_nat p) end).

Lemma fixed_value s p scaled : (0 <= scaled)%Z -> 0 < p ->
  (exists q, decimal_value (fixed_text s p scaled) = Some q /\ (q == signed_q s (Qmake scaled (Z.to_pos (10 ^ Z.of_nat p))))%Q)
  /\ (exists q, decimal_value (trim_zeros (fixed_text s p scaled)) = Some q /\ (q == signed_q s (Qmake scaled (Z.to_pos (10 ^ Z.of_nat p))))%Q).
Proof.
  intros S P. pose proof (pos10 p) as T. pose proof (Z.div_pos scaled (10 ^ Z.of_nat p) S T) as D.
  pose proof (Z.mod_pos_bound scaled (10 ^ Z.of_nat p) T) as M. pose proof (Z.div_mod scaled (10 ^ Z.of_nat p) ltac:(lia)) as E.
  destruct (unsigned_text_spec _ D) as (F & V & _ & NE). destruct (digits_n_spec p _ M) as (F2 & V2 & L2).
  assert (NE2 : digits_n p (scaled mod 10 ^ Z.of_nat p) <> []) by (intros X; rewrite X in L2; cbn in L2; lia).
  assert (Q : (inject_Z (scaled / 10 ^ Z.of_nat p) + Qmake (scaled mod 10 ^ Z.of_nat p) (Z.to_pos (10 ^ Z.of_nat p)) == Qmake scaled (Z.to_pos (10 ^ Z.of_nat p)))%Q).
  { unfold Qeq. cbn [Qnum Qden Qplus inject_Z]. rewrite Pos.mul_1_l, !Z2Pos.id by lia. nia. }
  assert (X : fixed_text s p scaled = sign_text s ++ unsigned_text (scaled / 10 ^ Z.of_nat p) ++ ch "." :: digits_n p (scaled mod 10 ^ Z.of_nat p))
    by (unfold fixed_text; destruct p; [lia|reflexivity]).
  rewrite X. split.
  - eexists. split; [apply (decimal_value_point s _ _ _ _ F NE V NE2 V2)|]. apply signed_q_eq. rewrite L2. exact Q.
  - destruct (trim_value s _ _ _ _ F NE V NE2 F2 V2) as (q & QE & QV). exists q. split; [exact QE|]. rewrite QV. apply signed_q_eq. rewrite L2. exact Q.
Qed.

(* ---- rounding ---- *)

Lemma div_even_error a b : (0 <= a)%Z -> (0 < b)%Z -> (0 <= div_even a b)%Z /\ (- b <= 2 * (div_even a b * b - a) <= b)%Z.
Proof.
  intros A B. unfold div_even. pose proof (Z.div_mod a b ltac:(lia)) as E. pose proof (Z.mod_pos_bound a b B) as M. pose proof (Z.div_pos a b A B) as D.
  set (q := (a / b)%Z) in *. set (r := (a mod b)%Z) in *. clearbody q r.
  destruct (Z.ltb_spec (2 * r) b); [split; nia|]. destruct (Z.ltb_spec b (2 * r)); [split; nia|]. destruct (Z.even q); split; nia.
Qed.

Lemma pow2_nonneg e : (0 <= e)%Z -> (Qpower (2 # 1) e == inject_Z (2 ^ e))%Q.
Proof. intros P. rewrite (Zpower_Qpower 2 e P). reflexivity. Qed.
Lemma pow2_neg e : (e < 0)%Z -> (Qpower (2 # 1) e == Qmake 1 (Z.to_pos (2 ^ (- e))))%Q.
Proof.
  intros N. replace e with (- (- e))%Z by lia. rewrite Qpower_opp, pow2_nonneg by lia. rewrite Z.opp_involutive.
  assert (0 < 2 ^ (- e))%Z by (apply Z.pow_pos_nonneg; lia). destruct (2 ^ (- e))%Z; try lia. reflexivity.
Qed.

(* the scaled integer of a finite float *)
Definition scaled_of (p : nat) (m : positive) (e : Z) : Z :=
  (if Z.leb 0 e then Zpos m * 2 ^ e * 10 ^ Z.of_nat p else div_even (Zpos m * 10 ^ Z.of_nat p) (2 ^ (- e)))%Z.
Lemma scaled_ok p m e : (0 <= scaled_of p m e)%Z
  /\ (Qabs (Qmake (scaled_of p m e) (Z.to_pos (10 ^ Z.of_nat p)) - inject_Z (Zpos m) * Qpower (2 # 1) e) <= (1 # 2) * (1 # Z.to_pos (10 ^ Z.of_nat p)))%Q.
Proof.
  unfold scaled_of. pose proof (pos10 p) as T. destruct (Z.leb_spec 0 e) as [N|N].
  - assert (0 < 2 ^ e)%Z by (apply Z.pow_pos_nonneg; lia). split; [nia|].
    assert (E : (Qmake (Zpos m * 2 ^ e * 10 ^ Z.of_nat p) (Z.to_pos (10 ^ Z.of_nat p)) - inject_Z (Zpos m) * Qpower (2 # 1) e == 0)%Q).
    { rewrite pow2_nonneg by exact N. unfold Qeq. cbn [Qnum Qden Qplus Qminus Qopp Qmult inject_Z]. rewrite ?Pos.mul_1_r, ?Pos.mul_1_l, !Z2Pos.id by lia. lia. }
    rewrite E. unfold Qle. cbn. lia.
  - assert (B : (0 < 2 ^ (- e))%Z) by (apply Z.pow_pos_nonneg; lia).
    destruct (div_even_error (Zpos m * 10 ^ Z.of_nat p) (2 ^ (- e)) ltac:(nia) B) as [S R]. split; [exact S|].
    set (d := div_even (Zpos m * 10 ^ Z.of_nat p) (2 ^ (- e))) in *. clearbody d.
    rewrite pow2_neg by lia. apply Qabs_Qle_condition. set (P := (10 ^ Z.of_nat p)%Z) in *. set (C := (2 ^ (- e))%Z) in *. clearbody P C.
    unfold Qle. cbn [Qnum Qden Qplus Qminus Qopp Qmult inject_Z]. rewrite ?Pos.mul_1_l, ?Pos.mul_1_r. rewrite ?Pos2Z.inj_mul, !Z2Pos.id by lia. split; nia.
Qed.

Lemma format_fixed_eq p x : format_fixed p x =
  match x with
  | S754_nan => txt "NaN"
  | S754_infinity s => sign_text s ++ txt "inf"
  | S754_zero s => fixed_text s p 0
  | S754_finite s m e => fixed_text s p (scaled_of p m e)
  end.
Proof. destruct x; reflexivity. Qed.

Lemma shows_float p x : 0 < p -> shows p false (NFlt x) (trim_zeros (format_fixed p x)).
Proof.
  intros P. rewrite format_fixed_eq. pose proof (pos10 p) as T. destruct x as [s|s| |s m e].
  - destruct (fixed_value s p 0 ltac:(lia) P) as [_ (q & E & V)]. exists q, 0%Q. split; [exact E|]. split; [reflexivity|].
    split; [rewrite V; unfold signed_q; destruct s; unfold Qle; cbn; lia|]. exists 0%Z. rewrite V. unfold signed_q. destruct s; unfold Qeq; cbn; lia.
  - destruct s; reflexivity.
  - reflexivity.
  - destruct (scaled_ok p m e) as [S R]. destruct (fixed_value s p _ S P) as [_ (q & E & V)]. exists q. eexists. split; [exact E|]. split; [reflexivity|].
    split; [|exists (if s then (- scaled_of p m e)%Z else scaled_of p m e); rewrite V; unfold signed_q; destruct s; unfold Qeq; cbn [Qnum Qden Qmult Qopp inject_Z]; rewrite ?Pos.mul_1_l, ?Z.mul_1_r; reflexivity].
    rewrite V. unfold signed_q. destruct s; [|exact R]. rewrite <- Qabs_opp.
    assert (X : (- (- (scaled_of p m e # Z.to_pos (10 ^ Z.of_nat p)) - inject_Z (Zneg m) * Qpower (2 # 1) e)
                 == (scaled_of p m e # Z.to_pos (10 ^ Z.of_nat p)) - inject_Z (Zpos m) * Qpower (2 # 1) e)%Q).
    { change (Zneg m) with (- Zpos m)%Z. rewrite inject_Z_opp. ring. }
    rewrite X. exact R.
Qed.

(* the digits of any number that has a point *)
Lemma trim_same s i f : Forall is_digit i -> i <> [] -> Forall is_digit f -> f <> [] ->
  same_number (trim_zeros (sign_text s ++ i ++ ch "." :: f)) (sign_text s ++ i ++ ch "." :: f).
Proof.
  intros F NE FF FN.
  assert (V : forall t, Forall is_digit t -> exists v, digits_value t = Some v).
  { intros t. induction t as [|c t IH] using rev_ind; intros D; [exists 0%Z; reflexivity|]. apply Forall_app in D. destruct D as [D1 D2].
    destruct (IH D1) as [v E]. rewrite digits_value_snoc, E. inversion D2; subst. rewrite dstep_digit by assumption. eauto. }
  destruct (V i F) as [a A], (V f FF) as [b B]. destruct (trim_value s i f a b F NE A FN FF B) as (q & E & Q).
  exists q. eexists. split; [exact E|]. split; [exact (decimal_value_point s i f a b F NE A FN B)|exact Q].
Qed.
Lemma trim_format p x : 0 < p -> float_Q x <> None -> same_number (trim_zeros (format_fixed p x)) (format_fixed p x).
Proof.
  intros P N. rewrite format_fixed_eq. destruct x as [s|s| |s m e]; try (destruct N; reflexivity).
  - destruct (fixed_value s p 0 ltac:(lia) P) as [(q & E & V) (q' & E' & V')]. exists q', q. split; [exact E'|]. split; [exact E|]. rewrite V, V'. reflexivity.
  - destruct (scaled_ok p m e) as [S _]. destruct (fixed_value s p _ S P) as [(q & E & V) (q' & E' & V')].
    exists q', q. split; [exact E'|]. split; [exact E|]. rewrite V, V'. reflexivity.
Qed.
Lemma trim_special p x : float_Q x = None -> trim_zeros (format_fixed p x) = format_fixed p x.
Proof. intros N. destruct x as [s|s| |s m e]; try discriminate N; [destruct s|]; reflexivity. Qed.
