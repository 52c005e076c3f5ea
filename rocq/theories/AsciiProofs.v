(* Letters, decimal numbers, trimming. *)
From Coq Require Import String Ascii List ZArith QArith Qabs Bool Arith Lia Lqa SpecFloat.
From Verif Require Import Base LayoutModel LayoutSpec BufferModel BufferSpec TraitModel TraitSpec NumModel AsciiModel AsciiSpec ListLemmas.
Import ListNotations.
Open Scope nat_scope.

(* ---- letters ---- *)

Definition col_meaning (k : column) : meaning :=
  match k with
  | Skip => Skipped
  | CoordinateX => Field POSITION_3D 0 PF64 false
  | CoordinateY => Field POSITION_3D 8 PF64 false
  | CoordinateZ => Field POSITION_3D 16 PF64 false
  | Intensity => Field INTENSITY 0 PU16 false
  | ReturnNumber => Field RETURN_NUMBER 0 PU8 false
  | NumberOfReturns => Field NUMBER_OF_RETURNS 0 PU8 false
  | Classification => Field CLASSIFICATION 0 PU8 false
  | UserData => Field USER_DATA 0 PU8 false
  | ColorR => Field COLOR_RGB 0 PU16 false
  | ColorG => Field COLOR_RGB 2 PU16 false
  | ColorB => Field COLOR_RGB 4 PU16 false
  | GpsTime => Field GPS_TIME 0 PF64 false
  | PointSourceID => Field POINT_SOURCE_ID 0 PU16 false
  | EdgeOfFlightLine => Field EDGE_OF_FLIGHT_LINE 0 PU8 true
  | ScanDirectionFlag => Field SCAN_DIRECTION_FLAG 0 PU8 true
  | ScanAngleRank => Field SCAN_ANGLE_RANK 0 PI8 false
  | Nir => Field NIR 0 PU16 false
  end.

Lemma column_meaning c : meaning_of c = option_map col_meaning (column_of_char c).
Proof.
  unfold meaning_of, column_of_char, letters. cbn [find fst].
  repeat match goal with |- context [Z.eqb c ?x] => destruct (Z.eqb_spec c x) as [->|?]; [vm_compute; reflexivity|] end.
  reflexivity.
Qed.
Lemma column_known c : known c <-> column_of_char c <> None.
Proof.
  split.
  - intros K. unfold known in K. cbn in K. repeat (destruct K as [<-|K]; [vm_compute; discriminate|]). destruct K.
  - unfold column_of_char.
    repeat match goal with |- context [Z.eqb c ?x] => destruct (Z.eqb_spec c x) as [->|?]; [intros _; vm_compute; tauto|] end.
    intros N. destruct N. reflexivity.
Qed.

Lemma parse_layout_go format : forall acc,
  foldM (fun cols c => match column_of_char c with Some k => Ok (cols ++ [k]) | None => Err end) format acc
  = if forallb (fun c => match column_of_char c with Some _ => true | None => false end) format
    then Ok (acc ++ flat_map (fun c => match column_of_char c with Some k => [k] | None => [] end) format) else Err.
Proof.
  induction format as [|c format IH]; intros acc; cbn [foldM forallb flat_map].
  - now rewrite app_nil_r.
  - destruct (column_of_char c); [|reflexivity]. cbn [bind andb]. rewrite IH, <- app_assoc. reflexivity.
Qed.
Lemma parse_layout_ok format cols : get_parse_layout format = Ok cols <-> Forall2 (fun c k => column_of_char c = Some k) format cols.
Proof.
  unfold get_parse_layout. rewrite parse_layout_go. cbn [app]. revert cols. induction format as [|c format IH]; intros cols; cbn [forallb flat_map].
  - split; [intros [= <-]; constructor|intros H; inversion H; reflexivity].
  - destruct (column_of_char c) as [k|] eqn:C; cbn [andb app].
    + split.
      * intros H. destruct (forallb _ format); [|discriminate]. injection H as <-. constructor; [exact C|]. apply IH. reflexivity.
      * intros H. inversion H as [|? k' ? cols' E T]; subst. apply IH in T. destruct (forallb _ format); [|discriminate]. injection T as <-. congruence.
    + split; [discriminate|]. intros H. inversion H; congruence.
Qed.
Lemma parse_layout_known format : (exists cols, get_parse_layout format = Ok cols) <-> Forall known format.
Proof.
  split.
  - intros [cols E]. apply parse_layout_ok in E. induction E as [|c k format cols C E IH]; constructor; [|exact IH]. apply column_known. congruence.
  - induction 1 as [|c format K _ [cols IH]]; [exists []; reflexivity|]. apply column_known in K. destruct (column_of_char c) as [k|] eqn:C; [|tauto].
    exists (k :: cols). apply parse_layout_ok. constructor; [exact C|]. apply parse_layout_ok. exact IH.
Qed.
Lemma parse_layout_total format : get_parse_layout format <> Panic.
Proof. unfold get_parse_layout. rewrite parse_layout_go. destruct (forallb _ format); discriminate. Qed.

(* ---- digits ---- *)

Definition is_digit (c : Z) : Prop := (48 <= c <= 57)%Z.
Ltac nodigit D := exfalso; match type of D with is_digit ?t => let v := eval vm_compute in t in change (is_digit v) in D; unfold is_digit in D; lia end.

Definition dstep (acc : option Z) (c : Z) : option Z :=
  match acc with
  | Some v => if ((48 <=? c) && (c <=? 57))%Z%bool then Some (10 * v + (c - 48))%Z else None
  | None => None
  end.
Lemma dstep_digit v c : is_digit c -> dstep (Some v) c = Some (10 * v + (c - 48))%Z.
Proof. intros H. unfold dstep, is_digit in *. destruct (Z.leb_spec 48 c), (Z.leb_spec c 57); try lia. reflexivity. Qed.
Lemma digits_value_snoc t c : digits_value (t ++ [c]) = dstep (digits_value t) c.
Proof. unfold digits_value. rewrite fold_left_app. reflexivity. Qed.

Lemma digits_len : forall fuel n, (0 <= n)%Z -> (n < 2 ^ Z.of_nat fuel)%Z ->
  Forall is_digit (digits fuel n) /\ digits_value (digits fuel n) = Some n /\ (0 < n -> hd 0%Z (digits fuel n) <> 48)%Z
  /\ (0 < fuel -> digits fuel n <> []).
Proof.
  induction fuel as [|fuel IH]; intros n P L; cbn [digits].
  - assert (n = 0)%Z by (cbn in L; lia). subst n. split; [constructor|]. split; [reflexivity|]. split; lia.
  - destruct (Z.ltb_spec n 10) as [S|S].
    + split; [constructor; [unfold is_digit; lia|constructor]|].
      split; [change [(48 + n)%Z] with ([] ++ [(48 + n)%Z]); rewrite digits_value_snoc; change (digits_value []) with (Some 0%Z); rewrite dstep_digit by (unfold is_digit; lia); f_equal; lia|].
      split; [cbn [hd]; lia|discriminate].
    + assert (D : (0 < n / 10)%Z) by (apply Z.div_str_pos; lia).
      pose proof (Z.div_mod n 10 ltac:(lia)) as E. pose proof (Z.mod_pos_bound n 10 ltac:(lia)) as M.
      assert (L' : (n / 10 < 2 ^ Z.of_nat fuel)%Z).
      { rewrite Nat2Z.inj_succ, Z.pow_succ_r in L by lia. lia. }
      destruct (IH (n / 10)%Z ltac:(lia) L') as (F & V & H & NE).
      split; [apply Forall_app; split; [exact F|constructor; [unfold is_digit; lia|constructor]]|].
      split; [rewrite digits_value_snoc, V, dstep_digit by (unfold is_digit; lia); f_equal; lia|].
      split.
      * intros _. specialize (H ltac:(lia)). destruct (digits fuel (n / 10)) as [|c t]; [|exact H]. exfalso. cbn in V. injection V. lia.
      * intros _. destruct (digits fuel (n / 10)); discriminate.
Qed.

Lemma unsigned_text_spec n : (0 <= n)%Z ->
  Forall is_digit (unsigned_text n) /\ digits_value (unsigned_text n) = Some n /\ (0 < n -> hd 0%Z (unsigned_text n) <> 48)%Z
  /\ unsigned_text n <> [].
Proof.
  intros P. unfold unsigned_text.
  destruct (digits_len (S (Z.to_nat (Z.log2 n))) n P) as (A & B & C & D).
  - rewrite Nat2Z.inj_succ, Z2Nat.id by apply Z.log2_nonneg. destruct (Z.eq_dec n 0) as [->|N]; [reflexivity|].
    pose proof (Z.log2_spec n ltac:(lia)). lia.
  - split; [exact A|]. split; [exact B|]. split; [exact C|]. apply D. lia.
Qed.
Lemma integer_text_unsigned n : (0 <= n)%Z -> integer_text n (unsigned_text n).
Proof.
  intros P. destruct (unsigned_text_spec n P) as (_ & V & H & NE). exists (unsigned_text n).
  destruct (Z.ltb_spec n 0); [lia|]. split; [reflexivity|]. split; [rewrite Z.abs_eq by lia; exact V|]. split; [exact NE|].
  intros E. destruct (Z.eq_dec n 0) as [->|N]; [reflexivity|]. destruct (H ltac:(lia)). exact E.
Qed.
Lemma integer_text_signed n : integer_text n (signed_text n).
Proof.
  unfold signed_text. destruct (Z.ltb_spec n 0) as [L|L].
  - destruct (unsigned_text_spec (- n) ltac:(lia)) as (_ & V & H & NE). exists (unsigned_text (- n)).
    destruct (Z.ltb_spec n 0); [|lia]. split; [reflexivity|]. split; [rewrite Z.abs_neq by lia; exact V|]. split; [exact NE|].
    intros E. destruct (H ltac:(lia)). exact E.
  - apply integer_text_unsigned. lia.
Qed.

Lemma horner_value t : forall acc, Forall is_digit t -> horner acc t = fold_left dstep t (Some acc).
Proof.
  induction t as [|c t IH]; intros acc F; [reflexivity|]. inversion F as [|? ? D F']; subst. cbn [horner fold_left].
  rewrite dstep_digit by exact D. unfold digit. unfold is_digit in D. destruct (Z.leb_spec 48 c), (Z.leb_spec c 57); try lia. cbn [andb].
  apply IH. exact F'.
Qed.
Lemma fold_none t : fold_left dstep t None = None.
Proof. induction t; [reflexivity|]. exact IHt. Qed.
Lemma horner_all t : forall acc, horner acc t = fold_left dstep t (Some acc).
Proof.
  induction t as [|c t IH]; intros acc; [reflexivity|]. cbn [horner fold_left]. unfold digit, dstep at 2.
  destruct ((48 <=? c) && (c <=? 57))%Z%bool; [apply IH|symmetry; apply fold_none].
Qed.
Lemma parse_digits_value t : parse_digits t = match t with [] => None | _ => digits_value t end.
Proof. destruct t; [reflexivity|]. unfold parse_digits. rewrite horner_all. reflexivity. Qed.

Lemma parse_unsigned_text hi n : (0 <= n <= hi)%Z -> parse_unsigned hi (unsigned_text n) = Some n.
Proof.
  intros P. destruct (unsigned_text_spec n ltac:(lia)) as (F & V & _ & NE). unfold parse_unsigned.
  destruct (unsigned_text n) as [|c t] eqn:E; [congruence|]. inversion F as [|? ? D _]; subst.
  destruct (Z.eqb_spec c (ch "+")) as [->|_]; [nodigit D|].
  rewrite parse_digits_value, V. unfold in_range. destruct (Z.leb_spec 0 n), (Z.leb_spec n hi); try lia. reflexivity.
Qed.
Lemma parse_signed_text lo hi n : (lo <= n <= hi)%Z -> (lo <= 0)%Z -> parse_signed lo hi (signed_text n) = Some n.
Proof.
  intros P L0. unfold signed_text, parse_signed. destruct (Z.ltb_spec n 0) as [L|L].
  - destruct (unsigned_text_spec (- n) ltac:(lia)) as (F & V & _ & NE).
    change (Z.eqb (ch "-") (ch "+")) with false. change (Z.eqb (ch "-") (ch "-")) with true. cbv iota.
    rewrite parse_digits_value. destruct (unsigned_text (- n)); [congruence|]. rewrite V. cbn [option_map]. unfold in_range. rewrite Z.opp_involutive.
    destruct (Z.leb_spec lo n), (Z.leb_spec n hi); try lia. reflexivity.
  - destruct (unsigned_text_spec n ltac:(lia)) as (F & V & _ & NE).
    destruct (unsigned_text n) as [|c t] eqn:E; [congruence|]. inversion F as [|? ? D _]; subst.
    destruct (Z.eqb_spec c (ch "+")) as [->|_]; [nodigit D|].
    destruct (Z.eqb_spec c (ch "-")) as [->|_]; [nodigit D|].
    rewrite parse_digits_value, V. unfold in_range. destruct (Z.leb_spec lo n), (Z.leb_spec n hi); try lia. reflexivity.
Qed.

(* ---- fixed point texts ---- *)

Lemma digits_n_spec : forall n v, (0 <= v < 10 ^ Z.of_nat n)%Z ->
  Forall is_digit (digits_n n v) /\ digits_value (digits_n n v) = Some v /\ length (digits_n n v) = n.
Proof.
  induction n as [|n IH]; intros v P; cbn [digits_n].
  - cbn in P. assert (v = 0)%Z by lia. subst. split; [constructor|]. split; reflexivity.
  - rewrite Nat2Z.inj_succ, Z.pow_succ_r in P by lia.
    pose proof (Z.div_mod v 10 ltac:(lia)) as E. pose proof (Z.mod_pos_bound v 10 ltac:(lia)) as M.
    assert (D : (0 <= v / 10 < 10 ^ Z.of_nat n)%Z) by (split; [apply Z.div_pos; lia|apply Z.div_lt_upper_bound; lia]).
    destruct (IH _ D) as (F & V & L).
    split; [apply Forall_app; split; [exact F|constructor; [unfold is_digit; lia|constructor]]|].
    split; [rewrite digits_value_snoc, V, dstep_digit by (unfold is_digit; lia); f_equal; lia|].
    rewrite app_length. cbn [length]. lia.
Qed.

Lemma break_digits i rest : Forall is_digit i -> break_point (i ++ ch "." :: rest) = (i, Some rest).
Proof.
  induction 1 as [|c i D F IH]; cbn [app break_point].
  - change (Z.eqb (ch ".") (ch ".")) with true. reflexivity.
  - destruct (Z.eqb_spec c (ch ".")) as [->|_]; [nodigit D|]. rewrite IH. reflexivity.
Qed.
Lemma break_digits_only i : Forall is_digit i -> break_point i = (i, None).
Proof.
  induction 1 as [|c i D F IH]; cbn [break_point]; [reflexivity|].
  destruct (Z.eqb_spec c (ch ".")) as [->|_]; [nodigit D|]. rewrite IH. reflexivity.
Qed.

Definition signed_q (s : bool) (q : Q) : Q := if s then Qopp q else q.
Definition sign_text (s : bool) : text := if s then [ch "-"] else [].

Lemma decimal_value_point s i f a b : Forall is_digit i -> i <> [] -> digits_value i = Some a -> f <> [] -> digits_value f = Some b ->
  decimal_value (sign_text s ++ i ++ ch "." :: f) = Some (signed_q s (inject_Z a + Qmake b (Z.to_pos (10 ^ Z.of_nat (length f))))%Q).
Proof.
  intros F NE V FN W. unfold decimal_value. destruct f as [|d f]; [congruence|]. destruct i as [|c i]; [congruence|]. destruct s.
  - cbn [sign_text app]. change (Z.eqb (ch "-") (ch "-")) with true. cbv iota.
    change (c :: i ++ ch "." :: d :: f) with ((c :: i) ++ ch "." :: d :: f). rewrite (break_digits _ _ F), V, W. reflexivity.
  - cbn [sign_text app]. pose proof F as F'. inversion F' as [|? ? D _]; subst.
    destruct (Z.eqb_spec c (ch "-")) as [->|_]; [nodigit D|].
    change (c :: i ++ ch "." :: d :: f) with ((c :: i) ++ ch "." :: d :: f). rewrite (break_digits _ _ F), V, W. reflexivity.
Qed.
Lemma decimal_value_int s i a : Forall is_digit i -> i <> [] -> digits_value i = Some a ->
  decimal_value (sign_text s ++ i) = Some (signed_q s (inject_Z a)).
Proof.
  intros F NE V. unfold decimal_value. destruct i as [|c i]; [congruence|]. destruct s.
  - cbn [sign_text app]. change (Z.eqb (ch "-") (ch "-")) with true. cbv iota. rewrite (break_digits_only _ F), V. reflexivity.
  - cbn [sign_text app]. pose proof F as F'. inversion F' as [|? ? D _]; subst.
    destruct (Z.eqb_spec c (ch "-")) as [->|_]; [nodigit D|]. rewrite (break_digits_only _ F), V. reflexivity.
Qed.
