(* Reading: the point of a line, and the lines of a file. *)
From Coq Require Import String Ascii List ZArith Bool Arith Lia SpecFloat.
From Verif Require Import Base LayoutModel LayoutSpec LayoutProofs BufferModel BufferSpec TraitModel TraitSpec NumModel NumSpec NumProofs NumProofs2 NumProofs3
  ConvModel ListLemmas BufferProofs TraitProofs TraitProofs2 AsciiModel AsciiSpec AsciiProofs AsciiProofs4.
Import ListNotations.
Open Scope nat_scope.

(* ---- numbers ---- *)

Lemma fold_dstep_nonneg t : forall a v, (0 <= a)%Z -> fold_left dstep t (Some a) = Some v -> (0 <= v)%Z.
Proof.
  induction t as [|c t IH]; intros a v A E; [injection E as <-; exact A|]. cbn [fold_left] in E. unfold dstep at 2 in E.
  destruct (Z.leb_spec 48 c), (Z.leb_spec c 57); cbn [andb] in E; try (rewrite fold_none in E; discriminate E). apply (IH (10 * a + (c - 48))%Z v); [lia|exact E].
Qed.
Lemma digits_value_nonneg t v : digits_value t = Some v -> (0 <= v)%Z.
Proof. apply (fold_dstep_nonneg t 0 v). lia. Qed.

Lemma in_range_high hi o : (forall v, o = Some v -> (0 <= v)%Z) -> in_range 0 hi o = match o with Some v => if Z.ltb v (hi + 1) then Some v else None | None => None end.
Proof. intros P. destruct o as [v|]; [|reflexivity]. specialize (P v eq_refl). unfold in_range. destruct (Z.leb_spec 0 v), (Z.leb_spec v hi), (Z.ltb_spec v (hi + 1)); try lia; reflexivity. Qed.
Lemma parse_digits_nonneg t v : parse_digits t = Some v -> (0 <= v)%Z.
Proof. rewrite parse_digits_value. destruct t; [discriminate|]. apply digits_value_nonneg. Qed.

Lemma unsigned_field pr hi : match pr with PI8 | PI16 | PI32 | PI64 => False | _ => True end -> (hi + 1 = 2 ^ (8 * Z.of_nat (prim_size pr)))%Z ->
  forall t, field_integer pr false t = parse_unsigned hi t.
Proof.
  intros U H t. unfold field_integer, parse_unsigned.
  assert (S : (match pr with PI8 | PI16 | PI32 | PI64 => true | _ => false end) = false) by (destruct pr; try reflexivity; destruct U). rewrite S.
  destruct t as [|c t]; [reflexivity|]. rewrite andb_false_r. destruct (Z.eqb c (ch "+")).
  - rewrite in_range_high by apply parse_digits_nonneg. rewrite parse_digits_value, H. destruct t as [|d t]; [reflexivity|].
    destruct (digits_value (d :: t)) as [v|]; [|reflexivity]. destruct (Z.ltb v _); reflexivity.
  - rewrite in_range_high by apply parse_digits_nonneg. rewrite parse_digits_value, H.
    destruct (digits_value (c :: t)) as [v|]; [|reflexivity]. destruct (Z.ltb v _); reflexivity.
Qed.
Lemma flag_field t : option_map NInt (field_integer PU8 true t) = parse_bool t.
Proof.
  unfold parse_bool. rewrite <- (unsigned_field PU8 255 I eq_refl). unfold field_integer. cbn [prim_size].
  destruct t as [|c t]; [reflexivity|]. rewrite andb_false_r. destruct (Z.eqb c (ch "+")).
  - destruct t as [|d t]; [reflexivity|]. destruct (digits_value (d :: t)) as [v|]; [|reflexivity]. destruct (Z.ltb v _); [|reflexivity].
    cbn. destruct (Z.eqb v 0), (Z.eqb v 1); reflexivity.
  - destruct (digits_value (c :: t)) as [v|]; [|reflexivity]. destruct (Z.ltb v _); [|reflexivity]. cbn. destruct (Z.eqb v 0), (Z.eqb v 1); reflexivity.
Qed.
Lemma signed_field t : field_integer PI8 false t = parse_signed (-128) 127 t.
Proof.
  unfold field_integer, parse_signed. cbn [prim_size]. change (8 * Z.of_nat 1)%Z with 8%Z. change (2 ^ (8 - 1))%Z with 128%Z.
  destruct t as [|c t]; [reflexivity|]. rewrite andb_true_r. destruct (Z.eqb c (ch "+")); [|destruct (Z.eqb c (ch "-"))].
  - rewrite parse_digits_value. destruct t as [|d t]; [reflexivity|]. destruct (digits_value (d :: t)) as [v|]; [|reflexivity]. unfold in_range. cbn [andb].
    destruct (Z.leb_spec (-(128)) v), (Z.leb_spec (-128) v), (Z.ltb_spec v 128), (Z.leb_spec v 127); try lia; reflexivity.
  - rewrite parse_digits_value. destruct t as [|d t]; [reflexivity|]. destruct (digits_value (d :: t)) as [v|]; [|reflexivity]. unfold in_range. cbn [andb option_map].
    destruct (Z.leb_spec (-(128)) (- v)), (Z.leb_spec (-128) (- v)), (Z.ltb_spec (- v) 128), (Z.leb_spec (- v) 127); try lia; reflexivity.
  - rewrite parse_digits_value. destruct (digits_value (c :: t)) as [v|]; [|reflexivity]. unfold in_range. cbn [andb].
    destruct (Z.leb_spec (-(128)) v), (Z.leb_spec (-128) v), (Z.ltb_spec v 128), (Z.leb_spec v 127); try lia; reflexivity.
Qed.
Lemma field_u8 t : parse_u8 t = field_number PU8 false t.
Proof. unfold parse_u8, field_number. rewrite (unsigned_field PU8 255 I eq_refl). reflexivity. Qed.
Lemma field_u16 t : parse_u16 t = field_number PU16 false t.
Proof. unfold parse_u16, field_number. rewrite (unsigned_field PU16 65535 I eq_refl). reflexivity. Qed.
Lemma field_i8 t : parse_i8 t = field_number PI8 false t.
Proof. unfold parse_i8, field_number. rewrite signed_field. reflexivity. Qed.
Lemma field_bool t : parse_bool t = field_number PU8 true t.
Proof. unfold field_number. rewrite flag_field. reflexivity. Qed.

(* ---- one column ---- *)

Lemma offset_member l a : offset_of l a = option_map m_offset (member_of l a).
Proof. reflexivity. Qed.

Lemma field_number_enc pr flag t v : field_number pr flag t = Some v -> In pr [PU8; PU16; PI8; PF64] -> length (enc_num pr v) = prim_size pr.
Proof.
  intros E I. cbn [In] in I. destruct I as [<-|[<-|[<-|[<-|[]]]]]; cbn [field_number] in E.
  1-3: destruct (field_integer _ flag t); [|discriminate E]; injection E as <-; apply le_enc_length.
  destruct (parse_f64 t); [|discriminate E]. injection E as <-. apply le_enc_length.
Qed.
(* where the numbers of letters are *)
Definition field_ok (a : attr_def) (o : nat) (pr : prim) : Prop := o + prim_size pr <= dt_size (ad_type a) /\ In pr [PU8; PU16; PI8; PF64].
Lemma col_field_ok k a o pr flag : col_meaning k = Field a o pr flag -> field_ok a o pr.
Proof. intros E. destruct k; cbn [col_meaning] in E; try discriminate E; injection E as <- <- <- <-; split; vm_compute; (tauto || lia). Qed.

Definition put_number (l : layout) (p : list Z) (a : attr_def) (o : nat) (pr : prim) (v : num) : list Z :=
  match member_of l a with Some m => blit p (m_offset m + o) (enc_num pr v) | None => p end.
Lemma parse_column_ok l p k t : good_layout l -> length p = l_size l ->
  parse_column l p k t = match col_meaning k with
                         | Skipped => Ok p
                         | Field a o pr flag => match field_number pr flag t with Some v => Ok (put_number l p a o pr v) | None => Err end
                         end.
Proof.
  intros G L.
  assert (X : forall a o pr flag, field_ok a o pr ->
    parse_to_point l p a o pr (field_number pr flag t) = match field_number pr flag t with Some v => Ok (put_number l p a o pr v) | None => Err end).
  { intros a o pr flag [FO FI]. unfold parse_to_point. destruct (field_number pr flag t) as [v|] eqn:E; [|reflexivity].
    rewrite offset_member. unfold put_number. destruct (member_of l a) as [m|] eqn:M; [|reflexivity]. cbn [option_map].
    destruct (member_size l a m G M) as (S & _ & B). unfold cursor_write. rewrite (field_number_enc _ _ _ _ E FI).
    destruct (Nat.leb_spec (m_offset m + o + prim_size pr) (length p)); [reflexivity|lia]. }
  destruct k; cbn [parse_column col_meaning]; try reflexivity; rewrite ?field_u8, ?field_u16, ?field_i8, ?field_bool;
    try (apply X; apply (col_field_ok Intensity) || apply (col_field_ok ReturnNumber) || idtac);
    try match goal with |- _ = match field_number ?pr ?f t with _ => _ end => apply (X _ _ pr f) end;
    try (split; vm_compute; (tauto || lia)).
Qed.

(* ---- one line ---- *)

Lemma put_length l p a o pr v flag t : good_layout l -> length p = l_size l -> field_ok a o pr -> field_number pr flag t = Some v -> length (put_number l p a o pr v) = l_size l.
Proof.
  intros G L [FO FI] E. unfold put_number. destruct (member_of l a) as [m|] eqn:M; [|exact L]. destruct (member_size l a m G M) as (S & _ & B).
  rewrite length_blit by (rewrite (field_number_enc _ _ _ _ E FI); lia). exact L.
Qed.

(* bytes i that belong to letter c *)
Definition covers (l : layout) (c : Z) (i : nat) : Prop :=
  exists a o pr flag m, meaning_of c = Some (Field a o pr flag) /\ member_of l a = Some m /\ m_offset m + o <= i < m_offset m + o + prim_size pr.

Definition letter_list : list Z := txt "sxyzirnctupRGBedaI".
Definition apart (c c' : Z) : bool :=
  match meaning_of c, meaning_of c' with
  | Some (Field a o pr _), Some (Field a' o' pr' _) =>
      negb (attr_def_eqb a a') || Nat.leb (o + prim_size pr) o' || Nat.leb (o' + prim_size pr') o
  | _, _ => true
  end.
Lemma letters_apart : forallb (fun c => forallb (fun c' => Z.eqb c c' || apart c c') letter_list) letter_list = true.
Proof. vm_compute. reflexivity. Qed.
Lemma meaning_known c x : meaning_of c = Some x -> In c letter_list.
Proof. intros E. rewrite column_meaning in E. apply column_known. destruct (column_of_char c); [discriminate|discriminate E]. Qed.

Lemma covers_disjoint l c c' i : good_layout l -> covers l c i -> covers l c' i -> c = c'.
Proof.
  intros G (a & o & pr & f & m & E & M & R) (a' & o' & pr' & f' & m' & E' & M' & R').
  pose proof letters_apart as A. rewrite forallb_forall in A. specialize (A c (meaning_known _ _ E)). rewrite forallb_forall in A. specialize (A c' (meaning_known _ _ E')).
  destruct (Z.eqb_spec c c'); [assumption|]. exfalso. cbn [orb] in A. unfold apart in A. rewrite E, E' in A.
  destruct (member_size l a m G M) as (S & I & B), (member_size l a' m' G M') as (S' & I' & B').
  assert (FO : field_ok a o pr).
  { rewrite column_meaning in E. destruct (column_of_char c) as [k|]; [|discriminate E]. injection E as E. exact (col_field_ok k _ _ _ _ E). }
  assert (FO' : field_ok a' o' pr').
  { rewrite column_meaning in E'. destruct (column_of_char c') as [k|]; [|discriminate E']. injection E' as E'. exact (col_field_ok k _ _ _ _ E'). }
  destruct FO as [FO _], FO' as [FO' _].
  destruct (attr_def_eqb a a') eqn:Q.
  - apply attr_def_eqb_eq in Q. subst a'. assert (m' = m) by congruence. subst m'. cbn [negb orb] in A. apply orb_true_iff in A. destruct A as [A|A]; apply Nat.leb_le in A; lia.
  - destruct G as (_ & _ & D & _). apply In_nth_error in I, I'. destruct I as [j J], I' as [j' J'].
    assert (NJ : j <> j').
    { intros <-. assert (m = m') by congruence. subst m'. apply find_some in M, M'. destruct M as [_ M], M' as [_ M']. apply attr_def_eqb_eq in M, M'.
      rewrite M in M'. rewrite M', attr_def_eqb_refl in Q. discriminate Q. }
    refine (D j j' m m' i NJ J J' _ _); unfold occupies; lia.
Qed.

Lemma nth_blit (p bs : list Z) off i : off + length bs <= length p ->
  nth i (blit p off bs) 0%Z = if Nat.leb off i && Nat.ltb i (off + length bs) then nth (i - off) bs 0%Z else nth i p 0%Z.
Proof.
  intros B. rewrite !nth_default_eq || idtac.
  assert (N : forall (l : list Z) k, nth k l 0%Z = match nth_error l k with Some x => x | None => 0%Z end).
  { intros l0 k. destruct (nth_error l0 k) eqn:E; [exact (nth_nth_error _ _ _ _ E)|]. apply nth_overflow. apply nth_error_None. exact E. }
  rewrite !N, nth_error_blit by exact B. destruct (Nat.leb_spec off i), (Nat.ltb_spec i (off + length bs)); cbn [andb]; reflexivity.
Qed.

(* the fields of a line are read from left to right *)
Lemma parse_fields_ok l : good_layout l -> forall cols format fields p, Forall2 (fun c k => column_of_char c = Some k) format cols -> length p = l_size l ->
  (length format <= length fields
   /\ forall k c a o pr flag t, nth_error format k = Some c -> meaning_of c = Some (Field a o pr flag) -> nth_error fields k = Some t -> field_number pr flag t <> None) ->
  exists p', parse_fields l p fields cols = Ok p' /\ length p' = l_size l
    /\ (forall k c a o pr flag m, nth_error format k = Some c -> ~ In c (skipn (S k) format) -> meaning_of c = Some (Field a o pr flag) -> member_of l a = Some m ->
          exists t v, nth_error fields k = Some t /\ field_number pr flag t = Some v /\ sub p' (m_offset m + o) (prim_size pr) = enc_num pr v)
    /\ (forall i, (forall c, In c format -> ~ covers l c i) -> nth i p' 0%Z = nth i p 0%Z).
Proof.
  intros G. induction cols as [|k cols IH]; intros format fields p F L [LE OK]; inversion F as [|c ? format' ? C F']; subst.
  - exists p. destruct fields; cbn [parse_fields]; repeat split; auto; intros [|k]; discriminate.
  - destruct fields as [|t fields]; [cbn [length] in LE; lia|]. cbn [length] in LE. cbn [parse_fields].
    rewrite (parse_column_ok l p k t G L). pose proof (column_meaning c) as CM. rewrite C in CM. cbn [option_map] in CM.
    set (p1 := match col_meaning k with
               | Skipped => p
               | Field a o pr flag => match field_number pr flag t with Some v => put_number l p a o pr v | None => p end
               end).
    assert (E1 : (match col_meaning k with
                  | Skipped => Ok p
                  | Field a o pr flag => match field_number pr flag t with Some v => Ok (put_number l p a o pr v) | None => Err end
                  end) = Ok p1).
    { unfold p1. destruct (col_meaning k) as [|a o pr flag]; [reflexivity|]. specialize (OK 0 c a o pr flag t eq_refl CM eq_refl).
      destruct (field_number pr flag t); [reflexivity|congruence]. }
    rewrite E1. cbn [bind].
    assert (L1 : length p1 = l_size l).
    { unfold p1. destruct (col_meaning k) as [|a o pr flag] eqn:K; [exact L|]. destruct (field_number pr flag t) as [v|] eqn:V; [|exact L].
      exact (put_length l p a o pr v flag t G L (col_field_ok k _ _ _ _ K) V). }
    destruct (IH format' fields p1 F' L1) as (p' & E & L' & A & U).
    { split; [lia|]. intros j c' a o pr flag t' H1 H2 H3. exact (OK (S j) c' a o pr flag t' H1 H2 H3). }
    exists p'. split; [exact E|]. split; [exact L'|]. split.
    + intros [|j] c' a o pr flag m H1 H2 H3 H4.
      * injection H1 as ->. cbn [skipn] in H2. rewrite H3 in CM. injection CM as CM. destruct (col_field_ok k a o pr flag (eq_sym CM)) as [FO FI].
        specialize (OK 0 c' a o pr flag t eq_refl H3 eq_refl). exists t. destruct (field_number pr flag t) as [v|] eqn:V; [|congruence].
        exists v. split; [reflexivity|]. split; [reflexivity|]. destruct (member_size l a m G H4) as (S & _ & B).
        pose proof (field_number_enc pr flag t v V FI) as LV.
        assert (P1 : p1 = blit p (m_offset m + o) (enc_num pr v)) by (unfold p1; rewrite <- CM, V; unfold put_number; rewrite H4; reflexivity).
        apply nth_ext with (d := 0%Z) (d' := 0%Z); [rewrite length_sub by lia; congruence|]. rewrite length_sub by lia. intros i I.
        assert (N1 : nth i (sub p' (m_offset m + o) (prim_size pr)) 0%Z = nth (m_offset m + o + i) p' 0%Z).
        { destruct (nth_error_get p' (m_offset m + o + i) ltac:(lia)) as [x X]. rewrite (nth_nth_error _ _ _ _ X). apply nth_nth_error.
          rewrite nth_error_sub. destruct (Nat.ltb_spec i (prim_size pr)); [exact X|lia]. }
        rewrite N1, U.
        -- rewrite P1, nth_blit by lia. rewrite LV. destruct (Nat.leb_spec (m_offset m + o) (m_offset m + o + i)), (Nat.ltb_spec (m_offset m + o + i) (m_offset m + o + prim_size pr)); try lia.
           cbn [andb]. f_equal. lia.
        -- intros c2 I2 CV. apply H2. rewrite (covers_disjoint l c' c2 (m_offset m + o + i) G); [exact I2| |exact CV]. exists a, o, pr, flag, m. repeat split; auto; lia.
      * cbn [skipn] in H2. destruct (A j c' a o pr flag m H1 H2 H3 H4) as (t' & v & Q1 & Q2 & Q3). exists t', v. auto.
    + intros i NI. rewrite U by (intros c2 I2; apply NI; right; exact I2). unfold p1. destruct (col_meaning k) as [|a o pr flag] eqn:K; [reflexivity|].
      destruct (field_number pr flag t) as [v|] eqn:V; [|reflexivity]. unfold put_number. destruct (member_of l a) as [m|] eqn:M; [|reflexivity].
      destruct (col_field_ok k a o pr flag K) as [FO FI]. pose proof (field_number_enc pr flag t v V FI) as LV. destruct (member_size l a m G M) as (S & _ & B).
      rewrite nth_blit by lia. destruct (Nat.leb_spec (m_offset m + o) i), (Nat.ltb_spec i (m_offset m + o + length (enc_num pr v))); cbn [andb]; try reflexivity.
      exfalso. apply (NI c (or_introl eq_refl)). exists a, o, pr, flag, m. repeat split; auto; lia.
Qed.

Lemma parse_fields_bad l : good_layout l -> forall cols format fields p, Forall2 (fun c k => column_of_char c = Some k) format cols -> length p = l_size l ->
  ~ (length format <= length fields
   /\ forall k c a o pr flag t, nth_error format k = Some c -> meaning_of c = Some (Field a o pr flag) -> nth_error fields k = Some t -> field_number pr flag t <> None) ->
  parse_fields l p fields cols = Err.
Proof.
  intros G. induction cols as [|k cols IH]; intros format fields p F L N; inversion F as [|c ? format' ? C F']; subst.
  - destruct N. split; [cbn [length]; lia|]. intros [|k]; discriminate.
  - destruct fields as [|t fields]; [reflexivity|]. cbn [parse_fields]. rewrite (parse_column_ok l p k t G L). pose proof (column_meaning c) as CM. rewrite C in CM. cbn [option_map] in CM.
    destruct (col_meaning k) as [|a o pr flag] eqn:K.
    + cbn [bind]. apply (IH format' fields p F' L). intros [LE OK]. apply N. split; [cbn [length]; lia|]. intros [|j] c' a' o' pr' flag' t' H1 H2 H3.
      * injection H1 as ->. congruence.
      * exact (OK j c' a' o' pr' flag' t' H1 H2 H3).
    + destruct (field_number pr flag t) as [v|] eqn:V; [|reflexivity]. cbn [bind].
      apply (IH format' fields _ F'); [exact (put_length l p a o pr v flag t G L (col_field_ok k _ _ _ _ K) V)|].
      intros [LE OK]. apply N. split; [cbn [length]; lia|]. intros [|j] c' a' o' pr' flag' t' H1 H2 H3.
      * injection H1 as ->. injection H3 as <-. rewrite CM in H2. injection H2 as <- <- <- <-. congruence.
      * exact (OK j c' a' o' pr' flag' t' H1 H2 H3).
Qed.
