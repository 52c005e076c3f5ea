(* What each column shows; splitting lines and files. *)
From Coq Require Import String Ascii List ZArith Bool Arith Lia SpecFloat.
From Verif Require Import Base LayoutModel LayoutSpec LayoutProofs BufferModel BufferSpec TraitModel TraitSpec NumModel NumSpec NumProofs NumProofs2 NumProofs3
  ConvModel ListLemmas BufferProofs TraitProofs TraitProofs2 LasIoProofs3 AsciiModel AsciiSpec AsciiProofs AsciiProofs2 AsciiProofs3.
Import ListNotations.
Open Scope nat_scope.

(* ---- columns ---- *)

Lemma raw_ok l p a m : good_layout l -> length p = l_size l -> member_of l a = Some m -> untyped_get_raw l p a = Ok (attr_value m p).
Proof.
  intros G L M. unfold untyped_get_raw. change (get_attribute l a) with (member_of l a). rewrite M.
  destruct (proj1 (member_of_spec l a m G) M) as [I _]. destruct (good_member _ _ G I) as (_ & S & B). change (ad_type (m_def m)) with (m_type m) in S.
  rewrite <- S. destruct (Nat.ltb_spec (length p) (m_offset m + m_size m)); [lia|]. reflexivity.
Qed.
Lemma raw_err l p a : member_of l a = None -> untyped_get_raw l p a = Err.
Proof. intros M. unfold untyped_get_raw. change (get_attribute l a) with (member_of l a). rewrite M. reflexivity. Qed.

Lemma scalar_conv f t s : length (enc_num t (as_cast t (dec_num f s))) = prim_size t -> conv_into (ConvScalar f t) s (repeat 0%Z (prim_size t)) = convert_scalar_using_as f t s.
Proof. intros _. unfold conv_into, blit. cbn [firstn app conv_apply Nat.add]. rewrite convert_length, skipn_all2 by (rewrite repeat_length; lia). apply app_nil_r. Qed.
Lemma wider_int f t sf st s : kind f = KInt sf -> kind t = KInt st ->
  (int_min st (bits t) <= int_min sf (bits f))%Z -> (int_max sf (bits f) <= int_max st (bits t))%Z ->
  int_of t (conv_into (ConvScalar f t) s (repeat 0%Z (prim_size t))) = int_of f s.
Proof.
  intros Kf Kt L1 L2. unfold int_of at 2, dec_num. rewrite Kf. pose proof (bits_pos f). pose proof (bits_pos t).
  pose proof (wrap_range sf (bits f) (le_dec s) ltac:(lia)) as R. set (v := wrap sf (bits f) (le_dec s)) in *.
  assert (E : as_cast t (NInt v) = NInt v) by (unfold as_cast; rewrite Kt, wrap_id by lia; reflexivity).
  unfold conv_into, blit. cbn [firstn app conv_apply Nat.add]. unfold convert_scalar_using_as, dec_num. rewrite Kf. fold v. rewrite E.
  rewrite (enc_int_length t st v Kt), skipn_all2 by (rewrite repeat_length; lia). rewrite app_nil_r.
  unfold int_of. rewrite (dec_enc_int t st v Kt) by lia. reflexivity.
Qed.

Lemma generic_conv from to c : get_generic_converter from to = Ok (Some c) -> from <> to -> forall a, ad_type a = from ->
  get_converter_for_attributes a (with_custom_datatype a to) = Ok (Some c).
Proof.
  intros E N a <-. unfold get_converter_for_attributes, with_custom_datatype. cbn [ad_name ad_type]. rewrite String.eqb_refl. cbn [assert bind].
  destruct (datatype_eqb (ad_type a) to) eqn:D; [apply datatype_eqb_eq in D; congruence|]. exact E.
Qed.

Lemma u64_text_ok l p a m f dt : good_layout l -> length p = l_size l -> member_of l a = Some m -> ad_type a = dt ->
  In (dt, f) [(U8, PU8); (U16, PU16)] -> u64_text l p a = Ok (unsigned_text (int_of f (attr_value m p))).
Proof.
  intros G L M T I. unfold u64_text, untyped_get. rewrite (raw_ok l p a m G L M). cbn [bind]. rewrite T.
  destruct I as [[= <- <-]|[[= <- <-]|[]]].
  - change (datatype_eqb U64 U8) with false. cbv iota. rewrite (generic_conv U8 U64 (ConvScalar PU8 PU64) eq_refl ltac:(discriminate) a T). cbn [bind].
    change (dt_size U64) with (prim_size PU64). rewrite (wider_int PU8 PU64 false false) by (reflexivity || (vm_compute; discriminate)). reflexivity.
  - change (datatype_eqb U64 U16) with false. cbv iota. rewrite (generic_conv U16 U64 (ConvScalar PU16 PU64) eq_refl ltac:(discriminate) a T). cbn [bind].
    change (dt_size U64) with (prim_size PU64). rewrite (wider_int PU16 PU64 false false) by (reflexivity || (vm_compute; discriminate)). reflexivity.
Qed.
Lemma untyped_err l p a t : member_of l a = None -> untyped_get l p a t = Err.
Proof. intros M. unfold untyped_get. rewrite (raw_err l p a M). reflexivity. Qed.

Lemma int_of_range pr s bs : kind pr = KInt s -> (int_min s (bits pr) <= int_of pr bs <= int_max s (bits pr))%Z.
Proof. intros K. unfold int_of, dec_num. rewrite K. apply wrap_range. pose proof (bits_pos pr). lia. Qed.
Lemma int_of_dec pr s bs : kind pr = KInt s -> dec_num pr bs = NInt (int_of pr bs).
Proof. intros K. unfold int_of, dec_num. rewrite K. reflexivity. Qed.
Lemma unsigned_nonneg pr bs : kind pr = KInt false -> (0 <= int_of pr bs)%Z.
Proof. intros K. pose proof (int_of_range pr false bs K). exact (proj1 H). Qed.
Lemma shows_unsigned prec pr bs : kind pr = KInt false -> shows prec false (dec_num pr bs) (unsigned_text (int_of pr bs)).
Proof. intros K. rewrite (int_of_dec pr false bs K). apply integer_text_unsigned. exact (unsigned_nonneg pr bs K). Qed.

(* the text of a column, by letter *)
Definition honest (k : column) : Prop := k <> Classification /\ k <> UserData.
Definition is_float (k : column) : bool := match k with CoordinateX | CoordinateY | CoordinateZ | GpsTime => true | _ => false end.

Lemma member_size l a m : good_layout l -> member_of l a = Some m -> m_size m = dt_size (ad_type a) /\ In m (l_attrs l) /\ m_offset m + m_size m <= l_size l.
Proof.
  intros G M. destruct (proj1 (member_of_spec l a m G) M) as [I <-]. destruct (good_member _ _ G I) as (_ & S & B). auto.
Qed.
Lemma sub_whole {A} (l : list A) n : length l = n -> sub l 0 n = l.
Proof. intros <-. unfold sub. apply firstn_all. Qed.

Lemma column_text_ok prec l p k a o pr flag m : good_layout l -> length p = l_size l -> honest k -> (prec = 0 -> is_float k = false) ->
  col_meaning k = Field a o pr flag -> member_of l a = Some m ->
  exists t, column_text prec l p k = Ok t /\ shows prec flag (dec_num pr (sub (attr_value m p) o (prim_size pr))) t.
Proof.
  intros G L [H1 H2] P0 E M. destruct (member_size l a m G M) as (S & I & B).
  assert (LV : length (attr_value m p) = m_size m) by (unfold attr_value; apply length_sub; lia).
  destruct k; try congruence; cbn [col_meaning] in E; try discriminate E; injection E as <- <- <- <-; cbn [column_text];
    cbn [ad_type dt_size POSITION_3D INTENSITY RETURN_NUMBER NUMBER_OF_RETURNS COLOR_RGB GPS_TIME POINT_SOURCE_ID EDGE_OF_FLIGHT_LINE SCAN_DIRECTION_FLAG SCAN_ANGLE_RANK NIR] in S.
  1-3: unfold coordinate_text, untyped_get; rewrite (raw_ok l p _ m G L M); cbn [bind]; change (datatype_eqb Vec3f64 (ad_type POSITION_3D)) with true; cbv iota; cbn [bind];
    eexists; split; [reflexivity|]; apply shows_float; specialize (P0); destruct prec; [discriminate (P0 eq_refl)|lia].
  - rewrite (u64_text_ok l p _ m PU16 U16 G L M eq_refl ltac:(cbn; tauto)). eexists. split; [reflexivity|]. rewrite sub_whole by (rewrite LV; exact S). apply shows_unsigned. reflexivity.
  - rewrite (u64_text_ok l p _ m PU8 U8 G L M eq_refl ltac:(cbn; tauto)). eexists. split; [reflexivity|]. rewrite sub_whole by (rewrite LV; exact S). apply shows_unsigned. reflexivity.
  - rewrite (u64_text_ok l p _ m PU8 U8 G L M eq_refl ltac:(cbn; tauto)). eexists. split; [reflexivity|]. rewrite sub_whole by (rewrite LV; exact S). apply shows_unsigned. reflexivity.
  - unfold color_text, untyped_get. rewrite (raw_ok l p _ m G L M). cbn [bind]. change (datatype_eqb Vec3u16 (ad_type COLOR_RGB)) with true. cbv iota. cbn [bind].
    eexists. split; [reflexivity|]. apply shows_unsigned. reflexivity.
  - unfold color_text, untyped_get. rewrite (raw_ok l p _ m G L M). cbn [bind]. change (datatype_eqb Vec3u16 (ad_type COLOR_RGB)) with true. cbv iota. cbn [bind].
    eexists. split; [reflexivity|]. apply shows_unsigned. reflexivity.
  - unfold color_text, untyped_get. rewrite (raw_ok l p _ m G L M). cbn [bind]. change (datatype_eqb Vec3u16 (ad_type COLOR_RGB)) with true. cbv iota. cbn [bind].
    eexists. split; [reflexivity|]. apply shows_unsigned. reflexivity.
  - unfold coordinate_text, untyped_get; rewrite (raw_ok l p _ m G L M); cbn [bind]; change (datatype_eqb F64 (ad_type GPS_TIME)) with true; cbv iota; cbn [bind].
    eexists; split; [reflexivity|]; apply shows_float; specialize (P0); destruct prec; [discriminate (P0 eq_refl)|lia].
  - rewrite (u64_text_ok l p _ m PU16 U16 G L M eq_refl ltac:(cbn; tauto)). eexists. split; [reflexivity|]. rewrite sub_whole by (rewrite LV; exact S). apply shows_unsigned. reflexivity.
  - unfold flag_text, untyped_get. rewrite (raw_ok l p _ m G L M). cbn [bind]. change (datatype_eqb U8 (ad_type EDGE_OF_FLIGHT_LINE)) with true. cbv iota. cbn [bind].
    eexists. split; [reflexivity|]. rewrite sub_whole by (rewrite LV; exact S). rewrite (int_of_dec PU8 false) by reflexivity. cbn [shows]. destruct (0 <? _)%Z; reflexivity.
  - unfold flag_text, untyped_get. rewrite (raw_ok l p _ m G L M). cbn [bind]. change (datatype_eqb U8 (ad_type SCAN_DIRECTION_FLAG)) with true. cbv iota. cbn [bind].
    eexists. split; [reflexivity|]. rewrite sub_whole by (rewrite LV; exact S). rewrite (int_of_dec PU8 false) by reflexivity. cbn [shows]. destruct (0 <? _)%Z; reflexivity.
  - unfold untyped_get. rewrite (raw_ok l p _ m G L M). cbn [bind]. change (datatype_eqb I64 (ad_type SCAN_ANGLE_RANK)) with false. cbv iota.
    rewrite (generic_conv I8 I64 (ConvScalar PI8 PI64) eq_refl ltac:(discriminate) SCAN_ANGLE_RANK eq_refl). cbn [bind].
    change (dt_size I64) with (prim_size PI64). rewrite (wider_int PI8 PI64 true true) by (reflexivity || (vm_compute; discriminate)).
    eexists. split; [reflexivity|]. rewrite sub_whole by (rewrite LV; exact S). rewrite (int_of_dec PI8 true) by reflexivity. apply integer_text_signed.
  - rewrite (u64_text_ok l p _ m PU16 U16 G L M eq_refl ltac:(cbn; tauto)). eexists. split; [reflexivity|]. rewrite sub_whole by (rewrite LV; exact S). apply shows_unsigned. reflexivity.
Qed.

Lemma column_text_missing prec l p k a o pr flag : honest k -> col_meaning k = Field a o pr flag -> member_of l a = None -> column_text prec l p k = Err.
Proof.
  intros [H1 H2] E M. destruct k; try congruence; cbn [col_meaning] in E; try discriminate E; injection E as <- <- <- <-; cbn [column_text];
    unfold coordinate_text, u64_text, color_text, flag_text; rewrite (untyped_err l p _ _ M); reflexivity.
Qed.

(* ---- splitting ---- *)

Definition number_char (c : Z) : Prop := In c (txt "-0123456789").
Lemma digit_number c : is_digit c -> number_char c.
Proof.
  unfold is_digit, number_char. intros D. change (txt "-0123456789") with [45; 48; 49; 50; 51; 52; 53; 54; 55; 56; 57]%Z. cbn [In]. lia.
Qed.
Lemma number_dec c : number_char c \/ ~ number_char c.
Proof. destruct (in_dec Z.eq_dec c (txt "-0123456789")); [left|right]; assumption. Qed.

Lemma starts_with_iff d t : starts_with d t = true <-> exists r, t = d ++ r.
Proof.
  revert t. induction d as [|c d IH]; intros t; cbn [starts_with app].
  - split; [intros _; exists t; reflexivity|reflexivity].
  - destruct t as [|c' t]; [split; [discriminate|intros [r E]; discriminate E]|].
    rewrite andb_true_iff, IH, Z.eqb_eq. split; [intros [-> [r ->]]; exists r; reflexivity|intros [r [= -> ->]]; eauto].
Qed.
Lemma first_other (d1 e1 u v : text) x y : Forall number_char d1 -> Forall number_char e1 -> ~ number_char x -> ~ number_char y ->
  d1 ++ x :: u = e1 ++ y :: v -> d1 = e1.
Proof.
  intros F1. revert e1. induction F1 as [|c d1 N F1 IH]; intros e1 F2 X Y E.
  - destruct F2 as [|c e1 N F2]; [reflexivity|]. cbn [app] in E. injection E as -> _. tauto.
  - destruct F2 as [|c' e1 N' F2]; cbn [app] in E; injection E as -> E; [tauto|]. f_equal. apply IH; assumption.
Qed.
Lemma first_other_of d : (exists c, In c d /\ ~ number_char c) -> exists d1 x d2, d = d1 ++ x :: d2 /\ Forall number_char d1 /\ ~ number_char x.
Proof.
  induction d as [|c d IH]; intros (x & I & N); [destruct I|]. destruct (number_dec c) as [C|C].
  - destruct I as [->|I]; [tauto|]. destruct (IH (ex_intro _ x (conj I N))) as (d1 & y & d2 & -> & F & Y). exists (c :: d1), y, d2. auto.
  - exists [], c, d. auto.
Qed.

Lemma no_match d t rest : (exists c, In c d /\ ~ number_char c) -> Forall number_char t -> t <> [] -> (rest = [] \/ exists r, rest = d ++ r) ->
  starts_with d (t ++ rest) = false.
Proof.
  intros D F NE R. destruct (starts_with d (t ++ rest)) eqn:S; [|reflexivity]. exfalso. apply starts_with_iff in S. destruct S as [r' E].
  destruct (first_other_of d D) as (d1 & x & d2 & ED & FD & X). destruct R as [->|[r ->]].
  - rewrite app_nil_r in E. rewrite E, ED in F. rewrite <- app_assoc in F. apply Forall_app in F. destruct F as [_ F]. cbn [app] in F. inversion F. tauto.
  - rewrite ED, <- !app_assoc, <- !app_comm_cons in E. rewrite app_assoc in E.
    assert (Q : t ++ d1 = d1) by (apply (first_other _ _ _ _ x x) in E; auto; apply Forall_app; auto).
    apply NE. apply length_zero_iff_nil. apply (f_equal (@length Z)) in Q. rewrite app_length in Q. lia.
Qed.

Lemma split_go_field d rest : (exists c, In c d /\ ~ number_char c) -> (rest = [] \/ exists r, rest = d ++ r) -> forall t cur, Forall number_char t ->
  split_go d 0 cur (t ++ rest) = split_go d 0 (rev t ++ cur) rest.
Proof.
  intros D R t. induction t as [|c t IH]; intros cur F; [reflexivity|]. inversion F as [|? ? N F']; subst.
  pose proof (no_match d (c :: t) rest D F ltac:(discriminate) R) as S. cbn [app] in *. cbn [split_go]. rewrite S. rewrite IH by exact F'. cbn [rev]. now rewrite <- app_assoc.
Qed.
Lemma split_go_skip d r cur : forall s, split_go d (length s) cur (s ++ r) = split_go d 0 cur r.
Proof. induction s as [|c s IH]; [reflexivity|]. exact IH. Qed.
Lemma split_go_match d r cur : d <> [] -> split_go d 0 cur (d ++ r) = rev cur :: split_go d 0 [] r.
Proof.
  intros NE. assert (S : starts_with d (d ++ r) = true) by (apply starts_with_iff; eauto).
  destruct d as [|c d]; [congruence|]. cbn [app] in S |- *. cbn [split_go]. rewrite S. f_equal.
  replace (length (c :: d) - 1) with (length d) by (cbn [length]; lia). apply split_go_skip.
Qed.

Lemma split_join d ts : good_delimiter d -> ts <> [] -> Forall (Forall number_char) ts -> split d (join d ts) = ts.
Proof.
  intros (D & _ & _) NE F. assert (DN : d <> []) by (destruct D as (c & I & _); destruct d; [destruct I|discriminate]).
  assert (X : split d (join d ts) = split_go d 0 [] (join d ts)) by (unfold split; destruct d; [congruence|reflexivity]). rewrite X. clear X.
  induction F as [|t ts N F IH]; [congruence|]. destruct F as [|t2 ts N2 F].
  - cbn [join]. rewrite <- (app_nil_r t) at 1. rewrite (split_go_field d [] D (or_introl eq_refl) t [] N). rewrite app_nil_r. cbn [split_go]. now rewrite rev_involutive.
  - change (join d (t :: t2 :: ts)) with (t ++ d ++ join d (t2 :: ts)).
    rewrite (split_go_field d _ D (or_intror (ex_intro _ _ eq_refl)) t [] N), app_nil_r, (split_go_match d _ _ DN), rev_involutive. f_equal. apply IH. discriminate.
Qed.

(* ---- lines ---- *)

Lemma take_line_lines t : forall cur,
  lines_from cur t = let '(line, rest, nl) := take_line t in
                     if nl then strip_cr (rev cur ++ line) :: lines_of rest else match rev cur ++ line with [] => [] | x => [x] end.
Proof.
  induction t as [|c t IH]; intros cur; cbn [lines_from take_line].
  - rewrite app_nil_r. destruct cur as [|c cur]; [reflexivity|]. cbn [rev]. destruct (rev cur ++ [c]) eqn:E; [destruct (rev cur); discriminate E|reflexivity].
  - destruct (Z.eqb c 10).
    + rewrite app_nil_r. f_equal. unfold strip_cr. rewrite rev_involutive. destruct cur as [|c' cur]; [reflexivity|]. destruct (Z.eqb c' 13); reflexivity.
    + rewrite IH. destruct (take_line t) as [[line rest] nl]. cbn [rev]. rewrite <- app_assoc. reflexivity.
Qed.
Lemma take_line_end t : let '(line, rest, nl) := take_line t in nl = false -> rest = [] /\ line = t.
Proof.
  induction t as [|c t IH]; cbn [take_line]; [auto|]. destruct (Z.eqb c 10); [discriminate|]. destruct (take_line t) as [[line rest] nl].
  intros N. destruct (IH N) as [-> ->]. auto.
Qed.
Lemma lines_next t : lines_of t = match next_line t with None => [] | Some (line, rest) => line :: lines_of rest end.
Proof.
  unfold next_line. destruct t as [|c t]; [reflexivity|]. unfold lines_of at 1. rewrite take_line_lines. pose proof (take_line_end (c :: t)) as E.
  destruct (take_line (c :: t)) as [[line rest] nl]. cbn [rev app]. destruct nl; [reflexivity|]. destruct (E eq_refl) as [-> ->]. reflexivity.
Qed.

Lemma next_terminated line rest : ~ In 10%Z line -> ~ In 13%Z line -> next_line (terminated line ++ rest) = Some (line, rest).
Proof.
  intros N R. unfold terminated. rewrite <- app_assoc. cbn [app].
  assert (T : take_line (line ++ 10%Z :: rest) = (line, rest, true)).
  { clear R. induction line as [|c line IH]; [reflexivity|]. cbn [app take_line]. destruct (Z.eqb_spec c 10) as [->|_]; [destruct N; left; reflexivity|].
    rewrite IH by (intros I; apply N; right; exact I). reflexivity. }
  unfold next_line. rewrite T. assert (S : strip_cr line = line).
  { unfold strip_cr. destruct (rev line) as [|c r] eqn:V; [reflexivity|]. destruct (Z.eqb_spec c 13) as [->|_]; [|reflexivity]. destruct R. apply in_rev. rewrite V. left. reflexivity. }
  rewrite S. destruct (line ++ 10%Z :: rest) eqn:Q; [destruct line; discriminate Q|reflexivity].
Qed.
Lemma lines_terminated ls rest : Forall (fun line => ~ In 10%Z line /\ ~ In 13%Z line) ls -> lines_of (concat (map terminated ls) ++ rest) = ls ++ lines_of rest.
Proof.
  induction 1 as [|line ls [N R] _ IH]; [reflexivity|]. cbn [map concat]. rewrite <- app_assoc, lines_next, (next_terminated _ _ N R), IH. reflexivity.
Qed.
