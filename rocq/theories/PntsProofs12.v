(* Opening and reading any bytes as a PNTS file: C90. *)
From Coq Require Import String List ZArith Lia Bool Arith SpecFloat.
From Verif Require Import Base LayoutModel LayoutSpec LayoutProofs BufferModel BufferSpec ListLemmas BufferProofs
  TraitModel TraitSpec NumModel NumSpec NumProofs ConvModel ConvSpec MathModel LasIoModel PntsModel PntsSpec PntsProofs PntsProofs2 PntsProofs3 PntsProofs4 PntsProofs5 PntsProofs6 PntsProofs7 PntsProofs9 PntsProofs10.
Import ListNotations.
Open Scope nat_scope.

Definition no_panic {A} (x : res A) : Prop := x <> Panic.
Lemma bind_no_panic {A B} (x : res A) (f : A -> res B) : no_panic x -> (forall a, x = Ok a -> no_panic (f a)) -> no_panic (let* a := x in f a).
Proof. unfold no_panic. destruct x; cbn [bind]; intros H K; auto; discriminate. Qed.
Lemma mapM_no_panic {A B} (f : A -> res B) l : (forall a, In a l -> no_panic (f a)) -> no_panic (mapM f l).
Proof.
  induction l as [|a l IH]; intros H; cbn [mapM]; [discriminate|]. apply bind_no_panic; [apply H; now left|]. intros b _. apply bind_no_panic; [apply IH; intros x Hx; apply H; now right|]. discriminate.
Qed.

Lemma layout_no_panic h : no_panic (layout_from_feature_table_header h).
Proof.
  unfold no_panic, layout_from_feature_table_header, reader_attributes. cbn [foldM]. unfold layout_step. cbn [fst snd bind].
  destruct (assoc "POSITION" h) as [[v|v|o1 c1]|]; destruct (assoc "RGBA" h) as [[v2|v2|o2 c2]|]; destruct (assoc "RGB" h) as [[v3|v3|o3 c3]|]; destruct (assoc "NORMAL" h) as [[v4|v4|o4 c4]|];
    vm_compute; discriminate.
Qed.
Lemma array_no_panic {A} h key (f : list json -> res A) : (forall l, no_panic (f l)) -> no_panic (array_entry h key f).
Proof. intros F. unfold array_entry. destruct (assoc key h) as [[| |]|]; try discriminate. apply bind_no_panic; [apply F|discriminate]. Qed.
Lemma number_no_panic h key : no_panic (number_entry h key).
Proof. unfold number_entry. destruct (assoc key h) as [[v| |]|]; try discriminate. destruct (as_u64 v); discriminate. Qed.
Lemma vec3_no_panic l : no_panic (json_arr_to_vec3f64 l).
Proof. unfold json_arr_to_vec3f64. destruct (map as_f64 l) as [|[x|] [|[y|] [|[z|] [|? ?]]]]; discriminate. Qed.
Lemma metadata_no_panic h : no_panic (metadata_from_feature_table_header h).
Proof.
  unfold metadata_from_feature_table_header. apply bind_no_panic; [apply number_no_panic|]. intros [n|] _; [|discriminate].
  apply bind_no_panic; [apply array_no_panic, vec3_no_panic|]. intros rtc _. apply bind_no_panic; [apply array_no_panic, vec3_no_panic|]. intros ? _.
  apply bind_no_panic; [apply array_no_panic, vec3_no_panic|]. intros ? _.
  apply bind_no_panic; [apply array_no_panic; intros l; unfold json_arr_to_vec4u8; destruct (_ && _); discriminate|]. intros ? _.
  apply bind_no_panic; [apply number_no_panic|]. discriminate.
Qed.
Lemma value_no_panic v : no_panic (ft_value_of_json v).
Proof.
  unfold ft_value_of_json. destruct v; try discriminate. destruct (assoc "byteOffset" fields) as [o|] eqn:E; [|discriminate]. unfold data_reference_of. rewrite E.
  destruct (as_u64 o), (assoc "componentType" fields) as [[]|]; discriminate.
Qed.
Lemma table_entry fields table : mapM (fun e => let* v := ft_value_of_json (snd e) in Ok (fst e, v)) fields = Ok table ->
  forall key u, assoc key table = Some u -> exists v, assoc key fields = Some v /\ ft_value_of_json v = Ok u.
Proof.
  revert table. induction fields as [|(k, v) fields IH]; intros table M key u A; cbn [mapM fst snd] in M; [injection M as <-; discriminate|].
  destruct (ft_value_of_json v) as [w| |] eqn:F; cbn [bind] in M; try discriminate.
  destruct (mapM _ fields) as [rest| |] eqn:R; cbn [bind] in M; try discriminate. injection M as <-. unfold assoc in A |- *. cbn [find fst] in A |- *.
  destruct (String.eqb k key); cbn [option_map snd] in A |- *; [injection A as <-; eauto|]. exact (IH rest eq_refl key u A).
Qed.
Lemma reference_stated v o c : ft_value_of_json v = Ok (DataReference o c) -> exists fs, v = JObj fs /\ assoc "byteOffset" fs = Some (JInt (Z.of_nat o)).
Proof.
  unfold ft_value_of_json. destruct v as [| | | | |l|fs]; try discriminate. destruct (assoc "byteOffset" fs) as [w|] eqn:E; [|discriminate]. unfold data_reference_of. rewrite E.
  destruct w as [| |z| | | |]; cbn [as_u64]; try (destruct (assoc "componentType" fs) as [[]|]; discriminate).
  destruct (Z.leb_spec 0 z) as [Z0|]; cbn [andb]; [|destruct (assoc "componentType" fs) as [[]|]; discriminate].
  destruct (z <? 2 ^ 64)%Z; [|destruct (assoc "componentType" fs) as [[]|]; discriminate].
  intros H. exists fs. split; [reflexivity|]. rewrite E. do 2 f_equal. destruct (assoc "componentType" fs) as [[]|]; try discriminate; injection H as <- _; lia.
Qed.

Lemma reference_cases h l offs : layout_from_feature_table_header h = Ok (l, offs) -> forall e, In e reader_attributes -> reference_or_none h (fst e).
Proof.
  unfold layout_from_feature_table_header.
  assert (X : forall es st st', foldM (layout_step h) es st = Ok st' -> forall e, In e es -> reference_or_none h (fst e)).
  { induction es as [|e es IH]; intros st st' F x I; [destruct I|]. cbn [foldM] in F. destruct (layout_step h st e) as [st1| |] eqn:S; cbn [bind] in F; try discriminate.
    destruct I as [<-|I]; [|exact (IH _ _ F x I)]. unfold layout_step in S. unfold reference_or_none. destruct (assoc (fst e) h) as [[v|v|o c]|]; try discriminate; exact I. }
  intros F. exact (X _ _ _ F).
Qed.
Lemma table_read c bytes size table : deser_feature_table_header c (skipn HEADER_LENGTH bytes) size = Ok table ->
  size <= length bytes /\ exists fields, json_parse c (sub bytes 28 size) = Some (JObj fields)
    /\ mapM (fun e => let* v := ft_value_of_json (snd e) in Ok (fst e, v)) fields = Ok table.
Proof.
  unfold deser_feature_table_header, read_json_header. destruct (Nat.leb_spec size (length (skipn HEADER_LENGTH bytes))) as [L|]; [|discriminate]. rewrite skipn_length in L.
  change (firstn size (skipn HEADER_LENGTH bytes)) with (sub bytes 28 size). destruct (json_parse c (sub bytes 28 size)) as [[| | | | | |fields]|]; cbn [bind]; try discriminate.
  intros M. split; [lia|]. eauto.
Qed.
Lemma deser_no_panic c bytes size : no_panic (deser_feature_table_header c bytes size).
Proof.
  unfold deser_feature_table_header. apply bind_no_panic.
  - unfold read_json_header. destruct (size <=? length bytes); [|discriminate]. destruct (json_parse c (firstn size bytes)); discriminate.
  - intros [| | | | | |fields] _; try discriminate. apply mapM_no_panic. intros e _. apply bind_no_panic; [apply value_no_panic|discriminate].
Qed.
Lemma table_offsets fields table l offs : mapM (fun e => let* v := ft_value_of_json (snd e) in Ok (fst e, v)) fields = Ok table ->
  layout_from_feature_table_header table = Ok (l, offs) -> forall n o, In (n, o) offs -> stated_offset fields (Z.of_nat o).
Proof.
  intros M L n o I. destruct (reader_offsets _ _ _ L n o I) as (e & cc & He & _ & A). destruct (table_entry _ _ M _ _ A) as (v & AV & F). destruct (reference_stated _ _ _ F) as (fs & -> & B).
  exists (fst e), fs. split; [|auto]. destruct He as [<-|[<-|[<-|[<-|[]]]]]; cbn; tauto.
Qed.
Lemma header_size bytes h : read_header bytes = Ok h -> ph_ft_json h = u32_at bytes 12.
Proof.
  unfold read_header. destruct (length bytes <? HEADER_LENGTH); [discriminate|]. destruct (list_eq_dec Z.eq_dec _ _); [|discriminate]. intros H. injection H as <-. reflexivity.
Qed.

Lemma open_no_panic c bytes : (Z.of_nat (length bytes) < 2 ^ 62)%Z -> (forall fields o, feature_table c bytes fields -> stated_offset fields o -> (o < 2 ^ 63)%Z) ->
  no_panic (from_read c bytes).
Proof.
  intros LB SO. unfold from_read. apply bind_no_panic.
  { unfold read_header. destruct (length bytes <? HEADER_LENGTH); [discriminate|]. destruct (list_eq_dec Z.eq_dec _ _); discriminate. }
  intros h RH. rewrite (header_size _ _ RH). apply bind_no_panic; [apply deser_no_panic|]. intros table D. destruct (table_read _ _ _ _ D) as (LS & fields & P & M).
  apply bind_no_panic; [apply layout_no_panic|]. intros (rl, offs) L. apply bind_no_panic; [apply metadata_no_panic|]. intros meta _. cbn [fst snd].
  rewrite offsets_added; [discriminate|]. intros n o I.
  pose proof (SO fields _ P (table_offsets _ _ _ _ M L n o I)). unfold HEADER_LENGTH. lia.
Qed.

(* an opened reader *)
Lemma opened_state c bytes r : from_read c bytes = Ok r -> (Z.of_nat (length bytes) < 2 ^ 62)%Z ->
  (forall fields o, feature_table c bytes fields -> stated_offset fields o -> (o < 2 ^ 62)%Z) ->
  pr_bytes r = bytes /\ pr_index r = 0 /\ (l_attrs (pr_layout r) <> [] -> good_layout (pr_layout r))
  /\ forall m, In m (l_attrs (pr_layout r)) -> m_size m <= 12 /\ exists o, assoc (m_name m) (pr_offsets r) = Some o /\ (Z.of_nat o < 2 ^ 63 + 28)%Z.
Proof.
  intros F LB SO. unfold from_read in F. destruct (read_header bytes) as [h| |] eqn:RH; cbn [bind] in F; try discriminate. rewrite (header_size _ _ RH) in F.
  set (size := Z.to_nat (u32_at bytes 12)) in *.
  destruct (deser_feature_table_header c (skipn HEADER_LENGTH bytes) size) as [table| |] eqn:D; cbn [bind] in F; try discriminate. destruct (table_read _ _ _ _ D) as (LS & fields & P & M).
  destruct (layout_from_feature_table_header table) as [(rl, offs)| |] eqn:L; cbn [bind] in F; try discriminate.
  destruct (metadata_from_feature_table_header table) as [meta| |]; cbn [bind fst snd] in F; try discriminate.
  assert (OB : forall n o, In (n, o) offs -> (Z.of_nat o < 2 ^ 62)%Z).
  { intros n o I. apply (SO fields _ P). exact (table_offsets _ _ _ _ M L n o I). }
  rewrite offsets_added in F by (intros n o I; pose proof (OB n o I); unfold HEADER_LENGTH; lia). cbn [bind] in F. injection F as <-. cbn [pr_bytes pr_index pr_layout pr_offsets].
  destruct (reader_layout_ok table (reference_cases _ _ _ L)) as (rl' & offs' & L' & (ND & G & RM & _)). rewrite L in L'. injection L' as <- <-.
  split; [reflexivity|]. split; [reflexivity|]. split; [exact G|]. intros m Hm. destruct (RM m Hm) as (SZ & key & o & cc & S & A & AO). split.
  - rewrite SZ. destruct S as [E|[E|[E|[E|[]]]]]; injection E as _ _ <-; cbn; lia.
  - exists (o + (HEADER_LENGTH + size)). split.
    + rewrite (assoc_map (fun o => o + (HEADER_LENGTH + size))), AO. reflexivity.
    + assert (X : (Z.of_nat o < 2 ^ 62)%Z).
      { apply (OB (m_name m) o). revert AO. clear. unfold assoc. destruct (find (fun e => String.eqb (fst e) (m_name m)) offs) as [(k, v)|] eqn:E; [|discriminate]. cbn. intros H. injection H as <-.
        apply find_some in E. destruct E as (I & Q). apply String.eqb_eq in Q. cbn in Q. now subst k. }
      unfold HEADER_LENGTH. lia.
Qed.

(* reading a longer file *)
Lemma foldM_longer {A B} (f g : B -> A -> res B) l : (forall b a, f b a = Err \/ f b a = g b a) -> forall b, foldM f l b = Err \/ foldM f l b = foldM g l b.
Proof.
  intros H. induction l as [|a l IH]; intros b; cbn [foldM]; [now right|]. destruct (H b a) as [E|E]; rewrite E; [now left|]. destruct (g b a); cbn [bind]; auto.
Qed.
Lemma read_at_longer bytes ext p n : read_at bytes p n = Err \/ read_at bytes p n = read_at (bytes ++ ext) p n.
Proof.
  unfold read_at. destruct (Nat.leb_spec (p + n) (length bytes)); [|now left]. right. rewrite app_length. destruct (Nat.leb_spec (p + n) (length bytes + length ext)); [|lia]. f_equal.
  unfold sub. rewrite skipn_app, firstn_app, skipn_length. replace (n - (length bytes - p)) with 0 by lia. now rewrite firstn_O, app_nil_r.
Qed.
Definition longer (r : pnts_reader) (ext : list Z) (num : nat) : pnts_reader :=
  mk_pr (pr_bytes r ++ ext) num (pr_rtc r) (pr_layout r) (pr_index r) (pr_offsets r) (pr_mode r).
Lemma read_attribute_longer r ext num n t b a : read_attribute r n t b a = Err \/ read_attribute r n t b a = read_attribute (longer r ext num) n t b a.
Proof.
  unfold read_attribute, longer. cbn [pr_bytes pr_offsets pr_index]. destruct (get_attribute_by_name t (m_name a)) as [ta|]; [|now right].
  destruct (assoc (m_name a) (pr_offsets r)) as [o|]; cbn [unwrap bind]; [|now right]. destruct (offset_add o (pr_index r * m_size a)) as [cur| |]; cbn [bind]; try (now right).
  destruct (get_converter_for_attributes (m_def a) (m_def ta)) as [[f|]| |]; cbn [bind]; try (now right).
  - match goal with |- (let* st := foldM ?f ?l ?x in _) = Err \/ _ = (let* st := foldM ?g ?l ?x in _) => destruct (foldM_longer f g l) with (b := x) as [E|E] end.
    + intros st i. destruct (read_at_longer (pr_bytes r) ext (cur + i * m_size a) (m_size a)) as [E|E]; rewrite E; auto.
    + rewrite E. now left.
    + rewrite E. now right.
  - apply foldM_longer. intros st i. destruct (read_at_longer (pr_bytes r) ext (cur + i * m_size a) (m_size a)) as [E|E]; rewrite E; auto.
Qed.

Lemma centre_no_panic r b : mb_wf b -> (centre_added r (pr_mode r) <> None -> forall tm, In tm (l_attrs (mb_layout b)) -> m_name tm = "Position3D"%string -> position_prim (m_type tm) <> None) ->
  exists b', (match pr_mode r with Absolute => apply_rtc_center_offset r b | RelativeToCenter => Ok b end) = Ok b'.
Proof.
  intros W PP. unfold centre_added in PP. destruct (pr_mode r); [eauto|]. destruct (pr_rtc r) as [c|] eqn:RC.
  - destruct (centre_moves r b c W RC) as (b' & E & _); eauto. apply PP. discriminate.
  - exists b. unfold apply_rtc_center_offset. now rewrite RC.
Qed.

Lemma read_no_panic c bytes r : from_read c bytes = Ok r -> (Z.of_nat (length bytes) < 2 ^ 62)%Z ->
  (forall fields o, feature_table c bytes fields -> stated_offset fields o -> (o < 2 ^ 62)%Z) ->
  forall i m b count, let n := Nat.min (pr_num r - i) count in
  i <= pr_num r -> (Z.of_nat i < 2 ^ 57)%Z -> (Z.of_nat count < 2 ^ 57)%Z -> fits r m n b ->
  read_into (at_point r i m) b count = Err \/ exists b', read_into (at_point r i m) b count = Ok (n, b', at_point r (i + n) m).
Proof.
  intros F LB SO i m b count n IN I57 C57 FT. destruct (opened_state c bytes r F LB SO) as (EB & _ & G & OFF).
  destruct (Nat.eq_dec n 0) as [Z|NZ]; [left; apply read_into_end; cbn [at_point pr_num pr_index]; exact Z|].
  assert (N57 : (Z.of_nat n < 2 ^ 57)%Z) by (unfold n; lia).
  set (r1 := at_point r i m).
  unfold read_into. change (pr_num r1) with (pr_num r). change (pr_index r1) with i. fold n. destruct (Nat.eqb_spec n 0); [contradiction|].
  destruct FT as (W & LN & RD & PP).
  destruct (l_attrs (pr_layout r)) as [|a0 attrs] eqn:LA.
  - right. change (pr_layout r1) with (pr_layout r). rewrite LA. cbn [foldM bind].
    destruct (centre_no_panic r1 b W) as (b' & E); [exact PP|]. change (pr_mode r1) with m in E |- *. rewrite E. cbn [bind]. exists b'. reflexivity.
  - set (big := repeat 0%Z (Z.to_nat (2 ^ 63 + 28 + 12 * Z.of_nat (i + n)))).
    set (r2 := longer r1 big (i + n)).
    assert (RO : reader_ok r2).
    { split; [apply G; discriminate|]. split; [|cbn; lia]. intros a Ha. change (pr_layout r2) with (pr_layout r) in Ha. rewrite LA in Ha. destruct (OFF a Ha) as (S12 & o & A & OB).
      exists o. split; [exact A|]. change (pr_num r2) with (i + n). change (pr_bytes r2) with (pr_bytes r ++ big). rewrite EB, app_length. unfold big. rewrite repeat_length. split; [|lia]. nia. }
    destruct (read_attributes_ok r2 RO n ltac:(cbn; lia) b W LN RD) as (b1 & E1 & W1 & (SL & _) & _).
    destruct (@foldM_longer member mbuf (read_attribute r1 n (mb_layout b)) (read_attribute r2 n (mb_layout b)) (l_attrs (pr_layout r1)) (fun b0 a => read_attribute_longer r1 big (i + n) n (mb_layout b) b0 a) b) as [E|E].
    + left. now rewrite E.
    + change (pr_layout r2) with (pr_layout r1) in E1. rewrite E1 in E. rewrite E. cbn [bind]. right.
      destruct (centre_no_panic r1 b1 W1) as (b' & E2); [rewrite SL; exact PP|]. change (pr_mode r1) with m in E2 |- *. rewrite E2. cbn [bind]. exists b'. reflexivity.
Qed.

(* seeking in any reader *)
Lemma seek_no_panic r s : (seek_fits (pr_num r) (pr_index r) s \/ (2 ^ 63 <= Z.of_nat (pr_num r))%Z /\ (exists k, s = FromEnd k)) ->
  seek_point r s = Err \/ exists j, j <= pr_num r /\ seek_point r s = Ok (j, at_point r j (pr_mode r)).
Proof.
  intros H. unfold seek_point. assert (X : forall new, (if (new <? 0)%Z then Err else Ok (Z.to_nat (Z.min new (Z.of_nat (pr_num r))), mk_pr (pr_bytes r) (pr_num r) (pr_rtc r) (pr_layout r) (Z.to_nat (Z.min new (Z.of_nat (pr_num r)))) (pr_offsets r) (pr_mode r))) = Err
    \/ exists j, j <= pr_num r /\ (if (new <? 0)%Z then Err else Ok (Z.to_nat (Z.min new (Z.of_nat (pr_num r))), mk_pr (pr_bytes r) (pr_num r) (pr_rtc r) (pr_layout r) (Z.to_nat (Z.min new (Z.of_nat (pr_num r)))) (pr_offsets r) (pr_mode r))) = Ok (j, at_point r j (pr_mode r))).
  { intros new. destruct (Z.ltb_spec new 0); [now left|]. right. exists (Z.to_nat (Z.min new (Z.of_nat (pr_num r)))). split; [lia|reflexivity]. }
  destruct H as [H|(B & k & ->)].
  - destruct s as [k|k|k]; cbn [seek_fits] in H; [cbn [bind]; apply X| |]; unfold add_to_index, i64_add; (destruct (Z.ltb_spec (Z.of_nat (pr_num r)) (2 ^ 63)) || idtac).
    all: match goal with |- context [(?n <? 2 ^ 63)%Z] => idtac | |- _ => idtac end.
    all: repeat match goal with |- context [if ?b then _ else _] => match b with context [(2 ^ 63)%Z] => destruct b eqn:? end end; cbn [bind]; try (now left); try apply X; exfalso; lia.
  - unfold add_to_index. destruct (Z.ltb_spec (Z.of_nat (pr_num r)) (2 ^ 63)); [lia|]. now left.
Qed.
