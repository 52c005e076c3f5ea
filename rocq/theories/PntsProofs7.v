(* The reader opened on a PNTS file holds its points. *)
From Coq Require Import String List ZArith Lia Bool Arith Permutation SpecFloat.
From Verif Require Import Base LayoutModel LayoutSpec LayoutProofs BufferModel BufferSpec ListLemmas BufferProofs
  TraitModel TraitSpec NumModel NumSpec NumProofs ConvModel ConvSpec MathModel LasIoModel PntsModel PntsSpec PntsProofs PntsProofs2 PntsProofs3 PntsProofs4 PntsProofs5 PntsProofs6.
Import ListNotations.
Open Scope nat_scope.

(* what is at a place of the file after the header *)
Lemma sub_after (file a b rest : list Z) h i k : skipn h file = a ++ b ++ rest -> i + k <= length b -> sub file (h + length a + i) k = sub b i k.
Proof.
  intros E L. unfold sub. replace (h + length a + i) with ((length a + i) + h) by lia. rewrite <- ListLemmas.skipn_skipn, E, skipn_app.
  rewrite skipn_all2 by lia. cbn [app]. replace (length a + i - length a) with i by lia. rewrite skipn_app, firstn_app, skipn_length.
  replace (k - (length b - i)) with 0 by lia. cbn [firstn]. now rewrite app_nil_r.
Qed.

Lemma reference_read o : (Z.of_nat o < 2 ^ 64)%Z -> ft_value_of_json (JObj [("byteOffset"%string, JInt (Z.of_nat o))]) = Ok (DataReference o None).
Proof.
  intros B. unfold ft_value_of_json, data_reference_of. change (assoc "byteOffset" [("byteOffset"%string, JInt (Z.of_nat o))]) with (Some (JInt (Z.of_nat o))). cbv iota.
  change (assoc "componentType" [("byteOffset"%string, JInt (Z.of_nat o))]) with (@None json). cbv iota. unfold as_u64.
  replace ((0 <=? Z.of_nat o) && (Z.of_nat o <? 2 ^ 64))%Z with true by (symmetry; apply andb_true_iff; split; [apply Z.leb_le|apply Z.ltb_lt]; lia). now rewrite Nat2Z.id.
Qed.

Lemma opened_body c l centre ps file : pnts_file c l centre ps file -> good_layout l -> pnts_ready l ->
  exists r, from_read c file = Ok r /\ holds r l ps
    /\ (forall m, In m (l_attrs (pr_layout r)) -> exists o, assoc (m_name m) (pr_offsets r) = Some o
          /\ o + pr_num r * m_size m <= 28 + Z.to_nat (u32_at file 12) + Z.to_nat (u32_at file 16))
    /\ (28 + Z.to_nat (u32_at file 12) + Z.to_nat (u32_at file 16) <= length file /\ (Z.of_nat (length file) < 2 ^ 64)%Z)
    /\ good_layout (pr_layout r)
    /\ pr_bytes r = file /\ pr_rtc r = centre /\ pr_index r = 0 /\ pr_mode r = Absolute.
Proof.
  intros (fj & fb & bj & bb & fields & SEC & PF & ND & KEYS & NUM & RTC & COL & _) G RD.
  destruct SEC as (MG & _ & SK & LEN & SMALL & BL & H12 & H16 & _ & _ & _ & _).
  unfold from_read, read_header. replace (length file <? HEADER_LENGTH) with false by (symmetry; apply Nat.ltb_ge; unfold HEADER_LENGTH; lia).
  destruct (list_eq_dec Z.eq_dec (sub file 0 4) PNTS_MAGIC) as [_|NM]; [|destruct (NM MG)]. cbn [bind ph_ft_json]. fold (u32_at file 12). rewrite H12, Nat2Z.id.
  unfold deser_feature_table_header, read_json_header. change (skipn HEADER_LENGTH file) with (skipn 28 file). rewrite SK.
  replace (length fj <=? length (fj ++ fb ++ bj ++ bb)) with true by (symmetry; apply Nat.leb_le; rewrite app_length; lia).
  rewrite firstn_app, Nat.sub_diag, firstn_O, app_nil_r, firstn_all, PF. cbn [bind].
  (* the entries *)
  assert (OFF : forall m key t, In m (l_attrs l) -> semantic (m_name m) key t ->
     exists o, assoc key fields = Some (JObj [("byteOffset"%string, JInt (Z.of_nat o))]) /\ (Z.of_nat o < 2 ^ 64)%Z /\ o + length ps * dt_size t <= length fb
       /\ forall i p, nth_error ps i = Some p -> value_as (m_type m) t (attr_value m p) = Some (sub fb (o + i * dt_size t) (dt_size t))).
  { intros m key t Hm S. destruct (COL m key t Hm S) as (o & TO & (_ & B & V)). exists o. split; [exact TO|]. split; [lia|auto]. }
  assert (NB : (Z.of_nat (length ps) < 2 ^ 64)%Z).
  { destruct RD as ((m & key & t & Hm & S) & _). destruct (OFF m key t Hm S) as (o & _ & _ & B & _).
    assert (0 < dt_size t) by (destruct S as [E|[E|[E|[E|[]]]]]; injection E as _ _ <-; cbn; lia). nia. }
  destruct (mapM_table ft_value_of_json fields ND) as (table & ET & TB).
  { intros k v A. assert (K : In k (map fst fields)) by (apply (assoc_in _ _ _ ND) in A; exact (in_map fst _ _ A)). destruct (KEYS k K) as [->|[->|(m & t & Hm & S)]].
    - unfold table_number in NUM. rewrite NUM in A. injection A as <-. eexists. reflexivity.
    - rewrite RTC in A. destruct centre; [|discriminate A]. injection A as <-. eexists. reflexivity.
    - destruct (OFF m k t Hm S) as (o & A' & B & _). rewrite A' in A. injection A as <-. exists (DataReference o None). now apply reference_read. }
  rewrite ET. cbn [bind].
  assert (REF : forall m key t, In m (l_attrs l) -> semantic (m_name m) key t -> exists o, assoc key table = Some (DataReference o None)
      /\ o + length ps * dt_size t <= length fb /\ forall i p, nth_error ps i = Some p -> value_as (m_type m) t (attr_value m p) = Some (sub fb (o + i * dt_size t) (dt_size t))).
  { intros m key t Hm S. destruct (OFF m key t Hm S) as (o & A & B & B' & V). exists o. split; [|auto]. specialize (TB key). rewrite A in TB. destruct TB as (u & U & AU).
    rewrite (reference_read o B) in U. now injection U as <-. }
  assert (ABS : forall key, ~ In key (map fst fields) -> assoc key table = None).
  { intros key K. specialize (TB key). apply assoc_none in K. now rewrite K in TB. }
  assert (SEM : forall key n t, semantic n key t -> assoc key table <> None -> exists m, In m (l_attrs l) /\ m_name m = n).
  { intros key n t S NE. destruct (in_dec string_dec key (map fst fields)) as [K|K]; [|destruct (NE (ABS key K))].
    destruct (KEYS key K) as [->|[->|(m & t' & Hm & S')]]; [destruct S as [E|[E|[E|[E|[]]]]]; discriminate E|destruct S as [E|[E|[E|[E|[]]]]]; discriminate E|].
    exists m. split; [exact Hm|]. exact (semantic_key_inj _ _ _ _ _ S' S). }
  destruct (reader_layout_ok table) as (rl & offs & EL & (NDR & GR & RM & RC)).
  { intros e He. unfold reference_or_none. pose proof (reader_semantic e He) as S. destruct (assoc (fst e) table) as [u|] eqn:A; [|exact I].
    destruct (SEM _ _ _ S) as (m & Hm & NM); [rewrite A; discriminate|]. rewrite <- NM in S. destruct (REF m _ _ Hm S) as (o & A' & _). rewrite A' in A. now injection A as <-. }
  rewrite EL. cbn [bind fst snd].
  assert (META : metadata_from_feature_table_header table = Ok (length ps, centre)).
  { unfold metadata_from_feature_table_header, number_entry at 1. pose proof (TB "POINTS_LENGTH"%string) as T1. unfold table_number in NUM. rewrite NUM in T1. destruct T1 as (u & U & ->).
    cbn [ft_value_of_json] in U. injection U as <-. unfold as_u64. replace ((0 <=? Z.of_nat (length ps)) && (Z.of_nat (length ps) <? 2 ^ 64))%Z with true by (symmetry; apply andb_true_iff; split; [apply Z.leb_le|apply Z.ltb_lt]; lia).
    cbn [bind]. rewrite Nat2Z.id.
    assert (RT : array_entry table "RTC_CENTER" json_arr_to_vec3f64 = Ok centre).
    { unfold array_entry. pose proof (TB "RTC_CENTER"%string) as T2. rewrite RTC in T2. destruct centre as [v|]; cbn [option_map] in T2; [|now rewrite T2]. destruct T2 as (u & U & ->).
      cbn [ft_value_of_json] in U. injection U as <-. unfold json_arr_to_vec3f64. cbn [map as_f64 bind]. now destruct v. }
    rewrite RT. cbn [bind].
    assert (AB : forall key, key <> "POINTS_LENGTH"%string -> key <> "RTC_CENTER"%string -> (forall n t, ~ semantic n key t) -> assoc key table = None).
    { intros key N1 N2 N3. apply ABS. intros K. destruct (KEYS key K) as [->|[->|(m & t & _ & S)]]; [now apply N1|now apply N2|exact (N3 _ _ S)]. }
    unfold array_entry, number_entry. rewrite !AB; try discriminate; try (intros n t S; destruct S as [E|[E|[E|[E|[]]]]]; discriminate E). reflexivity. }
  rewrite META. cbn [bind fst snd]. rewrite offsets_added.
  2: { intros n o I. destruct (reader_offsets _ _ _ EL n o I) as (e & c' & He & -> & A). pose proof (reader_semantic e He) as S.
       destruct (SEM _ _ _ S) as (m & Hm & NM); [rewrite A; discriminate|]. rewrite <- NM in S. destruct (REF m _ _ Hm S) as (o2 & A2 & B & _). rewrite A in A2. injection A2 as <- _.
       unfold HEADER_LENGTH. lia. }
  cbn [bind]. eexists. split; [reflexivity|]. unfold holds, file_value. rewrite H16, !Nat2Z.id. cbn [pr_num pr_layout pr_bytes pr_offsets pr_rtc pr_index pr_mode].
  assert (OA : forall n, assoc n (map (fun e : string * nat => (fst e, snd e + (HEADER_LENGTH + length fj))) offs) = option_map (fun o => o + (28 + length fj)) (assoc n offs)) by (intros n; apply (assoc_map (fun o => o + (28 + length fj)))).
  split; [split; [reflexivity|split]|split; [|split; [lia|split; [|auto]]]].
  - intros m key t Hm S. destruct (REF m key t Hm S) as (o & A & B & V). destruct (RC (m_name m) key t o None S A) as (rm & Hr & N1 & T1). exists rm. split; [exact Hr|]. split; [exact N1|]. split; [exact T1|].
    intros i p Hp. rewrite (V i p Hp). f_equal. destruct (RM rm Hr) as (SZ & key' & o' & c' & S' & A' & AO). rewrite OA, AO. cbn [option_map]. rewrite N1 in S'. rewrite T1 in SZ, S'.
    assert (key' = key) as ->.
    { pose proof (semantic_key _ _ _ S' t) as Q1. pose proof (semantic_key _ _ _ S t) as Q2. rewrite Q1 in Q2. now injection Q2. }
    rewrite A in A'. injection A' as <- _. rewrite SZ. apply nth_error_lt in Hp. symmetry. replace (o + (28 + length fj) + i * dt_size t) with (28 + length fj + (o + i * dt_size t)) by lia.
    apply (sub_after file fj fb (bj ++ bb)); [exact SK|]. nia.
  - intros rm Hr. destruct (RM rm Hr) as (SZ & key & o & c' & S & A & AO). destruct (SEM _ _ _ S) as (m & Hm & NM); [rewrite A; discriminate|]. exists m, key. rewrite NM. auto.
  - intros rm Hr. destruct (RM rm Hr) as (SZ & key & o' & c' & S & A & AO'). exists (o' + (28 + length fj)). rewrite OA, AO'. split; [reflexivity|]. destruct (SEM _ _ _ S) as (m & Hm & NM); [rewrite A; discriminate|].
    rewrite <- NM in S. destruct (REF m _ _ Hm S) as (o2 & A2 & B & _). rewrite A in A2. injection A2 as -> _. rewrite SZ. lia.
  - apply GR. destruct RD as ((m & key & t & Hm & S) & _). destruct (REF m key t Hm S) as (o & A & _). destruct (RC _ _ _ _ _ S A) as (rm & Hr & _). intros X. rewrite X in Hr. destruct Hr.
Qed.
Lemma opened_file c l centre ps file : pnts_file c l centre ps file -> good_layout l -> pnts_ready l ->
  exists r, from_read c file = Ok r /\ holds r l ps /\ complete r /\ good_layout (pr_layout r)
    /\ pr_bytes r = file /\ pr_rtc r = centre /\ pr_index r = 0 /\ pr_mode r = Absolute.
Proof.
  intros F G RD. destruct (opened_body c l centre ps file F G RD) as (r & E & H & B & (L1 & L2) & R). exists r. split; [exact E|]. split; [exact H|]. split; [|exact R].
  destruct R as (_ & BY & _). intros m I. destruct (B m I) as (o & A & L). exists o. rewrite BY. split; [exact A|]. split; [lia|exact L2].
Qed.
