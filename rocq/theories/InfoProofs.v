(* The info tool: reading into an empty buffer panics. *)
From Coq Require Import String List ZArith Lia Bool Arith SpecFloat.
From Verif Require Import Base LayoutModel LayoutSpec LayoutProofs BufferModel BufferSpec ListLemmas BufferProofs TraitModel TraitSpec NumModel ConvModel ConvSpec ConvProofs5 MathModel MathSpec
  LasModel LasIoModel LasIoSpec LasIoProofs6 LasIoProofs9 LasIoProofs11 PntsModel PntsSpec PntsProofs2 PntsProofs10 InfoModel.
Import ListNotations.
Open Scope nat_scope.

Lemma chunks_pos total size : 0 < size -> 0 < total -> 0 < Nat.div (total + size - 1) size.
Proof. intros S T. apply Nat.div_str_pos. lia. Qed.
Lemma first_panics chunk size total r0 r l : 0 < size -> 0 < total -> generic_point_count r0 = Ok (r, total) -> default_layout r = l ->
  generic_read_into chunk r (VecB (vb_new l)) (Nat.min size total) = Panic -> analyze_file chunk size r0 = Panic.
Proof.
  intros S T C L R. unfold analyze_file. rewrite C. cbn [bind]. destruct (Nat.eqb_spec total 0); [lia|]. rewrite L.
  pose proof (chunks_pos total size S T) as P. set (k := Nat.div (total + size - 1) size) in *. unfold range. replace (k - 0) with (Datatypes.S (k - 1)) by lia. cbn [seq foldM].
  unfold analyze_chunk at 1. change (vb_clear (vb_new l)) with (vb_new l). cbn [Nat.mul]. rewrite Nat.sub_0_r, R. reflexivity.
Qed.
Lemma las_panics f raw exact r chunk size : file_ok f raw -> l_size raw <= chunk -> (Z.of_nat (List.length (records f)) < 2 ^ 63)%Z -> open_reader f exact = Ok r ->
  records f <> [] -> 0 < size -> analyze_file chunk size (OfLas r) = Panic.
Proof.
  intros FO CH B O N S. destruct (cursor f raw chunk exact r [] FO CH B O I) as (r' & es & last & E & _ & _ & PC). cbn [run_reader] in E. inversion E; subst r' es.
  assert (T : 0 < List.length (records f)) by (destruct (records f); [now elim N|cbn; lia]).
  apply (first_panics chunk size (List.length (records f)) (OfLas r) (OfLas r) (r_layout r)); auto.
  - unfold generic_point_count. rewrite PC. reflexivity.
  - unfold generic_read_into, las_read_into. change (mb_len (VecB (vb_new (r_layout r)))) with 0. destruct (Nat.leb_spec (Nat.min size (List.length (records f))) 0); [lia|]. reflexivity.
Qed.
Lemma las_empty f raw exact r chunk size : file_ok f raw -> l_size raw <= chunk -> open_reader f exact = Ok r -> records f = [] -> analyze_file chunk size (OfLas r) = Ok [].
Proof.
  intros FO CH O N. destruct (cursor f raw chunk exact r [] FO CH ltac:(rewrite N; cbn; lia) O I) as (r' & es & last & E & _ & _ & PC). cbn [run_reader] in E. inversion E; subst r' es.
  unfold analyze_file, generic_point_count. rewrite PC, N. reflexivity.
Qed.

(* PNTS: the attributes of an opened file *)
Lemma opened_layout c bytes r : from_read c bytes = Ok r -> pr_index r = 0 /\ pr_mode r = Absolute /\ forall m, In m (l_attrs (pr_layout r)) -> 0 < m_size m.
Proof.
  unfold from_read. destruct (read_header bytes); try discriminate. cbn [bind]. destruct (deser_feature_table_header _ _ _) as [t| |]; try discriminate. cbn [bind].
  destruct (layout_from_feature_table_header t) as [st| |] eqn:E; try discriminate. cbn [bind]. destruct (metadata_from_feature_table_header t); try discriminate. cbn [bind]. destruct (mapM _ (snd st)); try discriminate. cbn [bind]. intros H. injection H as <-. cbn [pr_index pr_mode pr_layout].
  split; auto. split; auto. unfold layout_from_feature_table_header in E.
  assert (X : forall es st0 st, (forall e, In e es -> 0 < dt_size (ad_type (snd e))) -> (forall m, In m (l_attrs (fst st0)) -> 0 < m_size m) -> foldM (layout_step t) es st0 = Ok st -> forall m, In m (l_attrs (fst st)) -> 0 < m_size m).
  { clear. induction es as [|e es IH]; intros st0 st P A F; cbn [foldM] in F; [now inversion F; subst|].
    destruct (layout_step t st0 e) as [st1| |] eqn:S; try discriminate. cbn [bind] in F. apply (IH st1 st); auto; [intros x Hx; apply P; now right|].
    unfold layout_step in S. destruct (assoc (fst e) t) as [[| |o]|]; try discriminate; [|inversion S; subst; auto].
    destruct (add_attribute (fst st0) (snd e) (Packed 1)) as [l| |] eqn:AA; try discriminate. cbn [bind] in S. inversion S; subst st1. cbn [fst]. unfold add_attribute in AA.
    destruct (get_attribute_by_name (fst st0) (ad_name (snd e))); try discriminate. cbv zeta in AA. destruct (mem_layout_ok _ _); try discriminate. injection AA as <-. cbn [l_attrs]. intros m Hm. apply in_app_or in Hm. destruct Hm as [Hm|[<-|[]]]; auto. cbn [m_size]. apply P. now left. }
  apply (X reader_attributes (layout_default, []) st); auto.
  - intros e He. cbn in He. repeat (destruct He as [<-|He]; [cbn; lia|]). destruct He.
  - intros m [].
Qed.
Lemma pnts_count r : (Z.of_nat (pr_num r) < 2 ^ 63)%Z -> pr_index r <= pr_num r -> generic_point_count (OfPnts r) = Ok (OfPnts r, pr_num r).
Proof.
  intros B I. assert (R : r = at_point r (pr_index r) (pr_mode r)) by (destruct r; reflexivity).
  unfold generic_point_count. rewrite R at 1. rewrite (seek_ok r (pr_index r) (pr_mode r) (FromCurrent 0)); [|unfold seek_fits; lia|auto|auto].
  unfold target at 1. destruct (Z.ltb_spec (Z.of_nat (pr_index r) + 0) 0); [lia|]. replace (Nat.min (pr_num r) (Z.to_nat (Z.of_nat (pr_index r) + 0))) with (pr_index r) by lia. cbn [bind].
  rewrite (seek_ok r (pr_index r) (pr_mode r) (FromEnd 0)); [|unfold seek_fits; lia|auto|auto]. unfold target at 1. destruct (Z.ltb_spec (Z.of_nat (pr_num r) + 0) 0); [lia|].
  replace (Nat.min (pr_num r) (Z.to_nat (Z.of_nat (pr_num r) + 0))) with (pr_num r) by lia. cbn [bind].
  rewrite (seek_ok r (pr_num r) (pr_mode r) (FromStart (Z.of_nat (pr_index r)))); [|unfold seek_fits; lia|auto|auto]. unfold target. destruct (Z.ltb_spec (Z.of_nat (pr_index r)) 0); [lia|].
  replace (Nat.min (pr_num r) (Z.to_nat (Z.of_nat (pr_index r)))) with (pr_index r) by lia. cbn [bind]. destruct r; reflexivity.
Qed.
Lemma pnts_panics c bytes r chunk size : from_read c bytes = Ok r -> reader_ok r -> (Z.of_nat (pr_num r) < 2 ^ 63)%Z -> 0 < pr_num r -> l_attrs (pr_layout r) <> [] -> 0 < size ->
  analyze_file chunk size (OfPnts r) = Panic.
Proof.
  intros O (G & CP & _) B T N S. destruct (opened_layout c bytes r O) as (I0 & M & SZ).
  apply (first_panics chunk size (pr_num r) (OfPnts r) (OfPnts r) (pr_layout r)); auto; [apply pnts_count; auto; lia|].
  unfold generic_read_into, read_into. rewrite I0, Nat.sub_0_r. set (n := Nat.min (pr_num r) (Nat.min size (pr_num r))). assert (P : 0 < n) by lia. destruct (Nat.eqb_spec n 0); [lia|].
  change (mb_layout (VecB (vb_new (pr_layout r)))) with (pr_layout r). destruct (l_attrs (pr_layout r)) as [|m ms] eqn:LA; [now elim N|]. cbn [foldM].
  assert (IM : In m (l_attrs (pr_layout r))) by (rewrite LA; now left). destruct (CP m IM) as (o & AO & LE).
  assert (X : read_attribute r n (pr_layout r) (VecB (vb_new (pr_layout r))) m = Panic).
  { unfold read_attribute. assert (GN : get_attribute_by_name (pr_layout r) (m_name m) = Some m) by (apply get_by_name_spec; [apply G|auto]). rewrite GN, AO. cbn [unwrap bind].
    unfold offset_add. rewrite I0. cbn [Nat.mul]. destruct (Z.ltb_spec (Z.of_nat o + Z.of_nat 0) (2 ^ 64)); [|lia]. cbn [bind].
    rewrite (converter_none (m_def m) (m_def m) eq_refl eq_refl). cbn [bind]. unfold range. replace (n - 0) with (Datatypes.S (n - 1)) by lia. cbn [seq foldM].
    unfold read_at. cbn [Nat.mul]. rewrite !Nat.add_0_r. assert (m_size m <= pr_num r * m_size m) by nia. destruct (Nat.leb_spec (o + m_size m) (List.length (pr_bytes r))); [|lia]. cbn [bind].
    cbn [mb_set_attribute]. unfold vb_set_attribute. change (vb_layout (vb_new (pr_layout r))) with (pr_layout r). change (get_attribute (pr_layout r) (m_def m)) with (member_of (pr_layout r) (m_def m)).
    rewrite (member_of_In (pr_layout r) m G IM). cbn [unwrap bind]. unfold slice_set, slice_get. change (vb_storage (vb_new (pr_layout r))) with (@nil Z). cbn [List.length].
    pose proof (SZ m (or_introl eq_refl)). destruct (Nat.leb_spec (vb_attr_start (vb_new (pr_layout r)) 0 m + m_size m) 0); [lia|]. rewrite andb_false_r. reflexivity. }
  rewrite X. reflexivity.
Qed.
(* a file without points *)
Definition las_file0 : las_file := let h := f_header las_file2 in mk_file false (mk_header (h_format h) (h_entries h) (h_tr h) 0 (repeat 0%Z 15) 0 (repeat 0%Z 5) (h_min h) (h_max h)) [].
Lemma file0_ok : file_ok las_file0 raw0 /\ records las_file0 = [].
Proof.
  pose proof (proj1 (proj2 file2_ok)) as (A & B & C & D & E & F & _). split; [|reflexivity]. split; [exact A|]. split; [exact B|]. split; [exact C|]. split; [exact D|]. split; [exact E|]. split; [exact F|].
  split; [vm_compute; discriminate|]. split; [apply le_n|discriminate].
Qed.
