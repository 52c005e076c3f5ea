(* Opening a PNTS file. *)
From Coq Require Import String List ZArith Lia Bool Arith Permutation SpecFloat.
From Verif Require Import Base LayoutModel LayoutSpec LayoutProofs BufferModel BufferSpec ListLemmas BufferProofs
  TraitModel TraitSpec NumModel NumSpec NumProofs ConvModel ConvSpec MathModel LasIoModel PntsModel PntsSpec PntsProofs PntsProofs2 PntsProofs3 PntsProofs4 PntsProofs5.
Import ListNotations.
Open Scope nat_scope.

(* ---- reading the table ---- *)
Lemma mapM_table {A B} (f : A -> res B) (fields : list (string * A)) : NoDup (map fst fields) ->
  (forall k v, assoc k fields = Some v -> exists u, f v = Ok u) ->
  exists t, mapM (fun e => let* v := f (snd e) in Ok (fst e, v)) fields = Ok t
    /\ forall k, match assoc k fields with Some v => exists u, f v = Ok u /\ assoc k t = Some u | None => assoc k t = None end.
Proof.
  induction fields as [|[k0 v0] fields IH]; cbn [map fst]; intros ND H; [exists []; split; [reflexivity|intros k; reflexivity]|].
  inversion ND as [|? ? NI ND']; subst. destruct (H k0 v0) as [u0 U0]; [unfold assoc; cbn [find fst]; now rewrite String.eqb_refl|].
  destruct IH as (t & E & T); [exact ND'| |].
  - intros k v AS. apply (H k v). unfold assoc in *. cbn [find fst]. destruct (String.eqb_spec k0 k) as [->|]; [|exact AS].
    exfalso. apply NI. apply (assoc_in k v fields ND') in AS. exact (in_map fst _ _ AS).
  - cbn [mapM fst snd]. rewrite U0. cbn [bind]. rewrite E. cbn [bind]. exists ((k0, u0) :: t). split; [reflexivity|].
    intros k. specialize (T k). unfold assoc in *. cbn [find fst]. destruct (String.eqb_spec k0 k) as [->|]; [exists u0; auto|exact T].
Qed.

(* ---- the layout ---- *)
Definition reference_or_none (h : ft_header) (k : string) : Prop :=
  match assoc k h with None | Some (DataReference _ _) => True | _ => False end.
Definition reader_table (l : layout) (offs : list (string * nat)) (h : ft_header) : Prop :=
  NoDup (map m_name (l_attrs l)) /\ (l_attrs l <> [] -> good_layout l)
  /\ (forall m, In m (l_attrs l) -> m_size m = dt_size (m_type m) /\ exists key o c, semantic (m_name m) key (m_type m) /\ assoc key h = Some (DataReference o c) /\ assoc (m_name m) offs = Some o)
  /\ (forall nm key t o c, semantic nm key t -> assoc key h = Some (DataReference o c) -> exists m, In m (l_attrs l) /\ m_name m = nm /\ m_type m = t).

Definition present (h : ft_header) (e : string * attr_def) : bool := match assoc (fst e) h with Some _ => true | None => false end.
Definition entry_offset (h : ft_header) (e : string * attr_def) : nat := match assoc (fst e) h with Some (DataReference o _) => o | _ => 0 end.

Lemma layout_fold h es : (forall e, In e es -> reference_or_none h (fst e)) -> forall l offs,
  foldM (layout_step h) es (l, offs) =
  (let* l' := foldM (fun l e => add_attribute l (snd e) (Packed 1)) (filter (present h) es) l in
   Ok (l', offs ++ map (fun e => (ad_name (snd e), entry_offset h e)) (filter (present h) es))).
Proof.
  induction es as [|e es IH]; intros H l offs; cbn [foldM filter]; [cbn [map bind]; now rewrite app_nil_r|].
  pose proof (H e (or_introl eq_refl)) as R. unfold reference_or_none in R. assert (PE : present h e = match assoc (fst e) h with Some _ => true | None => false end) by reflexivity. unfold layout_step at 1. destruct (assoc (fst e) h) as [[v|v|o c]|] eqn:E; try (destruct R); rewrite PE.
  - cbn [fst snd]. cbn [foldM map]. destruct (add_attribute l (snd e) (Packed 1)) as [l1| |]; cbn [bind]; [|reflexivity|reflexivity].
    rewrite IH by (intros x Hx; apply H; now right). destruct (foldM _ _ l1) as [l2| |]; cbn [bind]; [|reflexivity|reflexivity]. do 2 f_equal. rewrite <- app_assoc. cbn [app].
    assert (EO : entry_offset h e = o) by (unfold entry_offset; now rewrite E). now rewrite EO.
  - apply IH. intros x Hx. apply H. now right.
Qed.

Definition subsets : list (list (string * attr_def)) :=
  flat_map (fun a => flat_map (fun b => flat_map (fun c => map (fun d => a ++ b ++ c ++ d) [[]; [nth 3 reader_attributes (""%string, NORMAL)]])
    [[]; [nth 2 reader_attributes (""%string, NORMAL)]]) [[]; [nth 1 reader_attributes (""%string, NORMAL)]]) [[]; [nth 0 reader_attributes (""%string, NORMAL)]].
Lemma subset_of (f : string * attr_def -> bool) : In (filter f reader_attributes) subsets.
Proof.
  unfold reader_attributes. cbn [filter]. repeat match goal with |- context [if f ?x then _ else _] => destruct (f x) end;
  unfold subsets, reader_attributes; cbn [flat_map map app nth In]; tauto.
Qed.
Lemma subsets_ok : forallb (fun es => is_ok (foldM (fun l e => add_attribute l (snd e) (Packed 1)) es layout_default)) subsets = true.
Proof. vm_compute. reflexivity. Qed.

Lemma reader_semantic e : In e reader_attributes -> semantic (ad_name (snd e)) (fst e) (ad_type (snd e)).
Proof. intros [<-|[<-|[<-|[<-|[]]]]]; unfold semantic, semantics_table; cbn; tauto. Qed.
Lemma semantic_reader n key t : semantic n key t -> In (key, mk_def n t) reader_attributes.
Proof. intros [E|[E|[E|[E|[]]]]]; injection E as <- <- <-; cbn; tauto. Qed.
Lemma reader_names : NoDup (map (fun e => ad_name (snd e)) reader_attributes).
Proof. unfold reader_attributes. cbn [map snd ad_name POSITION_3D COLOR_RGBA COLOR_RGB NORMAL]. repeat (constructor; [cbn [In]; intros H; decompose [or] H; try discriminate; auto|]). constructor. Qed.
Lemma NoDup_map_filter {A B} (g : A -> B) f l : NoDup (map g l) -> NoDup (map g (filter f l)).
Proof.
  induction l as [|a l IH]; cbn [map filter]; intros N; [constructor|]. inversion N as [|? ? NI N']; subst. destruct (f a); [|auto]. cbn [map]. constructor; [|auto].
  intros H. apply NI. apply in_map_iff in H. destruct H as (x & E & Hx). apply filter_In in Hx. rewrite <- E. now apply in_map.
Qed.

(* the offsets are those of the table *)
Lemma reader_offsets h l offs : layout_from_feature_table_header h = Ok (l, offs) ->
  forall n o, In (n, o) offs -> exists e c, In e reader_attributes /\ n = ad_name (snd e) /\ assoc (fst e) h = Some (DataReference o c).
Proof.
  unfold layout_from_feature_table_header.
  assert (X : forall es st st', (forall e, In e es -> In e reader_attributes) -> foldM (layout_step h) es st = Ok st' ->
    (forall n o, In (n, o) (snd st) -> exists e c, In e reader_attributes /\ n = ad_name (snd e) /\ assoc (fst e) h = Some (DataReference o c)) ->
    forall n o, In (n, o) (snd st') -> exists e c, In e reader_attributes /\ n = ad_name (snd e) /\ assoc (fst e) h = Some (DataReference o c)).
  { induction es as [|e es IH]; intros st st' SUB F A; cbn [foldM] in F; [now injection F as <-|].
    destruct (layout_step h st e) as [st1| |] eqn:S; cbn [bind] in F; try discriminate. apply (IH st1 st'); [intros x Hx; apply SUB; now right|exact F|].
    unfold layout_step in S. destruct (assoc (fst e) h) as [[v|v|o c]|] eqn:E; try discriminate; [|now injection S as <-].
    destruct (add_attribute (fst st) (snd e) (Packed 1)) as [l1| |]; cbn [bind] in S; try discriminate. injection S as <-. cbn [snd].
    intros n o' H. apply in_app_or in H. destruct H as [H|[H|[]]]; [now apply A|]. injection H as <- <-. exists e, c. split; [apply SUB; now left|auto]. }
  intros F. apply (X reader_attributes (layout_default, []) (l, offs)); auto. intros n o [].
Qed.
Lemma offsets_added (offs : list (string * nat)) body : (forall n o, In (n, o) offs -> (Z.of_nat o + Z.of_nat body < 2 ^ 64)%Z) ->
  mapM (fun e => let* o := offset_add (snd e) body in Ok (fst e, o)) offs = Ok (map (fun e => (fst e, snd e + body)) offs).
Proof.
  induction offs as [|(n, o) offs IH]; intros H; cbn [mapM map fst snd]; [reflexivity|]. unfold offset_add at 1.
  destruct (Z.ltb_spec (Z.of_nat o + Z.of_nat body) (2 ^ 64)) as [_|B]; [|pose proof (H n o (or_introl eq_refl)); lia]. cbn [bind].
  rewrite IH by (intros n' o' I; apply (H n' o'); now right). reflexivity.
Qed.

Lemma reader_layout_ok h : (forall e, In e reader_attributes -> reference_or_none h (fst e)) ->
  exists l offs, layout_from_feature_table_header h = Ok (l, offs) /\ reader_table l offs h.
Proof.
  intros H. unfold layout_from_feature_table_header. rewrite (layout_fold h _ H). set (es := filter (present h) reader_attributes).
  pose proof subsets_ok as S. rewrite forallb_forall in S. specialize (S es (subset_of _)). destruct (foldM _ es layout_default) as [l| |] eqn:E; try discriminate S. cbn [bind].
  exists l. eexists. split; [reflexivity|]. cbn [app].
  assert (HI : add_history (map (fun e => (snd e, Packed 1)) es) = Ok l) by (unfold add_history; rewrite foldM_map; exact E).
  destruct (grown_layout _ _ HI) as (D & ND & SZ & _). rewrite map_map in D. cbn [fst] in D. change (fun x : string * attr_def => snd x) with (@snd string attr_def) in D.
  assert (EI : forall e, In e es -> In e reader_attributes) by (intros e He; apply filter_In in He; exact (proj1 He)).
  assert (ME : forall m, In m (l_attrs l) -> exists e, In e es /\ m_def m = snd e).
  { intros m Hm. assert (X : In (m_def m) (map snd es)) by (rewrite <- D; now apply in_map). apply in_map_iff in X. destruct X as (e & Q & He). exists e. auto. }
  assert (NDO : NoDup (map fst (map (fun e => (ad_name (snd e), entry_offset h e)) es))).
  { rewrite map_map. cbn [fst]. apply NoDup_map_filter. exact reader_names. }
  split; [exact ND|]. split; [|split].
  - intros NE. apply (grown_good _ _ HI).
    + intros X. apply map_eq_nil in X. rewrite X in D. cbn [map] in D. apply map_eq_nil in D. contradiction.
    + intros a fa X. apply in_map_iff in X. destruct X as (e & Q & He). injection Q as <- _. destruct (EI e He) as [<-|[<-|[<-|[<-|[]]]]]; cbn; lia.
  - intros m Hm. split; [exact (SZ m Hm)|]. destruct (ME m Hm) as (e & He & Q). pose proof (reader_semantic e (EI e He)) as SM. apply filter_In in He. destruct He as (He1 & He2).
    unfold present in He2. pose proof (H e He1) as R. unfold reference_or_none in R. destruct (assoc (fst e) h) as [[v|v|o c]|] eqn:A; try (destruct R); [|discriminate He2].
    exists (fst e), o, c. unfold m_name, m_type. rewrite Q. split; [exact SM|]. split; [exact A|]. apply (assoc_in _ _ _ NDO). apply in_map_iff. exists e. split.
    + unfold entry_offset. now rewrite A.
    + apply filter_In. split; [exact He1|]. unfold present. now rewrite A.
  - intros nm key t o c SM A. pose proof (semantic_reader _ _ _ SM) as He. assert (X : In (mk_def nm t) (map m_def (l_attrs l))).
    { rewrite D. apply in_map_iff. exists (key, mk_def nm t). split; [reflexivity|]. apply filter_In. split; [exact He|]. unfold present. cbn [fst]. now rewrite A. }
    apply in_map_iff in X. destruct X as (m & Q & Hm). exists m. unfold m_name, m_type. rewrite Q. auto.
Qed.

