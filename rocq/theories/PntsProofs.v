(* The layout of the cached points of a PNTS writer. *)
From Coq Require Import String List ZArith Lia Bool Arith Permutation SpecFloat.
From Verif Require Import Base LayoutModel LayoutSpec LayoutProofs BufferModel BufferSpec ListLemmas BufferProofs TraitModel TraitSpec
  NumModel NumSpec ConvModel ConvSpec ConvProofs2 ConvProofs5 MathModel LasIoModel AsciiProofs7 PntsModel PntsSpec.
Import ListNotations.
Open Scope nat_scope.

Definition file_type (n : string) : option datatype := assoc n supported_attributes.
Definition file_def (m : member) : list attr_def :=
  match file_type (m_name m) with Some t => [mk_def (m_name m) t] | None => [] end.
Definition file_defs (ms : list member) : list attr_def := flat_map file_def ms.

Lemma semantic_type n key t : semantic n key t -> file_type n = Some t.
Proof. intros [E|[E|[E|[E|[]]]]]; injection E as <- <- <-; reflexivity. Qed.
Lemma semantic_key n key t : semantic n key t -> forall ty, semantics_name (mk_def n ty) = Some key.
Proof. intros [E|[E|[E|[E|[]]]]]; injection E as <- <- <-; reflexivity. Qed.
Lemma type_semantic n t : file_type n = Some t -> exists key, semantic n key t.
Proof.
  unfold file_type, assoc, supported_attributes, semantic, semantics_table. cbn [find fst].
  destruct (String.eqb_spec (ad_name POSITION_3D) n) as [<-|]; [intros [= <-]; eexists; left; reflexivity|].
  destruct (String.eqb_spec (ad_name COLOR_RGB) n) as [<-|]; [intros [= <-]; eexists; right; left; reflexivity|].
  destruct (String.eqb_spec (ad_name COLOR_RGBA) n) as [<-|]; [intros [= <-]; eexists; right; right; left; reflexivity|].
  destruct (String.eqb_spec (ad_name NORMAL) n) as [<-|]; [intros [= <-]; eexists; right; right; right; left; reflexivity|]. discriminate.
Qed.
Lemma semantic_fun n key t key' t' : semantic n key t -> semantic n key' t' -> key = key' /\ t = t'.
Proof.
  intros A B. split.
  - pose proof (semantic_key _ _ _ A U8) as X. rewrite (semantic_key _ _ _ B U8) in X. congruence.
  - apply semantic_type in A, B. congruence.
Qed.
Lemma semantic_key_inj n key t n' t' : semantic n key t -> semantic n' key t' -> n = n'.
Proof.
  intros [E|[E|[E|[E|[]]]]] [F|[F|[F|[F|[]]]]]; injection E as E1 E2 E3; injection F as F1 F2 F3; first [congruence | (rewrite <- E2 in F2; discriminate F2)].
Qed.
Lemma file_type_props n t : file_type n = Some t -> 0 < dt_size t <= 24 /\ 0 < dt_align t <= 8 /\ power_of_two (dt_align t) /\ (exists key, semantic n key t).
Proof.
  intros F. destruct (type_semantic _ _ F) as [key S].
  assert (In t [Vec3f32; Vec3u8; Vec4u8]) as T.
  { destruct S as [E|[E|[E|[E|[]]]]]; injection E as <- <- <-; cbn; auto. }
  destruct T as [<-|[<-|[<-|[]]]]; (split; [cbn; lia|split; [cbn; lia|split; [|exists key; exact S]]]).
  - exists 2. reflexivity.
  - exists 0. reflexivity.
  - exists 0. reflexivity.
Qed.

Lemma in_file_defs ms a : In a (file_defs ms) <-> exists m t, In m ms /\ file_type (m_name m) = Some t /\ a = mk_def (m_name m) t.
Proof.
  unfold file_defs. rewrite in_flat_map. unfold file_def. split.
  - intros (m & Hm & H). destruct (file_type (m_name m)) as [t|] eqn:F; [|destruct H]. destruct H as [<-|[]]. exists m, t. auto.
  - intros (m & t & Hm & F & ->). exists m. rewrite F. split; [exact Hm|now left].
Qed.

Lemma file_defs_names ms : NoDup (map m_name ms) -> NoDup (map ad_name (file_defs ms)).
Proof.
  induction ms as [|m ms IH]; cbn [map]; intros ND; [constructor|]. inversion ND as [|? ? NI ND']; subst.
  unfold file_defs. cbn [flat_map]. fold (file_defs ms). unfold file_def. destruct (file_type (m_name m)) as [t|]; [|exact (IH ND')].
  cbn [map app ad_name]. constructor; [|exact (IH ND')]. intros H. apply in_map_iff in H. destruct H as (a & E & H).
  apply in_file_defs in H. destruct H as (m' & t' & Hm' & _ & ->). cbn [ad_name] in E. apply NI. rewrite <- E. now apply in_map.
Qed.

Definition four : list attr_def := map (fun e => mk_def (fst e) (snd e)) supported_attributes.
Lemma file_defs_four ms : incl (file_defs ms) four.
Proof.
  intros a H. apply in_file_defs in H. destruct H as (m & t & _ & F & ->). destruct (type_semantic _ _ F) as [key S].
  destruct S as [E|[E|[E|[E|[]]]]]; injection E as <- _ <-; cbn; auto.
Qed.

Lemma file_defs_layout ms : NoDup (map m_name ms) -> exists dl, from_attributes (file_defs ms) = Ok dl.
Proof.
  intros ND. pose proof (file_defs_names ms ND) as NDA. set (attrs := file_defs ms) in *.
  assert (A : forall a, In a attrs -> file_type (ad_name a) = Some (ad_type a)).
  { intros a H. apply in_file_defs in H. destruct H as (m & t & _ & F & ->). exact F. }
  assert (LEN : length attrs <= 4).
  { change 4 with (length four). apply NoDup_incl_length; [|apply file_defs_four]. exact (NoDup_map_inv _ _ NDA). }
  assert (FB : forall s a, In (s, a) (fields_of attrs) -> s <= 24 /\ 0 < a <= 8).
  { intros s a H. unfold fields_of in H. apply in_map_iff in H. destruct H as (x & E & X). injection E as <- <-.
    destruct (file_type_props _ _ (A x X)) as (Q1 & Q2 & _). lia. }
  apply from_attributes_succeeds; [exact NDA| |].
  - intros a H. exact (proj1 (proj2 (proj2 (file_type_props _ _ (A a H))))).
  - intros os s a (e & PL & (S1 & S2 & S3) & LS).
    pose proof (placed_bound _ _ _ _ PL FB) as EB. assert (LF : length (fields_of attrs) = length attrs) by apply map_length.
    assert (AB : 0 < a <= 8).
    { destruct S3 as [->|H]; [lia|]. apply in_map_iff in H. destruct H as ((s' & a') & <- & H). apply FB in H. cbn [snd]. lia. }
    assert (s <= e + a) by (apply least_bound; [lia|exact LS]). apply Z.le_trans with (Z.of_nat 1000); [lia|]. cbn. lia.
Qed.

Lemma file_layout_good ms dl : from_attributes (file_defs ms) = Ok dl ->
  map m_def (l_attrs dl) = file_defs ms /\ (file_defs ms <> [] -> good_layout dl).
Proof.
  intros E. rewrite from_attributes_history in E. destruct (grown_layout _ _ E) as (D & _). rewrite map_map in D. cbn [fst] in D. rewrite map_id in D.
  split; [exact D|]. intros NE. apply (grown_good _ _ E).
  - intros X. apply map_eq_nil in X. contradiction.
  - intros a fa H. apply in_map_iff in H. destruct H as (x & Q & X). injection Q as <- _. apply in_file_defs in X.
    destruct X as (m & t & _ & F & ->). cbn [ad_type]. exact (proj1 (proj1 (file_type_props _ _ F))).
Qed.

(* the conversion function for a pair of datatypes *)
Definition converts (s t : datatype) (c : option conv_fn) : Prop :=
  match c with
  | None => s = t
  | Some f => forall v dst, length dst = dt_size t -> value_as s t v = Some (conv_into f v dst)
  end.
Definition converters_for (ms : list member) (fns : list (string * option conv_fn)) : Prop :=
  map fst fns = map ad_name (file_defs ms)
  /\ forall n c, In (n, c) fns -> exists m t, In m ms /\ m_name m = n /\ file_type n = Some t /\ converts (m_type m) t c.

Lemma compatible_layout ms : NoDup (map m_name ms) ->
  (forall m t, In m ms -> file_type (m_name m) = Some t -> m_type m = t \/ supported (m_type m) t) ->
  exists dl fns, foldM compatible_step ms (layout_default, []) = Ok (dl, fns) /\ from_attributes (file_defs ms) = Ok dl /\ converters_for ms fns.
Proof.
  induction ms as [|m ms IH] using rev_ind; intros ND C.
  { exists layout_default, []. split; [reflexivity|]. split; [reflexivity|]. split; [reflexivity|intros n c []]. }
  assert (ND1 : NoDup (map m_name ms)).
  { rewrite map_app in ND. apply NoDup_remove in ND. rewrite app_nil_r in ND. exact (proj1 ND). }
  destruct IH as (dl & fns & E & F & (CN & CI)); [exact ND1|intros x t Hx; apply C, in_app_iff; now left|].
  destruct (file_defs_layout (ms ++ [m]) ND) as [dl' F']. rewrite foldM_snoc, E. cbn [bind compatible_step].
  assert (FD : file_defs (ms ++ [m]) = file_defs ms ++ file_def m) by (unfold file_defs; rewrite flat_map_app; cbn [flat_map]; now rewrite app_nil_r).
  change (assoc (m_name m) supported_attributes) with (file_type (m_name m)). destruct (file_type (m_name m)) as [t|] eqn:T.
  - assert (FM : file_def m = [mk_def (m_name m) t]) by (unfold file_def; now rewrite T).
    pose proof F' as F2. unfold from_attributes in F2. rewrite FD, FM, foldM_snoc in F2. unfold from_attributes in F. rewrite F in F2. cbn [bind] in F2. rewrite F2. cbn [bind].
    destruct (file_layout_good _ _ F') as (D & G). assert (G' : good_layout dl') by (apply G; rewrite FD, FM; intros X; destruct (file_defs ms); discriminate X).
    assert (HD : exists dm, In dm (l_attrs dl') /\ m_def dm = mk_def (m_name m) t).
    { assert (IN : In (mk_def (m_name m) t) (map m_def (l_attrs dl'))) by (rewrite D, FD, FM, in_app_iff; right; now left).
      apply in_map_iff in IN. destruct IN as (dm & X1 & X2). exists dm. auto. }
    destruct HD as (dm & Hdm & Ddm). assert (GN : get_attribute_by_name dl' (m_name m) = Some dm).
    { apply get_by_name_spec; [exact (proj1 (proj2 G'))|]. split; [exact Hdm|]. unfold m_name at 1. now rewrite Ddm. }
    rewrite GN. cbn [unwrap bind]. assert (TD : m_type dm = t) by (unfold m_type; now rewrite Ddm). rewrite TD.
    assert (Z : forall c, converts (m_type m) t c -> converters_for (ms ++ [m]) (fns ++ [(m_name m, c)])).
    { intros c HC. split.
      - rewrite map_app, CN, FD, FM, map_app. reflexivity.
      - intros n c' H. apply in_app_iff in H. destruct H as [H|[H|[]]].
        + destruct (CI _ _ H) as (x & tx & X1 & X2). exists x, tx. split; [apply in_app_iff; now left|exact X2].
        + injection H as <- <-. exists m, t. split; [apply in_app_iff; right; now left|]. auto. }
    destruct (datatype_eqb (m_type m) t) eqn:DE.
    + apply datatype_eqb_eq in DE. exists dl', (fns ++ [(m_name m, None)]). split; [reflexivity|]. split; [exact F'|]. apply Z. exact DE.
    + assert (NE : m_type m <> t) by (intros X; rewrite X, datatype_eqb_refl in DE; discriminate DE).
      destruct (C m t) as [X|X]; [apply in_app_iff; right; now left|exact T|contradiction|].
      destruct (converter_spec (m_def m) (m_def dm)) as (c & E1 & E2).
      * rewrite Ddm. reflexivity.
      * rewrite Ddm. exact NE.
      * rewrite Ddm. exact X.
      * rewrite E1. cbn [bind]. exists dl', (fns ++ [(m_name m, Some c)]). split; [reflexivity|]. split; [exact F'|]. apply Z. intros v dst L. rewrite Ddm in E2. exact (E2 v dst L).
  - exists dl, fns. split; [reflexivity|]. assert (FM : file_def m = []) by (unfold file_def; now rewrite T). split; [rewrite FD, FM, app_nil_r; exact F|]. split.
    + rewrite FD, FM, app_nil_r. exact CN.
    + intros n c H. destruct (CI _ _ H) as (x & tx & X1 & X2). exists x, tx. split; [apply in_app_iff; now left|exact X2].
Qed.
