(* Consequences for convert_into_range, convert_into and convert; raw point converters; converting views. *)
From Coq Require Import String List ZArith Lia Bool Arith.
From Verif Require Import Base LayoutModel LayoutSpec LayoutProofs BufferModel BufferSpec ListLemmas BufferProofs
  BufferSteps BufferSteps2 BufferSteps3 BufferSteps4 TraitModel TraitSpec TraitProofs TraitProofs2 TraitProofs3 BufferFacts NumModel
  ConvModel ConvSpec ConvProofs ConvProofs2 ConvProofs3 ConvProofs4.
Import ListNotations.
Open Scope nat_scope.

Lemma datatype_eqb_refl d : datatype_eqb d d = true.
Proof. now apply datatype_eqb_eq. Qed.

(* ------------------------------------------------------------------ values *)

Lemma mapping_value from to calls tm mp o p old : mp_ok from to mp -> mp_tgt mp = tm -> mapped_from from calls tm = Some (mp_src mp, o) ->
  mp_tf mp = call_tf o -> converted from calls tm p old = Some (mp_value mp (attr_value (mp_src mp) p)).
Proof.
  intros (_ & _ & C & _) T M F. unfold converted. rewrite M. rewrite T in C. unfold mp_value. rewrite F.
  assert (V : forall v, value_as (m_type (mp_src mp)) (m_type tm) v = Some (match mp_conv mp with Some c => conv_apply c v | None => v end)).
  { intros v. destruct (mp_conv mp) as [c|]; [now apply table_spec_value|]. unfold value_as. rewrite C, datatype_eqb_refl. reflexivity. }
  destruct o as [[a b|d a b f [|]]|]; cbn [call_tf tf_func tf_source]; rewrite ?V; cbn [option_map]; destruct (mp_conv mp); reflexivity.
Qed.

Lemma max_src ms : Forall (fun mp => m_size (mp_src mp) <= fold_right Nat.max 0 (map required_buffer_size ms)) ms.
Proof.
  induction ms as [|mp ms IH]; constructor.
  - cbn [map fold_right]. assert (m_size (mp_src mp) <= required_buffer_size mp) by (unfold required_buffer_size; lia). lia.
  - eapply Forall_impl; [|exact IH]. intros a H. cbv beta in H. cbn [map fold_right]. lia.
Qed.

(* ------------------------------------------------------------------ convert_into_range *)

Lemma convert_into_range_ok strict from to calls c sb s e tb ts te :
  good_layout from -> good_layout to -> Forall typed calls -> build strict from to calls = Ok c ->
  bf_wf sb -> bf_layout sb = from -> mb_wf tb -> mb_layout tb = to ->
  s <= e -> e <= bf_len sb -> ts <= te -> te <= mb_len tb -> e - s = te - ts ->
  exists tb', convert_into_range c sb s e tb ts te = Ok tb' /\ converts from to calls sb s tb ts te tb'.
Proof.
  intros GF GT TY B WS LS WT LT S1 S2 T1 T2 EQ. destruct (build_built _ _ _ _ _ GF GT TY B) as (B1 & B2 & B3 & B4 & B5).
  unfold convert_into_range. rewrite B1, B2, LS, LT.
  rewrite (proj2 (layout_eqb_eq from from) eq_refl), (proj2 (layout_eqb_eq to to) eq_refl), (proj2 (Nat.eqb_eq _ _) EQ),
    (proj2 (Nat.leb_le _ _) S2), (proj2 (Nat.leb_le _ _) T2). cbn [bind assert].
  set (max := fold_right Nat.max 0 (map required_buffer_size (cv_maps c))).
  destruct (all_steps from to sb s e ts te max GF GT WS LS S1 S2 T1 EQ (cv_maps c) B3 (max_src _) B4 tb WT LT T2)
    as (tb' & E & W & L & N & O & R & OUT & PT).
  exists tb'. split. { unfold one_step in E. destruct (cv_maps c) as [|m ms] eqn:M; [exact E|rewrite <- E; reflexivity]. }
  unfold converts. split; [exact W|]. split; [exact L|]. split; [exact N|]. split; [exact O|]. split; [exact R|].
  destruct (wf_uniform tb' W) as [_ U']. destruct (wf_uniform tb WT) as [_ U].
  split; [|split; [|exact OUT]].
  - intros i p r I P Q. destruct (PT _ _ Q) as (r' & Hr' & _ & INN & PAD). exists r'. split; [exact Hr'|]. split; [|exact PAD].
    intros tm Ht. rewrite (INN ltac:(lia) tm Ht).
    assert (SP : src_point sb s ts (ts + i) = p).
    { unfold src_point. replace (ts + i - ts + s) with (s + i) by lia. now apply nth_error_nth. }
    rewrite SP. specialize (B5 tm Ht).
    destruct (find_target (cv_maps c) (m_def tm)) as [mp|] eqn:F.
    + destruct B5 as (o & MF & TF). apply find_target_In in F. destruct F as [I' D].
      rewrite Forall_forall in B3. pose proof (B3 _ I') as MO. apply (mapping_value from to calls tm mp o); auto.
      apply (good_def_inj to); auto. apply MO.
    + unfold converted. now rewrite B5.
  - intros k K. destruct (nth_error (mb_points tb) k) as [r|] eqn:Q.
    + destruct (PT _ _ Q) as (r' & -> & OUT' & _). f_equal. apply OUT'. lia.
    + apply nth_error_None in Q. apply nth_error_None. rewrite U', N. congruence.
Qed.

(* everything that is not accepted panics *)
Lemma convert_into_range_panics c sb s e tb ts te :
  bf_layout sb <> cv_from c \/ mb_layout tb <> cv_to c \/ e - s <> te - ts \/ bf_len sb < e \/ mb_len tb < te ->
  convert_into_range c sb s e tb ts te = Panic.
Proof.
  intros H. unfold convert_into_range.
  destruct (layout_eqb (bf_layout sb) (cv_from c)) eqn:E1; [|reflexivity].
  destruct (layout_eqb (mb_layout tb) (cv_to c)) eqn:E2; [|reflexivity]. apply layout_eqb_eq in E1, E2.
  destruct (Nat.eqb_spec (e - s) (te - ts)); [|reflexivity]. destruct (Nat.leb_spec e (bf_len sb)); [|reflexivity].
  destruct (Nat.leb_spec te (mb_len tb)); [|reflexivity]. exfalso. destruct H as [?|[?|[?|[?|?]]]]; try contradiction; lia.
Qed.

Lemma build_layouts strict from to calls c : build strict from to calls = Ok c -> cv_from c = from /\ cv_to c = to.
Proof.
  unfold build. revert c. induction calls as [|k calls IH] using rev_ind; intros c E.
  - apply bind_ok in E. destruct E as (c0 & E & [= <-]). destruct strict; apply bind_ok in E; destruct E as (ms & _ & [= <-]); auto.
  - apply bind_ok in E. destruct E as (c0 & E0 & E). rewrite foldM_snoc in E. apply bind_ok in E. destruct E as (c1 & E1 & E2).
    destruct (IH c1) as [<- <-]; [rewrite E0; exact E1|].
    destruct k; cbn [apply_call] in E2; unfold set_custom_mapping, set_custom_mapping_with_transformation in E2;
      repeat (apply bind_ok in E2; destruct E2 as (? & ? & E2)); injection E2 as <-; auto.
Qed.

(* ------------------------------------------------------------------ convert *)

Lemma sub_repeat_z (x : Z) o n k : o + n <= k -> sub (repeat x k) o n = repeat x n.
Proof.
  intros H. apply nth_error_ext. intros i. rewrite nth_error_sub. destruct (Nat.ltb_spec i n).
  - now rewrite !nth_error_repeat by lia.
  - symmetry. apply nth_error_None. rewrite repeat_length. lia.
Qed.

Lemma fresh_vec l n : good_layout l -> let b := VecB (vb_resize (vb_new l) n) in
  mb_wf b /\ mb_layout b = l /\ mb_len b = n /\ mb_points b = repeat (repeat 0%Z (l_size l)) n.
Proof.
  intros G. assert (I : vb_inv (vb_new l)) by (split; [exact G|reflexivity]).
  destruct (vb_resize_points (vb_new l) n I) as (A & B & C & D). cbv zeta. split; [exact A|]. split; [exact B|]. split; [exact C|].
  change (mb_points (VecB (vb_resize (vb_new l) n))) with (points_of (BV (vb_resize (vb_new l) n))). rewrite D. unfold resized.
  change (points_of (BV (vb_new l))) with (@nil (list Z)). rewrite firstn_nil. simpl. now rewrite Nat.sub_0_r.
Qed.
Lemma fresh_map l n : good_layout l -> let b := MapB (hb_resize (hb_new l) n) in
  mb_wf b /\ mb_layout b = l /\ mb_len b = n /\ mb_points b = repeat (repeat 0%Z (l_size l)) n.
Proof.
  intros G. assert (I : hb_inv (hb_new l)) by (eapply hb_rep_inv; [exact G|exact (hb_new_rep _ G)]).
  destruct (hb_resize_points (hb_new l) n I) as (A & B & C & D). cbv zeta. split; [exact A|]. split; [exact B|]. split; [exact C|].
  change (mb_points (MapB (hb_resize (hb_new l) n))) with (points_of (BH (hb_resize (hb_new l) n))). rewrite D. unfold resized.
  change (points_of (BH (hb_new l))) with (@nil (list Z)). rewrite firstn_nil. simpl. now rewrite Nat.sub_0_r.
Qed.

Lemma convert_fresh strict from to calls c sb b0 :
  good_layout from -> good_layout to -> Forall typed calls -> build strict from to calls = Ok c ->
  bf_wf sb -> bf_layout sb = from -> mb_wf b0 -> mb_layout b0 = to -> mb_len b0 = bf_len sb -> mb_points b0 = repeat (repeat 0%Z (l_size to)) (bf_len sb) ->
  exists tb', convert_into c sb b0 = Ok tb' /\ mb_wf tb' /\ mb_layout tb' = to /\ mb_len tb' = bf_len sb
    /\ forall i p, nth_error (bf_points sb) i = Some p ->
         exists r', nth_error (mb_points tb') i = Some r'
           /\ (forall tm, In tm (l_attrs to) -> converted from calls tm p (repeat 0%Z (m_size tm)) = Some (attr_value tm r'))
           /\ (forall q, q < l_size to -> (forall tm, In tm (l_attrs to) -> q < m_offset tm \/ m_offset tm + m_size tm <= q) ->
                nth_error r' q = Some 0%Z).
Proof.
  intros GF GT TY B WS LS WT LT NT PT. unfold convert_into.
  destruct (convert_into_range_ok strict from to calls c sb 0 (bf_len sb) b0 0 (bf_len sb)) as (tb' & E & C); auto; try lia.
  destruct C as (W & L & N & _ & _ & V & _). exists tb'. split; [exact E|]. split; [exact W|]. split; [exact L|]. split; [congruence|].
  intros i p P. assert (I : i < bf_len sb).
  { destruct (bf_points_uniform sb WS) as [_ <-]. apply nth_error_Some. congruence. }
  destruct (V i p (repeat 0%Z (l_size to))) as (r' & Hr & A & PAD); auto.
  { rewrite PT. simpl. now apply nth_error_repeat. }
  exists r'. split; [exact Hr|]. split.
  - intros tm Ht. rewrite <- (A tm Ht). f_equal. unfold attr_value. destruct (good_member to tm GT Ht) as (_ & _ & H).
    rewrite sub_repeat_z by exact H. reflexivity.
  - intros q Q H. rewrite (PAD q H). now apply nth_error_repeat.
Qed.

Lemma convert_vec_ok strict from to calls c sb :
  good_layout from -> good_layout to -> Forall typed calls -> build strict from to calls = Ok c -> bf_wf sb -> bf_layout sb = from ->
  exists tb', convert_vec c sb = Ok tb' /\ mb_wf tb' /\ mb_layout tb' = to /\ mb_len tb' = bf_len sb
    /\ forall i p, nth_error (bf_points sb) i = Some p ->
         exists r', nth_error (mb_points tb') i = Some r'
           /\ (forall tm, In tm (l_attrs to) -> converted from calls tm p (repeat 0%Z (m_size tm)) = Some (attr_value tm r'))
           /\ (forall q, q < l_size to -> (forall tm, In tm (l_attrs to) -> q < m_offset tm \/ m_offset tm + m_size tm <= q) ->
                nth_error r' q = Some 0%Z).
Proof.
  intros GF GT TY B WS LS. unfold convert_vec. destruct (build_layouts _ _ _ _ _ B) as [_ ->].
  destruct (fresh_vec to (bf_len sb) GT) as (A1 & A2 & A3 & A4). eapply convert_fresh; eauto.
Qed.
Lemma convert_map_ok strict from to calls c sb :
  good_layout from -> good_layout to -> Forall typed calls -> build strict from to calls = Ok c -> bf_wf sb -> bf_layout sb = from ->
  exists tb', convert_map c sb = Ok tb' /\ mb_wf tb' /\ mb_layout tb' = to /\ mb_len tb' = bf_len sb
    /\ forall i p, nth_error (bf_points sb) i = Some p ->
         exists r', nth_error (mb_points tb') i = Some r'
           /\ (forall tm, In tm (l_attrs to) -> converted from calls tm p (repeat 0%Z (m_size tm)) = Some (attr_value tm r'))
           /\ (forall q, q < l_size to -> (forall tm, In tm (l_attrs to) -> q < m_offset tm \/ m_offset tm + m_size tm <= q) ->
                nth_error r' q = Some 0%Z).
Proof.
  intros GF GT TY B WS LS. unfold convert_map. destruct (build_layouts _ _ _ _ _ B) as [_ ->].
  destruct (fresh_map to (bf_len sb) GT) as (A1 & A2 & A3 & A4). eapply convert_fresh; eauto.
Qed.

(* ------------------------------------------------------------------ which converters can be built *)

Lemma build_calls_ok strict from to calls c : good_layout from -> good_layout to -> build strict from to calls = Ok c ->
  layouts_ok strict from to /\ Forall (call_ok from to) calls.
Proof.
  intros GF GT. revert c. unfold build. induction calls as [|k calls IH] using rev_ind; intros c E.
  - split; [|constructor]. apply bind_ok in E. destruct E as (c0 & E & _). destruct GF as (_ & NF & _).
    intros tm Ht. destruct strict.
    + left. apply bind_ok in E. destruct E as (ms & E & _). apply ConvProofs4.mapM_ok in E. destruct (Forall2_In_l _ _ _ _ E Ht) as (mp & _ & Q).
      cbv beta in Q. destruct (get_attribute_by_name from (m_name tm)) as [sm|] eqn:G; [|discriminate]. cbn [unwrap bind] in Q.
      apply get_by_name_spec in G; auto. exists sm. destruct G as [G1 G2]. split; auto. split; auto.
      destruct (convertible_dec (m_type sm) (m_type tm)) as [|NC]; auto. rewrite (default_mapping_panics sm tm NC) in Q. discriminate.
    + apply bind_ok in E. destruct E as (ms & E & _). apply ConvProofs4.mapM_ok in E. destruct (Forall2_In_l _ _ _ _ E Ht) as (mp & _ & Q).
      cbv beta in Q. destruct (get_attribute_by_name from (m_name tm)) as [sm|] eqn:G.
      * left. apply get_by_name_spec in G; auto. exists sm. destruct G as [G1 G2]. split; auto. split; auto.
        destruct (convertible_dec (m_type sm) (m_type tm)) as [|NC]; auto. rewrite (default_mapping_panics sm tm NC) in Q. discriminate.
      * right. split; auto. intros sm Hs HN. assert (G' : get_attribute_by_name from (m_name tm) = Some sm) by (apply get_by_name_spec; auto). congruence.
  - apply bind_ok in E. destruct E as (c0 & E0 & E). rewrite foldM_snoc in E. apply bind_ok in E. destruct E as (c1 & E1 & E2).
    assert (BC : (let* c := (if strict then for_layouts from to else for_layouts_with_default from to) in foldM apply_call calls c) = Ok c1) by (rewrite E0; exact E1).
    destruct (IH c1 BC) as [LO FC]. split; auto. apply Forall_app. split; auto. constructor; [|constructor].
    destruct (build_layouts strict from to calls c1 BC) as [C1 C2].
    assert (DM : forall sm tm mp, make_default_mapping sm tm = Ok mp -> convertible (m_type sm) (m_type tm)).
    { intros sm tm mp Q. destruct (convertible_dec (m_type sm) (m_type tm)) as [|NC]; auto. rewrite (default_mapping_panics sm tm NC) in Q. discriminate. }
    destruct k as [a b|d a b f source]; cbn [apply_call] in E2; unfold set_custom_mapping, set_custom_mapping_with_transformation in E2; rewrite C1, C2 in E2.
    + apply bind_ok in E2. destruct E2 as (sm & Es & E2). apply bind_ok in E2. destruct E2 as (tm & Et & E2). apply bind_ok in E2. destruct E2 as (mp & Em & _).
      change (get_attribute from a) with (member_of from a) in Es. change (get_attribute to b) with (member_of to b) in Et.
      destruct (member_of from a) as [sm'|] eqn:Ms; [|discriminate]. injection Es as ->. destruct (member_of to b) as [tm'|] eqn:Mt; [|discriminate]. injection Et as ->.
      apply member_of_spec in Ms; auto. apply member_of_spec in Mt; auto. exists sm, tm. cbn [call_from call_to]. destruct Ms, Mt. eauto 10.
    + apply bind_ok in E2. destruct E2 as (sm & Es & E2). apply bind_ok in E2. destruct E2 as (tm & Et & E2). apply bind_ok in E2. destruct E2 as ([] & Ea & E2). apply bind_ok in E2. destruct E2 as (mp & Em & _).
      change (get_attribute from a) with (member_of from a) in Es. change (get_attribute to b) with (member_of to b) in Et.
      destruct (member_of from a) as [sm'|] eqn:Ms; [|discriminate]. injection Es as ->. destruct (member_of to b) as [tm'|] eqn:Mt; [|discriminate]. injection Et as ->.
      apply member_of_spec in Ms; auto. apply member_of_spec in Mt; auto. exists sm, tm. cbn [call_from call_to]. destruct Ms, Mt.
      apply bind_ok in Em. destruct Em as (mp' & Em & _). repeat (split; [now eauto|]). unfold assert in Ea.
      destruct source; [destruct (datatype_eqb d (m_type sm)) eqn:Q|destruct (datatype_eqb d (m_type tm)) eqn:Q]; try discriminate; now apply datatype_eqb_eq in Q.
Qed.

Lemma build_exists strict from to calls : good_layout from -> good_layout to -> layouts_ok strict from to -> Forall (call_ok from to) calls ->
  exists c, build strict from to calls = Ok c.
Proof.
  intros GF GT LO. induction calls as [|k calls IH] using rev_ind; intros FC.
  - unfold build. cbn [foldM]. destruct GF as (_ & NF & _). destruct strict.
    + unfold for_layouts. destruct (mapM_all (fun ta => let* fa := unwrap (get_attribute_by_name from (m_name ta)) in make_default_mapping fa ta) (l_attrs to)) as [ms E].
      { intros tm Ht. destruct (LO tm Ht) as [(sm & Hs & HN & HC)|[Q _]]; [|discriminate].
        rewrite (proj2 (get_by_name_spec from (m_name tm) sm NF) (conj Hs HN)). cbn [unwrap bind]. now apply default_mapping_exists. }
      rewrite E. cbn [bind]. eauto.
    + unfold for_layouts_with_default. destruct (mapM_all (fun ta => match get_attribute_by_name from (m_name ta) with Some fa => let* mp := make_default_mapping fa ta in Ok [mp] | None => Ok [] end) (l_attrs to)) as [ms E].
      { intros tm Ht. destruct (LO tm Ht) as [(sm & Hs & HN & HC)|[_ Q]].
        - rewrite (proj2 (get_by_name_spec from (m_name tm) sm NF) (conj Hs HN)). destruct (default_mapping_exists sm tm HC) as [mp ->]. cbn [bind]. eauto.
        - destruct (get_attribute_by_name from (m_name tm)) as [sm|] eqn:G; eauto. apply get_by_name_spec in G; auto. destruct G as [G1 G2]. destruct (Q sm G1 G2). }
      rewrite E. cbn [bind]. eauto.
  - apply Forall_app in FC. destruct FC as [FC FK]. inversion_clear FK as [|? ? K _]. destruct (IH FC) as [c B].
    destruct (build_layouts _ _ _ _ _ B) as [C1 C2]. unfold build in *. apply bind_ok in B. destruct B as (c0 & E0 & B). rewrite E0. cbn [bind].
    rewrite foldM_snoc, B. cbn [bind]. destruct K as (sm & tm & Hs & Ds & Ht & Dt & CV & TY).
    pose proof (member_of_In _ _ GF Hs) as Ms. pose proof (member_of_In _ _ GT Ht) as Mt. rewrite Ds in Ms. rewrite Dt in Mt.
    destruct (default_mapping_exists sm tm CV) as [mp EM].
    destruct k as [a b|d a b f source]; cbn [apply_call call_from call_to] in *; unfold set_custom_mapping, set_custom_mapping_with_transformation; rewrite C1, C2;
      change (get_attribute from a) with (member_of from a); change (get_attribute to b) with (member_of to b); rewrite Ms, Mt; cbn [unwrap bind].
    + rewrite EM. cbn [bind]. eauto.
    + unfold make_transformed_mapping. rewrite EM. destruct source; subst d; rewrite datatype_eqb_refl; cbn [bind assert]; eauto.
Qed.

Lemma make_default_not_err sm tm : make_default_mapping sm tm <> Err.
Proof. rewrite default_mapping_spec. destruct (datatype_eqb _ _); [discriminate|]. destruct (table_spec _ _); discriminate. Qed.

Lemma bind_not_err {A B} (x : res A) (f : A -> res B) : x <> Err -> (forall a, x = Ok a -> f a <> Err) -> (let* a := x in f a) <> Err.
Proof. intros H1 H2. destruct x; cbn [bind]; auto. discriminate. Qed.
Lemma mapM_not_err {A B} (f : A -> res B) l : (forall a, f a <> Err) -> mapM f l <> Err.
Proof. intros H. induction l; cbn [mapM]; [discriminate|]. apply bind_not_err; auto. intros b _. apply bind_not_err; auto. discriminate. Qed.
Lemma foldM_not_err {A S} (f : S -> A -> res S) l : (forall s a, f s a <> Err) -> forall s, foldM f l s <> Err.
Proof. intros H. induction l; intros s; cbn [foldM]; [discriminate|]. apply bind_not_err; auto. Qed.
Lemma unwrap_not_err {A} (o : option A) : unwrap o <> Err.
Proof. destruct o; discriminate. Qed.

Lemma build_not_err strict from to calls : build strict from to calls <> Err.
Proof.
  unfold build. apply bind_not_err.
  - destruct strict; apply bind_not_err; try discriminate; apply mapM_not_err; intros ta.
    + apply bind_not_err; [apply unwrap_not_err|]. intros; apply make_default_not_err.
    + destruct (get_attribute_by_name from (m_name ta)); [|discriminate]. apply bind_not_err; [apply make_default_not_err|discriminate].
  - intros c _. apply foldM_not_err. intros c' k. destruct k; cbn [apply_call].
    + unfold set_custom_mapping. repeat (apply bind_not_err; [try apply unwrap_not_err; try apply make_default_not_err|intros ? _]). discriminate.
    + unfold set_custom_mapping_with_transformation, make_transformed_mapping.
      apply bind_not_err; [apply unwrap_not_err|intros ? _]. apply bind_not_err; [apply unwrap_not_err|intros ? _].
      apply bind_not_err; [unfold assert; destruct source; destruct (datatype_eqb _ _); discriminate|intros ? _].
      apply bind_not_err; [|discriminate]. apply bind_not_err; [apply make_default_not_err|discriminate].
Qed.

(* ------------------------------------------------------------------ attribute converters *)

Lemma converter_spec a b : ad_name a = ad_name b -> ad_type a <> ad_type b -> supported (ad_type a) (ad_type b) ->
  exists c, get_converter_for_attributes a b = Ok (Some c)
    /\ forall v dst, length dst = dt_size (ad_type b) -> value_as (ad_type a) (ad_type b) v = Some (conv_into c v dst).
Proof.
  intros N D S. unfold get_converter_for_attributes. rewrite (proj2 (String.eqb_eq _ _) N). cbn [assert bind].
  destruct (datatype_eqb (ad_type a) (ad_type b)) eqn:E; [apply datatype_eqb_eq in E; contradiction|]. rewrite generic_spec.
  apply (table_spec_supported _ _ D) in S. destruct (table_spec (ad_type a) (ad_type b)) as [c|] eqn:T; [|congruence].
  exists c. split; auto. intros v dst L. rewrite (table_spec_value _ _ _ v T). f_equal. unfold conv_into, blit. simpl.
  rewrite (table_spec_length _ _ _ v T), <- L, skipn_all. now rewrite app_nil_r.
Qed.
Lemma converter_none a b : ad_name a = ad_name b -> ad_type a = ad_type b -> get_converter_for_attributes a b = Ok None.
Proof.
  intros N D. unfold get_converter_for_attributes. rewrite (proj2 (String.eqb_eq _ _) N), D, datatype_eqb_refl. reflexivity.
Qed.
Lemma converter_panics a b : ad_name a <> ad_name b \/ (ad_type a <> ad_type b /\ ~ supported (ad_type a) (ad_type b)) ->
  get_converter_for_attributes a b = Panic.
Proof.
  intros H. unfold get_converter_for_attributes. destruct (String.eqb_spec (ad_name a) (ad_name b)) as [N|N]; [|reflexivity].
  destruct H as [H|[H1 H2]]; [contradiction|]. cbn [assert bind].
  destruct (datatype_eqb (ad_type a) (ad_type b)) eqn:E; [apply datatype_eqb_eq in E; contradiction|]. rewrite generic_spec.
  rewrite (table_spec_supported _ _ H1) in H2. destruct (table_spec (ad_type a) (ad_type b)); auto. exfalso. apply H2. discriminate.
Qed.

(* ------------------------------------------------------------------ converting views *)

Lemma converting_view_ok b m a t i p : bf_wf b -> In m (l_attrs (bf_layout b)) -> m_name m = ad_name a -> ad_type a = t ->
  convertible (m_type m) t -> nth_error (bf_points b) i = Some p ->
  exists v, converting_view_at b a t i = Ok v /\ value_as (m_type m) t (attr_value m p) = Some v.
Proof.
  intros W Hm HN HT CV Hp. pose proof (proj2 (proj2 (proj2 (bf_wf_root b W)))) as G. unfold converting_view_at, converting_view.
  rewrite HT, datatype_eqb_refl. cbn [assert bind].
  rewrite (proj2 (get_by_name_spec (bf_layout b) (ad_name a) m (proj1 (proj2 G))) (conj Hm HN)). cbn [unwrap bind].
  assert (X : exists c, (if datatype_eqb (m_type m) t then Ok ConvUnit else let* o := get_converter_for_attributes (m_def m) (with_custom_datatype a t) in
      match o with Some c => Ok c | None => Err end) = Ok c /\ forall v, length v = m_size m -> value_as (m_type m) t v = Some (conv_into c v (repeat 0%Z (dt_size t)))).
  { destruct (good_member _ _ G Hm) as (P & S & Q). destruct (datatype_eqb (m_type m) t) eqn:E.
    - exists ConvUnit. split; auto. intros v L. unfold value_as. rewrite E. f_equal. apply datatype_eqb_eq in E. unfold conv_into, blit. cbn [conv_apply]. unfold convert_unit.
      simpl. rewrite skipn_all2 by (rewrite repeat_length, L, S; change (ad_type (m_def m)) with (m_type m); rewrite E; auto). now rewrite app_nil_r.
    - destruct (converter_spec (m_def m) (with_custom_datatype a t)) as (c & E' & V).
      + exact HN.
      + intros Q'. change (m_type m = t) in Q'. rewrite Q', datatype_eqb_refl in E. discriminate.
      + destruct CV as [CV|CV]; [|exact CV]. rewrite (proj2 (datatype_eqb_eq _ _) CV) in E. discriminate.
      + rewrite E'. cbn [bind]. exists c. split; auto. intros v L. apply V. now rewrite repeat_length. }
  destruct X as (c & -> & V). cbn [bind].
  destruct (bf_wf_reads b W) as (_ & _ & _ & RA & _). destruct (RA m i p (repeat 0%Z (m_size m)) Hm Hp) as [_ ->]; [apply repeat_length|].
  cbn [bind]. eexists. split; [reflexivity|]. apply V. apply (length_attr_value (bf_layout b)); auto.
  destruct (bf_points_uniform b W) as [U _]. exact (uniform_nth _ _ _ _ U Hp).
Qed.
Lemma converting_view_panics b a t i : good_layout (bf_layout b) ->
  t <> ad_type a \/ (forall m, In m (l_attrs (bf_layout b)) -> m_name m <> ad_name a)
  \/ (exists m, In m (l_attrs (bf_layout b)) /\ m_name m = ad_name a /\ ~ convertible (m_type m) t) ->
  converting_view_at b a t i = Panic.
Proof.
  intros G H. unfold converting_view_at, converting_view. destruct (datatype_eqb t (ad_type a)) eqn:E; [|reflexivity].
  apply datatype_eqb_eq in E. cbn [assert bind]. destruct H as [H|[H|(m & Hm & HN & HC)]]; [contradiction| |].
  - destruct (get_attribute_by_name (bf_layout b) (ad_name a)) as [m|] eqn:Q; [|reflexivity].
    apply get_by_name_spec in Q; [|apply G]. destruct Q as [Q1 Q2]. destruct (H m Q1 Q2).
  - rewrite (proj2 (get_by_name_spec (bf_layout b) (ad_name a) m (proj1 (proj2 G))) (conj Hm HN)). cbn [unwrap bind].
    destruct (datatype_eqb (m_type m) t) eqn:Q.
    + apply datatype_eqb_eq in Q. exfalso. apply HC. now left.
    + rewrite (converter_panics (m_def m) (with_custom_datatype a t)); [reflexivity|]. right. split.
      * intros Q'. change (m_type m = t) in Q'. rewrite Q', datatype_eqb_refl in Q. discriminate.
      * intros S. apply HC. now right.
Qed.

(* ------------------------------------------------------------------ raw point converters *)

Definition raw_pairs (from to : layout) : list (member * member) :=
  flat_map (fun sm => match get_attribute_by_name to (m_name sm) with
                      | Some tm => if datatype_eqb (m_type sm) (m_type tm) then [] else [(sm, tm)] | None => [] end) (l_attrs from).

Lemma raw_from_to_ok from to : good_layout from -> good_layout to ->
  (forall sm tm, In sm (l_attrs from) -> In tm (l_attrs to) -> m_name sm = m_name tm -> convertible (m_type sm) (m_type tm)) ->
  exists fs, raw_from_to from to = Ok (map (fun x => mk_rac (snd x) (m_offset (fst (fst x)), m_offset (fst (fst x)) + m_size (fst (fst x)))
                                             (m_offset (snd (fst x)), m_offset (snd (fst x)) + m_size (snd (fst x)))) fs)
    /\ map fst fs = raw_pairs from to
    /\ Forall (fun x => table_spec (m_type (fst (fst x))) (m_type (snd (fst x))) = Some (snd x)) fs.
Proof.
  intros GF GT CV. unfold raw_from_to, raw_pairs.
  assert (SUB : forall m, In m (l_attrs from) -> In m (l_attrs from)) by auto. revert SUB. generalize (l_attrs from) at 1 3 4 as ms.
  induction ms as [|sm ms IH]; intros SUB.
  - exists []. cbn. auto.
  - destruct IH as (fs & E & P & F); [intros; apply SUB; now right|]. cbn [filter flat_map].
    destruct (get_attribute_by_name to (m_name sm)) as [tm|] eqn:G.
    + pose proof (proj1 (get_by_name_spec to _ _ (proj1 (proj2 GT))) G) as [Ht HN].
      assert (HA : has_attribute_with_name to (m_name sm) = true).
      { unfold has_attribute_with_name. apply existsb_exists. exists tm. split; auto. now apply String.eqb_eq. }
      rewrite HA. cbn [mapM]. rewrite G. cbn [unwrap bind].
      destruct (datatype_eqb (m_type sm) (m_type tm)) eqn:D.
      * apply datatype_eqb_eq in D. rewrite converter_none by (auto; congruence). cbn [bind]. exists fs.
        apply bind_ok in E. destruct E as (cs & E & E'). injection E' as E'. rewrite E. cbn [bind concat app]. rewrite E'. auto.
      * assert (NE : m_type sm <> m_type tm) by (intros Q; rewrite Q, datatype_eqb_refl in D; discriminate).
        assert (T : table_spec (m_type sm) (m_type tm) <> None).
        { apply (table_spec_supported _ _ NE). destruct (CV sm tm) as [Q|Q]; auto; [apply SUB; now left|contradiction]. }
        destruct (table_spec (m_type sm) (m_type tm)) as [c|] eqn:TE; [|congruence].
        assert (EC : get_converter_for_attributes (m_def sm) (m_def tm) = Ok (Some c)).
        { unfold get_converter_for_attributes. change (ad_name (m_def sm)) with (m_name sm). change (ad_name (m_def tm)) with (m_name tm).
          change (ad_type (m_def sm)) with (m_type sm). change (ad_type (m_def tm)) with (m_type tm).
          rewrite HN, String.eqb_refl, D, generic_spec, TE. reflexivity. }
        rewrite EC. cbn [bind].
        apply bind_ok in E. destruct E as (cs & E & E'). injection E' as E'. rewrite E. cbn [bind concat app]. rewrite E'.
        exists ((sm, tm, c) :: fs). cbn [map fst snd]. split; auto. split; [now rewrite P|]. constructor; auto.
    + assert (HA : has_attribute_with_name to (m_name sm) = false).
      { unfold has_attribute_with_name, get_attribute_by_name in *. destruct (existsb _ _) eqn:X; auto. apply existsb_exists in X. destruct X as (tm & H1 & H2).
        pose proof (find_none _ _ G tm H1) as Q. cbv beta in Q. congruence. }
      rewrite HA. exists fs. auto.
Qed.

Lemma raw_fold from to fs src : good_layout from -> good_layout to -> length src = l_size from ->
  Forall (fun x => In (fst (fst x)) (l_attrs from) /\ In (snd (fst x)) (l_attrs to) /\ table_spec (m_type (fst (fst x))) (m_type (snd (fst x))) = Some (snd x)) fs ->
  NoDup (map (fun x => m_def (snd (fst x))) fs) ->
  forall tgt, length tgt = l_size to ->
  exists tgt', raw_convert (map (fun x => mk_rac (snd x) (m_offset (fst (fst x)), m_offset (fst (fst x)) + m_size (fst (fst x)))
                                             (m_offset (snd (fst x)), m_offset (snd (fst x)) + m_size (snd (fst x)))) fs) src tgt = Ok tgt'
    /\ length tgt' = l_size to
    /\ (forall sm tm c, In (sm, tm, c) fs -> attr_value tm tgt' = conv_apply c (attr_value sm src))
    /\ (forall tm, In tm (l_attrs to) -> ~ In (m_def tm) (map (fun x => m_def (snd (fst x))) fs) -> attr_value tm tgt' = attr_value tm tgt)
    /\ (forall q, (forall tm, In tm (l_attrs to) -> q < m_offset tm \/ m_offset tm + m_size tm <= q) -> nth_error tgt' q = nth_error tgt q).
Proof.
  intros GF GT LS. unfold raw_convert. induction fs as [|[[sm tm] c] fs IH]; intros F ND tgt LT.
  - exists tgt. cbn. repeat split; auto. intros; contradiction.
  - inversion_clear F as [|? ? (Hs & Ht & T) F']. inversion_clear ND as [|? ? NI ND']. cbn [map foldM fst snd] in *.
    destruct (good_member _ _ GF Hs) as (_ & _ & BS). destruct (good_member _ _ GT Ht) as (_ & ST & BT).
    change (m_size tm = dt_size (m_type tm)) in ST.
    unfold rac_convert at 1. cbn [rac_src rac_tgt rac_fn fst snd]. rewrite !slice_get_ok by lia. cbn [bind].
    assert (SE : forall (l : list Z) o n, sub l o (o + n - o) = sub l o n) by (intros; f_equal; lia). rewrite !SE.
    assert (CI : conv_into c (sub src (m_offset sm) (m_size sm)) (sub tgt (m_offset tm) (m_size tm)) = conv_apply c (attr_value sm src)).
    { unfold conv_into, blit. cbn [firstn app]. rewrite (table_spec_length _ _ _ _ T), <- ST. cbn [Nat.add]. rewrite skipn_all2; [apply app_nil_r|]. rewrite length_sub; lia. }
    rewrite CI. assert (LC : length (conv_apply c (attr_value sm src)) = m_size tm) by (rewrite (table_spec_length _ _ _ _ T); auto).
    rewrite blit_set_range by lia. fold (with_attr tm (conv_apply c (attr_value sm src)) tgt).
    set (t1 := with_attr tm (conv_apply c (attr_value sm src)) tgt). assert (L1 : length t1 = l_size to) by (unfold t1; now rewrite length_with_attr).
    destruct (IH F' ND' t1 L1) as (t2 & E & L2 & A & B & P). exists t2. split; [exact E|]. split; [exact L2|]. split; [|split].
    + intros sm' tm' c' [Q|I]; [injection Q as <- <- <-|now apply A]. rewrite (B tm Ht NI). unfold t1. now apply (attr_value_with_same to).
    + intros tm' Ht' N. rewrite B; [|exact Ht'|intros I; apply N; now right]. unfold t1. apply (attr_value_with_other to); auto.
      intros Q. apply N. left. now rewrite Q.
    + intros q Q. rewrite (P q Q). unfold t1. apply with_attr_outside. rewrite LC. now apply Q.
Qed.

Lemma raw_pairs_In from to sm tm : good_layout to -> (In (sm, tm) (raw_pairs from to) <->
  In sm (l_attrs from) /\ In tm (l_attrs to) /\ m_name sm = m_name tm /\ m_type sm <> m_type tm).
Proof.
  intros GT. unfold raw_pairs. rewrite in_flat_map. split.
  - intros (sm' & Hs & H). destruct (get_attribute_by_name to (m_name sm')) as [tm'|] eqn:G; [|contradiction].
    apply get_by_name_spec in G; [|apply GT]. destruct G as [G1 G2]. destruct (datatype_eqb (m_type sm') (m_type tm')) eqn:D; [contradiction|].
    destruct H as [H|[]]. injection H as <- <-. repeat split; auto. intros Q. rewrite Q, datatype_eqb_refl in D. discriminate.
  - intros (Hs & Ht & HN & HT). exists sm. split; auto. rewrite (proj2 (get_by_name_spec to (m_name sm) tm (proj1 (proj2 GT))) (conj Ht (eq_sym HN))).
    destruct (datatype_eqb (m_type sm) (m_type tm)) eqn:D; [apply datatype_eqb_eq in D; contradiction|]. now left.
Qed.

Lemma raw_pairs_NoDup from to : good_layout from -> good_layout to -> NoDup (map (fun x => m_def (snd x)) (raw_pairs from to)).
Proof.
  intros (_ & NF & _) GT. unfold raw_pairs. revert NF. generalize (l_attrs from) as ms. induction ms as [|sm ms IH]; intros ND; [constructor|].
  inversion_clear ND as [|? ? NI ND']. cbn [flat_map]. specialize (IH ND').
  destruct (get_attribute_by_name to (m_name sm)) as [tm|] eqn:G; [|exact IH]. destruct (datatype_eqb _ _); [exact IH|].
  cbn [app map]. constructor; auto. intros I. apply in_map_iff in I. destruct I as ([sm' tm'] & Q & I). apply in_flat_map in I. destruct I as (sm'' & H1 & H2).
  destruct (get_attribute_by_name to (m_name sm'')) as [tm''|] eqn:G'; [|contradiction]. destruct (datatype_eqb _ _); [contradiction|].
  destruct H2 as [H2|[]]. injection H2 as <- <-. cbn [snd] in Q.
  apply get_by_name_spec in G; [|apply GT]. apply get_by_name_spec in G'; [|apply GT].
  apply NI. rewrite <- (proj2 G). unfold m_name at 1. rewrite <- Q. change (In (m_name tm'') (map m_name ms)). rewrite (proj2 G'). now apply in_map.
Qed.

Lemma raw_converter_ok from to src tgt : good_layout from -> good_layout to -> length src = l_size from -> length tgt = l_size to ->
  (forall sm tm, In sm (l_attrs from) -> In tm (l_attrs to) -> m_name sm = m_name tm -> convertible (m_type sm) (m_type tm)) ->
  exists tgt', (let* c := raw_from_to from to in raw_convert c src tgt) = Ok tgt' /\ length tgt' = l_size to
    /\ (forall sm tm, In sm (l_attrs from) -> In tm (l_attrs to) -> m_name sm = m_name tm -> m_type sm <> m_type tm ->
          value_as (m_type sm) (m_type tm) (attr_value sm src) = Some (attr_value tm tgt'))
    /\ (forall tm, In tm (l_attrs to) -> (forall sm, In sm (l_attrs from) -> m_name sm = m_name tm -> m_type sm = m_type tm) ->
          attr_value tm tgt' = attr_value tm tgt)
    /\ (forall q, (forall tm, In tm (l_attrs to) -> q < m_offset tm \/ m_offset tm + m_size tm <= q) -> nth_error tgt' q = nth_error tgt q).
Proof.
  intros GF GT LS LT CV. destruct (raw_from_to_ok from to GF GT CV) as (fs & E & P & F). rewrite E. cbn [bind].
  assert (MM : map (fun x => m_def (snd (fst x))) fs = map (fun x => m_def (snd x)) (raw_pairs from to)) by (rewrite <- P, map_map; reflexivity).
  assert (IP : forall sm tm c, In (sm, tm, c) fs -> In (sm, tm) (raw_pairs from to)).
  { intros sm tm c I. rewrite <- P. apply in_map_iff. exists (sm, tm, c). auto. }
  destruct (raw_fold from to fs src GF GT LS) with (tgt := tgt) as (t & R & L & A & B & Q); auto.
  - apply Forall_forall. intros [[sm tm] c] I. rewrite Forall_forall in F. cbn [fst snd]. pose proof (IP _ _ _ I) as I'.
    apply raw_pairs_In in I'; auto. destruct I' as (? & ? & _). split; auto. split; auto. exact (F _ I).
  - rewrite MM. now apply raw_pairs_NoDup.
  - exists t. split; [exact R|]. split; [exact L|]. split; [|split; [|exact Q]].
    + intros sm tm Hs Ht HN HT. assert (I : In (sm, tm) (raw_pairs from to)) by (apply raw_pairs_In; auto).
      rewrite <- P in I. apply in_map_iff in I. destruct I as ([[sm' tm'] c] & Q' & I). cbn [fst] in Q'. injection Q' as -> ->.
      rewrite (A _ _ _ I). rewrite Forall_forall in F. specialize (F _ I). cbn [fst snd] in F. now apply table_spec_value.
    + intros tm Ht H. apply B; auto. rewrite MM. intros I. apply in_map_iff in I. destruct I as ([sm tm'] & D & I). cbn [snd] in D.
      apply raw_pairs_In in I; auto. destruct I as (I1 & I2 & I3 & I4). pose proof (good_def_inj to tm' tm GT I2 Ht D) as Q'. subst tm'. auto.
Qed.

(* ------------------------------------------------------------------ the remaining statements of PropConv *)

Lemma supported_sym a b : supported a b -> supported b a.
Proof. unfold supported. tauto. Qed.
Lemma converter_symmetric a b : is_ok (get_converter_for_attributes a b) = true <-> is_ok (get_converter_for_attributes b a) = true.
Proof.
  assert (X : forall a b, is_ok (get_converter_for_attributes a b) = true -> is_ok (get_converter_for_attributes b a) = true).
  { clear. intros a b H. destruct (String.string_dec (ad_name a) (ad_name b)) as [N|N]; [|rewrite (converter_panics a b (or_introl N)) in H; discriminate H].
    destruct (datatype_eq_dec (ad_type a) (ad_type b)) as [D|D]; [now rewrite (converter_none b a (eq_sym N) (eq_sym D))|].
    destruct (convertible_dec (ad_type a) (ad_type b)) as [[Q|Q]|NC]; [contradiction| |].
    - destruct (converter_spec b a) as (c & -> & _); auto. now apply supported_sym.
    - rewrite (converter_panics a b) in H; [discriminate H|]. right. split; auto. intros S. apply NC. now right. }
  split; apply X.
Qed.

Lemma build_iff strict from to calls : good_layout from -> good_layout to ->
  ((exists c, build strict from to calls = Ok c) <-> (layouts_ok strict from to /\ Forall (call_ok from to) calls))
  /\ ((forall c, build strict from to calls <> Ok c) -> build strict from to calls = Panic).
Proof.
  intros GF GT. split; [split|].
  - intros (c & B). eapply build_calls_ok; eauto.
  - intros [A B]. now apply build_exists.
  - intros H. pose proof (build_not_err strict from to calls). destruct (build strict from to calls); congruence.
Qed.

Lemma convert_range_panics strict from to calls c sb s e tb ts te : build strict from to calls = Ok c ->
  bf_layout sb <> from \/ mb_layout tb <> to \/ e - s <> te - ts \/ bf_len sb < e \/ mb_len tb < te ->
  convert_into_range c sb s e tb ts te = Panic.
Proof. intros B. destruct (build_layouts _ _ _ _ _ B) as [<- <-]. apply convert_into_range_panics. Qed.

Lemma convert_into_ok strict from to calls c sb tb :
  good_layout from -> good_layout to -> Forall typed calls -> build strict from to calls = Ok c ->
  bf_wf sb -> bf_layout sb = from -> mb_wf tb -> mb_layout tb = to ->
  (mb_len tb < bf_len sb -> convert_into c sb tb = Panic)
  /\ (bf_len sb <= mb_len tb -> exists tb', convert_into c sb tb = Ok tb' /\ converts from to calls sb 0 tb 0 (bf_len sb) tb').
Proof.
  intros. unfold convert_into. split; intros.
  - apply convert_into_range_panics. auto.
  - eapply convert_into_range_ok; eauto; lia.
Qed.

Lemma converted_ext from calls tm p p' old : good_layout from -> (forall m, In m (l_attrs from) -> attr_value m p = attr_value m p') ->
  converted from calls tm p old = converted from calls tm p' old.
Proof.
  intros G H. unfold converted. destruct (mapped_from from calls tm) as [[sm o]|] eqn:M; auto.
  assert (Hs : In sm (l_attrs from)).
  { unfold mapped_from in M. destruct (find _ (rev calls)).
    - destruct (member_of from (call_from c)) as [m|] eqn:Q; [|discriminate]. injection M as -> _. apply member_of_spec in Q; tauto.
    - destruct (find (fun sm0 => String.eqb (m_name sm0) (m_name tm)) (l_attrs from)) eqn:Q; [|discriminate]. injection M as -> _. now apply find_some in Q. }
  now rewrite (H sm Hs).
Qed.

Lemma convert_same strict from to calls c sb sb' :
  good_layout from -> good_layout to -> Forall typed calls -> build strict from to calls = Ok c ->
  bf_wf sb -> bf_layout sb = from -> bf_wf sb' -> bf_layout sb' = from ->
  length (bf_points sb) = length (bf_points sb') ->
  (forall i m, In m (l_attrs from) -> attr_value m (nth i (bf_points sb) []) = attr_value m (nth i (bf_points sb') [])) ->
  exists tb tb', convert_vec c sb = Ok tb /\ convert_map c sb' = Ok tb' /\ mb_points tb = mb_points tb'.
Proof.
  intros GF GT TY B W L W' L' LP H.
  destruct (convert_vec_ok strict from to calls c sb) as (tb & E & T1 & T2 & T3 & V); auto.
  destruct (convert_map_ok strict from to calls c sb') as (tb' & E' & T1' & T2' & T3' & V'); auto.
  exists tb, tb'. split; [exact E|]. split; [exact E'|].
  destruct (bf_points_uniform sb W) as [U N]. destruct (bf_points_uniform sb' W') as [U' N'].
  destruct (wf_uniform tb T1) as [UT NT]. destruct (wf_uniform tb' T1') as [UT' NT']. rewrite T2 in UT. rewrite T2' in UT'.
  apply nth_error_ext. intros i. destruct (Nat.ltb_spec i (bf_len sb)) as [I|I].
  - destruct (nth_error (bf_points sb) i) as [p|] eqn:P; [|apply nth_error_None in P; lia].
    destruct (nth_error (bf_points sb') i) as [p'|] eqn:P'; [|apply nth_error_None in P'; lia].
    destruct (V i p P) as (r & R & A & PAD). destruct (V' i p' P') as (r' & R' & A' & PAD').
    rewrite R, R'. f_equal. pose proof (uniform_nth _ _ _ _ UT R) as LR. pose proof (uniform_nth _ _ _ _ UT' R') as LR'.
    assert (AV : forall m, In m (l_attrs from) -> attr_value m p = attr_value m p').
    { intros m Hm. specialize (H i m Hm). rewrite (nth_error_nth _ _ _ P), (nth_error_nth _ _ _ P') in H. exact H. }
    assert (EA : forall tm, In tm (l_attrs to) -> attr_value tm r = attr_value tm r').
    { intros tm Ht. specialize (A tm Ht). specialize (A' tm Ht). rewrite (converted_ext _ _ _ _ p' _ GF AV) in A. congruence. }
    apply nth_error_ext. intros q. destruct (Nat.ltb_spec q (l_size to)) as [Q|Q].
    + destruct (existsb (fun m => Nat.leb (m_offset m) q && Nat.ltb q (m_offset m + m_size m)) (l_attrs to)) eqn:X.
      * apply existsb_exists in X. destruct X as (tm & Ht & X). apply andb_true_iff in X. destruct X as [X1 X2]. apply Nat.leb_le in X1. apply Nat.ltb_lt in X2.
        specialize (EA tm Ht). apply (f_equal (fun l => nth_error l (q - m_offset tm))) in EA. unfold attr_value in EA. rewrite !nth_error_sub in EA.
        replace (m_offset tm + (q - m_offset tm)) with q in EA by lia. destruct (Nat.ltb_spec (q - m_offset tm) (m_size tm)); [exact EA|lia].
      * assert (O : forall tm, In tm (l_attrs to) -> q < m_offset tm \/ m_offset tm + m_size tm <= q).
        { intros tm Ht. destruct (Nat.leb_spec (m_offset tm) q); [|lia]. destruct (Nat.ltb_spec q (m_offset tm + m_size tm)); [|lia].
          exfalso. assert (X' : existsb (fun m => Nat.leb (m_offset m) q && Nat.ltb q (m_offset m + m_size m)) (l_attrs to) = true); [|congruence].
          apply existsb_exists. exists tm. split; auto. apply andb_true_iff. split; [now apply Nat.leb_le|now apply Nat.ltb_lt]. }
        now rewrite (PAD q Q O), (PAD' q Q O).
    + rewrite !(proj2 (nth_error_None _ _)) by lia. reflexivity.
  - rewrite !(proj2 (nth_error_None _ _)) by (rewrite ?NT, ?NT'; lia). reflexivity.
Qed.

Definition raw_ex_from : layout := match from_attributes [INTENSITY; GPS_TIME] with Ok l => l | _ => layout_default end.
Definition raw_ex_to : layout := match from_attributes [INTENSITY] with Ok l => l | _ => layout_default end.
Lemma raw_ex_good : good_layout raw_ex_from /\ good_layout raw_ex_to.
Proof.
  split.
  - apply (grown_good [(INTENSITY, Default); (GPS_TIME, Default)]); [vm_compute; reflexivity|discriminate|].
    intros a fa [H|[H|[]]]; injection H as <- <-; vm_compute; lia.
  - apply (grown_good [(INTENSITY, Default)]); [vm_compute; reflexivity|discriminate|].
    intros a fa [H|[]]; injection H as <- <-; vm_compute; lia.
Qed.
Lemma raw_converter_skips :
  exists from to src tgt tgt' sm tm, good_layout from /\ good_layout to /\ length src = l_size from /\ length tgt = l_size to
  /\ (forall sm tm, In sm (l_attrs from) -> In tm (l_attrs to) -> m_name sm = m_name tm -> convertible (m_type sm) (m_type tm))
  /\ (let* c := raw_from_to from to in raw_convert c src tgt) = Ok tgt'
  /\ In sm (l_attrs from) /\ In tm (l_attrs to) /\ m_name sm = m_name tm
  /\ value_as (m_type sm) (m_type tm) (attr_value sm src) <> Some (attr_value tm tgt').
Proof.
  exists raw_ex_from, raw_ex_to, (repeat 7%Z 16), [0%Z; 0%Z], [0%Z; 0%Z], (mk_member INTENSITY 0 2), (mk_member INTENSITY 0 2).
  destruct raw_ex_good as [G1 G2]. split; [exact G1|]. split; [exact G2|]. split; [reflexivity|]. split; [reflexivity|]. split.
  { intros sm tm Hs Ht HN. vm_compute in Hs, Ht. destruct Hs as [<-|[<-|[]]], Ht as [<-|[]]; try discriminate HN. now left. }
  split; [vm_compute; reflexivity|]. split; [vm_compute; auto|]. split; [vm_compute; auto|]. split; [reflexivity|]. vm_compute. discriminate.
Qed.

Lemma convert_into_longer :
  exists from to c sb tb tb', build true from to [] = Ok c /\ bf_wf sb /\ bf_layout sb = from /\ mb_wf tb /\ mb_layout tb = to
  /\ mb_len tb <> bf_len sb /\ convert_into c sb tb = Ok tb'.
Proof.
  assert (B : exists c, build true raw_ex_from raw_ex_to [] = Ok c) by (eexists; vm_compute; reflexivity). destruct B as [c B].
  destruct raw_ex_good as [GF GT].
  destruct (fresh_vec raw_ex_from 1 GF) as (A1 & A2 & A3 & _). destruct (fresh_vec raw_ex_to 2 GT) as (B1 & B2 & B3 & _).
  destruct (convert_into_ok true raw_ex_from raw_ex_to [] c (Of (VecB (vb_resize (vb_new raw_ex_from) 1))) (VecB (vb_resize (vb_new raw_ex_to) 2)))
    as [_ H]; auto.
  destruct H as (tb' & E & _); [vm_compute; lia|].
  exists raw_ex_from, raw_ex_to, c, (Of (VecB (vb_resize (vb_new raw_ex_from) 1))), (VecB (vb_resize (vb_new raw_ex_to) 2)), tb'.
  split; [exact B|]. split; [exact A1|]. split; [exact A2|]. split; [exact B1|]. split; [exact B2|]. split; [vm_compute; discriminate|exact E].
Qed.
