(* Lemmas for C64 (comparison of layouts without offsets) and C65 (attribute pusher). *)
From Coq Require Import String List ZArith Lia Bool Arith Permutation.
From Verif Require Import Base LayoutModel LayoutSpec LayoutProofs BufferModel BufferSpec ListLemmas BufferProofs
  BufferSteps BufferSteps2 BufferSteps3 BufferSteps4 TraitModel TraitSpec TraitProofs TraitProofs2 TraitProofs3 BufferFacts BufferExamples.
Import ListNotations.

Lemma names_defs l : NoDup (map m_name (l_attrs l)) -> NoDup (map m_def (l_attrs l)).
Proof.
  intros ND. replace (map m_name (l_attrs l)) with (map ad_name (map m_def (l_attrs l))) in ND by (rewrite map_map; reflexivity).
  eapply NoDup_map_inv; eauto.
Qed.

Lemma compare_without_offsets_spec l o : NoDup (map m_name (l_attrs l)) -> NoDup (map m_name (l_attrs o)) ->
  (compare_without_offsets l o = true <-> Permutation (map m_def (l_attrs l)) (map m_def (l_attrs o))).
Proof.
  intros Nl No. unfold compare_without_offsets. split.
  - destruct (Nat.eqb_spec (length (l_attrs l)) (length (l_attrs o))) as [EL|]; cbn [negb]; [|discriminate].
    intros H. rewrite forallb_forall in H.
    apply NoDup_Permutation_bis; [now apply names_defs|rewrite !map_length; lia|].
    intros a Ha. apply in_map_iff in Ha. destruct Ha as (m & <- & Hm). specialize (H m Hm). cbn beta in H.
    destruct (get_attribute_by_name o (m_name m)) as [om|] eqn:E; [|discriminate].
    apply get_by_name_spec in E; [|exact No]. destruct E as [Ho En]. apply datatype_eqb_eq in H.
    apply in_map_iff. exists om. split; [|exact Ho].
    unfold m_name, m_type in *. destruct (m_def om), (m_def m). simpl in *. congruence.
  - intros P. pose proof (Permutation_length P) as EL. rewrite !map_length in EL. rewrite EL, Nat.eqb_refl. cbn [negb].
    apply forallb_forall. intros m Hm.
    assert (Ho : In (m_def m) (map m_def (l_attrs o))) by (eapply Permutation_in; [exact P|now apply in_map]).
    apply in_map_iff in Ho. destruct Ho as (om & Ed & Ho).
    assert (E : get_attribute_by_name o (m_name m) = Some om).
    { apply get_by_name_spec; [exact No|]. split; [exact Ho|]. unfold m_name. now rewrite Ed. }
    rewrite E. apply datatype_eqb_eq. unfold m_type. now rewrite Ed.
Qed.

(* a point with given attribute values *)
Lemma build_point l (v : member -> list Z) : good_layout l -> (forall m, In m (l_attrs l) -> length (v m) = m_size m) ->
  exists r, length r = l_size l /\ forall m, In m (l_attrs l) -> attr_value m r = v m.
Proof.
  intros G L.
  assert (H : forall ms, incl ms (l_attrs l) -> exists r, length r = l_size l /\ forall m, In m ms -> attr_value m r = v m).
  { induction ms as [|m ms IH]; intros I.
    - exists (repeat 0%Z (l_size l)). split; [apply repeat_length|]. intros m [].
    - destruct IH as (r & Lr & V). { intros x Hx. apply I. now right. }
      assert (Hm : In m (l_attrs l)) by (apply I; now left).
      exists (with_attr m (v m) r). split; [now rewrite length_with_attr|].
      intros m' Hm'. destruct (attr_def_eqb (m_def m) (m_def m')) eqn:Q.
      + apply attr_def_eqb_eq in Q. assert (m' = m) as ->.
        { exact (good_def_inj l m' m G (I _ Hm') Hm (eq_sym Q)). }
        apply (attr_value_with_same l); auto.
      + assert (N : m <> m') by (intros ->; rewrite attr_def_eqb_refl in Q; discriminate).
        destruct Hm' as [->|Hm']; [congruence|].
        rewrite (attr_value_with_other l m m'); auto. apply I. now right. }
  apply H. apply incl_refl.
Qed.

Lemma build_points l n (vals : member -> list (list Z)) : good_layout l ->
  (forall m, In m (l_attrs l) -> length (vals m) = n /\ uniform (m_size m) (vals m)) ->
  exists rs, length rs = n /\ uniform (l_size l) rs /\ forall m, In m (l_attrs l) -> map (attr_value m) rs = vals m.
Proof.
  intros G. revert vals. induction n as [|n IH]; intros vals H.
  - exists []. split; [reflexivity|]. split; [constructor|]. intros m Hm. destruct (H m Hm) as [E _].
    destruct (vals m); [reflexivity|discriminate].
  - destruct (build_point l (fun m => hd [] (vals m)) G) as (r & Lr & V).
    { intros m Hm. destruct (H m Hm) as [E U]. destruct (vals m) as [|x xs]; [discriminate|]. now inversion U. }
    destruct (IH (fun m => tl (vals m))) as (rs & Ln & Un & Vn).
    { intros m Hm. destruct (H m Hm) as [E U]. destruct (vals m) as [|x xs]; [discriminate|]. inversion U; subst. simpl in *. split; [lia|assumption]. }
    exists (r :: rs). split; [simpl; lia|]. split; [constructor; assumption|].
    intros m Hm. cbn [map]. rewrite (V m Hm), (Vn m Hm). destruct (H m Hm) as [E U]. destruct (vals m); [discriminate|reflexivity].
Qed.

Lemma attr_value_norm l m r : good_layout l -> In m (l_attrs l) -> length r = l_size l -> attr_value m (norm l r) = attr_value m r.
Proof. intros G Hm Lr. unfold norm. apply (attr_value_overlay l); auto. now rewrite repeat_length. Qed.

Lemma pusher_points b n (vals : member -> list (list Z)) order : hb_inv b -> 0 < n ->
  (forall m, In m (l_attrs (hb_layout b)) -> length (vals m) = n /\ Forall (fun v => length v = m_size m) (vals m)) ->
  Permutation order (l_attrs (hb_layout b)) ->
  exists p b' news,
    foldM (fun p m => pusher_push p (m_type m) (m_def m) (vals m)) order (pusher_new b) = Ok p
    /\ pusher_done p b = Ok b' /\ hb_inv b' /\ hb_layout b' = hb_layout b
    /\ points_of (BH b') = points_of (BH b) ++ news /\ length news = n
    /\ forall m i, In m (l_attrs (hb_layout b)) -> i < n -> attr_value m (nth i news []) = nth i (vals m) [].
Proof.
  intros I PN HV PM. pose proof (hb_inv_rep b I) as R. destruct I as (G & _). set (l := hb_layout b) in *.
  destruct (pusher_all l _ b n vals order G R PN HV PM) as (p & b' & E & D & Hl & Hn & K & C).
  destruct (build_points l n vals G HV) as (rs & Lrs & Urs & Vrs).
  assert (R' : hb_rep l (points_of (BH b) ++ rs) b').
  { destruct R as (_ & _ & U & _). split; [exact Hl|]. split; [rewrite app_length, Lrs; exact Hn|].
    split; [now apply uniform_app|]. split; [exact K|]. intros m Hm. rewrite (C m Hm), map_app, (Vrs m Hm). reflexivity. }
  exists p, b', (map (norm l) rs). split; [exact E|]. split; [exact D|]. split; [eapply hb_rep_inv; eauto|]. split; [exact Hl|].
  split; [|split].
  - rewrite (points_of_columnar l _ b' G R'), map_app. f_equal.
    rewrite <- (points_of_columnar l _ b G R). reflexivity.
  - now rewrite map_length.
  - intros m i Hm Hi. destruct (nth_error_get rs i) as [r Hr]; [lia|].
    rewrite (nth_nth_error (map (norm l) rs) i [] (norm l r)) by (rewrite nth_error_map, Hr; reflexivity).
    rewrite (attr_value_norm l) by (auto; exact (uniform_nth _ _ _ _ Urs Hr)).
    rewrite <- (Vrs m Hm). symmetry. apply nth_nth_error. rewrite nth_error_map, Hr. reflexivity.
Qed.

(* an attribute that got no data *)
Lemma pusher_incomplete p b a : pu_num p <> None -> pu_num p <> Some 0 -> In (a, []) (pu_map p) -> pusher_done p b = Panic.
Proof.
  intros H0 H1 Hin. unfold pusher_done. destruct (pu_num p) as [n|]; [|congruence].
  destruct (Nat.eqb_spec n 0); [congruence|].
  assert (F : forallb (fun kv : attr_def * list Z => negb (Nat.eqb (length (snd kv)) 0)) (pu_map p) = false).
  { destruct (forallb _ _) eqn:Q; [|reflexivity]. rewrite forallb_forall in Q. specialize (Q _ Hin). discriminate. }
  rewrite F. reflexivity.
Qed.

Lemma hm_get_app_key (h : list (attr_def * list Z)) a : hm_get h a <> None -> exists c, hm_get h a = Some c.
Proof. destruct (hm_get h a); eauto; congruence. Qed.

(* if some attribute of the layout is never pushed while points were pushed for another one, done panics *)
Lemma pusher_missing b (pushes : list (datatype * attr_def * list (list Z))) p missing : hb_inv b ->
  foldM (fun p x => pusher_push p (fst (fst x)) (snd (fst x)) (snd x)) pushes (pusher_new b) = Ok p ->
  In missing (map m_def (l_attrs (hb_layout b))) -> ~ In missing (map (fun x => snd (fst x)) pushes) ->
  (exists x, In x pushes /\ snd x <> []) -> pusher_done p b = Panic.
Proof.
  intros (G & _) E Hm Nm (x & Hx & Nx).
  assert (INV : forall pre post q, pushes = pre ++ post ->
     foldM (fun p x => pusher_push p (fst (fst x)) (snd (fst x)) (snd x)) post q = Ok p ->
     In (missing, []) (pu_map q) -> map fst (pu_map q) = map m_def (l_attrs (hb_layout b)) ->
     (forall y, In y pre -> pu_num q = Some (length (snd y))) ->
     In (missing, []) (pu_map p) /\ forall y, In y pushes -> pu_num p = Some (length (snd y))).
  { intros pre post. revert pre. induction post as [|y post IH]; intros pre q EQ F Iq Kq Nq.
    - cbn [foldM] in F. injection F as <-. rewrite app_nil_r in EQ. subst pre. auto.
    - cbn [foldM] in F. apply bind_ok in F. destruct F as (q' & P & F).
      unfold pusher_push in P. destruct (datatype_eqb _ _); [|discriminate]. cbn [assert bind] in P.
      destruct (hm_get (pu_map q) (snd (fst y))) as [c|] eqn:Hg; [|discriminate]. cbn [unwrap bind] in P.
      destruct (match pu_num q with Some n => n =? length (snd y) | None => true end) eqn:As; [|discriminate].
      cbn [assert bind] in P. injection P as <-.
      apply (IH (pre ++ [y]) _ ltac:(rewrite <- app_assoc; exact EQ) F); cbn [pu_map pu_num].
      + assert (ND : NoDup (map fst (pu_map q))) by (rewrite Kq; now apply good_defs).
        apply hm_get_In; [now rewrite hm_set_keys|]. rewrite hm_get_set_other.
        * apply hm_get_In; auto.
        * intros X. apply Nm. rewrite EQ, map_app. apply in_or_app. right. left. exact X.
      + now rewrite hm_set_keys.
      + intros z Hz. apply in_app_or in Hz. destruct Hz as [Hz|[<-|[]]].
        * now rewrite (Nq z Hz).
        * destruct (pu_num q) as [k|]; [|reflexivity]. apply Nat.eqb_eq in As. now subst. }
  destruct (INV [] pushes (pusher_new b) eq_refl E) as (Im & Np).
  - cbn [pusher_new pu_map]. apply in_map_iff in Hm. destruct Hm as (m & <- & Hm).
    apply in_map_iff. exists m. auto.
  - cbn [pusher_new pu_map]. rewrite map_map. reflexivity.
  - intros y [].
  - apply (pusher_incomplete p b missing); [..|exact Im]; rewrite (Np x Hx); [discriminate|].
    destruct (snd x); [congruence|discriminate].
Qed.

Lemma defs_names l : map (fun m => (m_name m, m_type m)) (l_attrs l) = map (fun a => (ad_name a, ad_type a)) (map m_def (l_attrs l)).
Proof. now rewrite map_map. Qed.

Lemma compare_without_offsets_api l o : api_layout l -> api_layout o ->
  (compare_without_offsets l o = true
   <-> Permutation (map (fun m => (m_name m, m_type m)) (l_attrs l)) (map (fun m => (m_name m, m_type m)) (l_attrs o))).
Proof.
  intros Al Ao. rewrite (compare_without_offsets_spec l o (api_layout_names l Al) (api_layout_names o Ao)).
  rewrite !defs_names. split; [apply Permutation_map|]. intros P.
  set (g := fun x : string * datatype => mk_def (fst x) (snd x)).
  apply (Permutation_map g) in P. rewrite !map_map in P.
  assert (E : forall L, map (fun x => g (ad_name x, ad_type x)) L = L).
  { intros L. rewrite <- (map_id L) at 2. apply map_ext. now intros []. }
  rewrite <- !(map_map m_def (fun x => g (ad_name x, ad_type x))) in P. now rewrite !E in P.
Qed.

Lemma compare_without_offsets_equiv :
  (forall l, api_layout l -> compare_without_offsets l l = true)
  /\ (forall l o, api_layout l -> api_layout o -> compare_without_offsets l o = compare_without_offsets o l)
  /\ (forall l o p, api_layout l -> api_layout o -> api_layout p ->
        compare_without_offsets l o = true -> compare_without_offsets o p = true -> compare_without_offsets l p = true).
Proof.
  split; [|split].
  - intros l A. now apply compare_without_offsets_api.
  - intros l o A B. pose proof (compare_without_offsets_api l o A B). pose proof (compare_without_offsets_api o l B A).
    destruct (compare_without_offsets l o) eqn:E1, (compare_without_offsets o l) eqn:E2; auto.
    + symmetry. apply H0. apply Permutation_sym. now apply H.
    + apply H. apply Permutation_sym. now apply H0.
  - intros l o p A B C H1 H2. apply (compare_without_offsets_api l p A C).
    eapply Permutation_trans; [apply (compare_without_offsets_api l o A B), H1|apply (compare_without_offsets_api o p B C), H2].
Qed.

Lemma pusher_twice :
  exists (b b' b'' : hbuf) (p : pusher) (pt : list Z), hb_inv b
  /\ foldM (fun p x => pusher_push p (fst (fst x)) (snd (fst x)) (snd x))
       [(U16, INTENSITY, [[1; 0]%Z]); (U16, INTENSITY, [[2; 0]%Z]); (F64, GPS_TIME, [repeat 0%Z 8]); (U8, CLASSIFICATION, [[0%Z]])]
       (pusher_new b) = Ok p
  /\ pusher_done p b = Ok b' /\ hb_push_points b' pt = Ok b'' /\ length pt = l_size (hb_layout b)
  /\ hb_len b'' = hb_len b + 2
  /\ (exists q, hb_get_point b'' (hb_len b + 1) (repeat 0%Z (l_size (hb_layout b))) = Ok q
        /\ attr_value m_intensity q <> attr_value m_intensity pt).
Proof.
  exists ex_map. do 3 eexists. exists (repeat 9%Z 24).
  split; [exact ex_map_inv|]. split; [vm_compute; reflexivity|]. split; [vm_compute; reflexivity|].
  split; [vm_compute; reflexivity|]. split; [vm_compute; reflexivity|]. split; [vm_compute; reflexivity|].
  eexists. split; [vm_compute; reflexivity|]. vm_compute. discriminate.
Qed.
