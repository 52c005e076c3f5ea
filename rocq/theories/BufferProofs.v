(* Proofs about point buffers. *)
From Coq Require Import String List ZArith Lia Bool Arith.
From Verif Require Import Base LayoutModel LayoutSpec LayoutProofs BufferModel BufferSpec ListLemmas.
Import ListNotations.

(* ------------------------------------------------------------------ layouts *)

Lemma member_of_get l a : member_of l a = get_attribute l a.
Proof. reflexivity. Qed.

Lemma attr_def_eqb_eq a b : attr_def_eqb a b = true <-> a = b.
Proof.
  unfold attr_def_eqb. rewrite andb_true_iff, String.eqb_eq, datatype_eqb_eq.
  destruct a, b; simpl. split; [intros [-> ->]; reflexivity|intros H; injection H; auto].
Qed.

Lemma attr_def_eqb_refl a : attr_def_eqb a a = true.
Proof. now apply attr_def_eqb_eq. Qed.

Lemma attr_def_eqb_neq a b : a <> b -> attr_def_eqb a b = false.
Proof. intros H. destruct (attr_def_eqb a b) eqn:E; auto. apply attr_def_eqb_eq in E. contradiction. Qed.

Lemma member_eqb_eq a b : member_eqb a b = true <-> a = b.
Proof.
  unfold member_eqb. rewrite !andb_true_iff, attr_def_eqb_eq, !Nat.eqb_eq.
  destruct a, b; simpl. split; [intros [[-> ->] ->]; reflexivity|intros H; injection H; auto].
Qed.

Lemma members_eqb_eq a : forall b, members_eqb a b = true <-> a = b.
Proof.
  induction a as [|x a IH]; intros [|y b]; simpl; split; intros H; try discriminate; auto.
  - apply andb_true_iff in H. destruct H as [H1 H2]. apply member_eqb_eq in H1. apply IH in H2. now subst.
  - injection H as -> ->. apply andb_true_iff. split; [now apply member_eqb_eq|now apply IH].
Qed.

Lemma layout_eqb_eq a b : layout_eqb a b = true <-> a = b.
Proof.
  unfold layout_eqb. rewrite !andb_true_iff, members_eqb_eq, !Nat.eqb_eq.
  destruct a, b; simpl. split; [intros [[-> ->] ->]; reflexivity|intros H; injection H; auto].
Qed.

Lemma member_of_spec l a m : good_layout l -> (member_of l a = Some m <-> In m (l_attrs l) /\ m_def m = a).
Proof. intros (_ & ND & _). rewrite member_of_get. now apply get_attribute_spec. Qed.

Lemma member_of_In l m : good_layout l -> In m (l_attrs l) -> member_of l (m_def m) = Some m.
Proof. intros. apply member_of_spec; auto. Qed.

Lemma good_member l m : good_layout l -> In m (l_attrs l) ->
  0 < m_size m /\ m_size m = dt_size (ad_type (m_def m)) /\ m_offset m + m_size m <= l_size l.
Proof. intros (_ & _ & _ & H) Hm. exact (H m Hm). Qed.

Lemma good_size l : good_layout l -> 0 < l_size l.
Proof.
  intros G. destruct (l_attrs l) as [|m ms] eqn:E.
  - destruct G as [G _]. contradiction.
  - destruct (good_member l m G) as [? [? ?]]; [rewrite E; simpl; auto|lia].
Qed.

Lemma good_defs l : good_layout l -> NoDup (map m_def (l_attrs l)).
Proof.
  intros (_ & ND & _). unfold m_name in ND. rewrite <- (map_map m_def ad_name) in ND.
  eapply NoDup_map_inv; eauto.
Qed.

Lemma good_def_inj l m m' : good_layout l -> In m (l_attrs l) -> In m' (l_attrs l) -> m_def m = m_def m' -> m = m'.
Proof. intros G. apply NoDup_map_inj. now apply good_defs. Qed.

Lemma good_disjoint l m m' : good_layout l -> In m (l_attrs l) -> In m' (l_attrs l) -> m <> m' ->
  m_offset m + m_size m <= m_offset m' \/ m_offset m' + m_size m' <= m_offset m.
Proof.
  intros G Hm Hm' N.
  destruct (good_member l m G Hm) as (P & _ & _). destruct (good_member l m' G Hm') as (P' & _ & _).
  destruct G as (_ & _ & D & _).
  apply In_nth_error in Hm. destruct Hm as [i Hi]. apply In_nth_error in Hm'. destruct Hm' as [j Hj].
  assert (i <> j) by (intros ->; congruence).
  destruct (Nat.le_gt_cases (m_offset m + m_size m) (m_offset m')); auto.
  destruct (Nat.le_gt_cases (m_offset m' + m_size m') (m_offset m)); auto.
  exfalso. apply (D i j m m' (Nat.max (m_offset m) (m_offset m')) H Hi Hj); unfold occupies; lia.
Qed.

(* Layouts grown attribute by attribute are good. *)
Lemma grown_good h l : add_history h = Ok l -> h <> [] -> (forall a fa, In (a, fa) h -> 0 < dt_size (ad_type a)) ->
  good_layout l.
Proof.
  intros H N P. pose proof (grown_layout h l H) as (D & ND & SZ & _ & DJ & EN).
  split; [|split; [|split]]; auto.
  - intros E. rewrite E in D. destruct h; [contradiction|discriminate].
  - intros m Hm. split; [|split].
    + assert (In (m_def m) (map m_def (l_attrs l))) by now apply in_map.
      rewrite D in H0. apply in_map_iff in H0. destruct H0 as [[a fa] [E Hin]]. simpl in E.
      specialize (P a fa Hin). rewrite SZ by assumption. unfold m_type. now rewrite <- E.
    + auto.
    + destruct (Nat.le_gt_cases (m_offset m + m_size m) (l_size l)); auto.
      destruct (Nat.eq_dec (m_size m) 0) as [Z0|Z0].
      * exfalso. assert (In (m_def m) (map m_def (l_attrs l))) by now apply in_map.
        rewrite D in H1. apply in_map_iff in H1. destruct H1 as [[a fa] [E Hin]]. simpl in E.
        specialize (P a fa Hin). rewrite SZ in Z0 by assumption. unfold m_type in Z0. rewrite <- E in Z0. lia.
      * pose proof (EN m (m_offset m + m_size m - 1) Hm). unfold occupies in H1. lia.
Qed.

(* ------------------------------------------------------------------ attribute values in records *)

Lemma length_attr_value l m r : good_layout l -> In m (l_attrs l) -> length r = l_size l ->
  length (attr_value m r) = m_size m.
Proof. intros G Hm L. destruct (good_member l m G Hm) as (_ & _ & H). apply length_sub. lia. Qed.

Lemma length_with_attr m v r : length (with_attr m v r) = length r.
Proof. unfold with_attr, set_range. apply length_mapi. Qed.

Lemma attr_value_with_same l m v r : good_layout l -> In m (l_attrs l) -> length r = l_size l -> length v = m_size m ->
  attr_value m (with_attr m v r) = v.
Proof.
  intros G Hm L V. destruct (good_member l m G Hm) as (_ & _ & H).
  unfold with_attr. rewrite <- blit_set_range by lia. unfold attr_value.
  apply nth_error_ext. intros k. rewrite nth_error_sub, nth_error_blit by lia.
  destruct (Nat.ltb_spec k (m_size m)).
  - destruct (Nat.leb_spec (m_offset m) (m_offset m + k)); [|lia].
    destruct (Nat.ltb_spec (m_offset m + k) (m_offset m + length v)); [|lia].
    simpl. f_equal. lia.
  - symmetry. apply nth_error_None_ge. lia.
Qed.

Lemma attr_value_with_other l m m' v r : good_layout l -> In m (l_attrs l) -> In m' (l_attrs l) -> m <> m' ->
  length r = l_size l -> length v = m_size m -> attr_value m' (with_attr m v r) = attr_value m' r.
Proof.
  intros G Hm Hm' N L V. destruct (good_member l m G Hm) as (_ & _ & H).
  pose proof (good_disjoint l m m' G Hm Hm' N) as D.
  unfold with_attr. rewrite <- blit_set_range by lia. unfold attr_value.
  apply nth_error_ext. intros k. rewrite !nth_error_sub, nth_error_blit by lia.
  destruct (Nat.ltb_spec k (m_size m')); auto.
  destruct (Nat.leb_spec (m_offset m) (m_offset m' + k)); auto.
  destruct (Nat.ltb_spec (m_offset m' + k) (m_offset m + length v)); auto. lia.
Qed.

(* ------------------------------------------------------------------ VectorBuffer *)

Definition vb_rep (l : layout) (recs : list rec) (b : vbuf) : Prop :=
  vb_layout b = l /\ vb_storage b = concat recs /\ uniform (l_size l) recs /\ vb_len b = length recs.

Lemma vb_rep_storage l recs b : vb_rep l recs b -> length (vb_storage b) = length recs * l_size l.
Proof. intros (_ & -> & U & _). now apply length_concat. Qed.

Lemma vb_rep_inv l recs b : good_layout l -> vb_rep l recs b -> vb_inv b.
Proof.
  intros G H. pose proof (vb_rep_storage l recs b H) as S. destruct H as (Hl & _ & _ & E).
  unfold vb_inv. rewrite Hl, E. auto.
Qed.

Lemma vb_inv_rep b : vb_inv b -> vb_rep (vb_layout b) (pieces (l_size (vb_layout b)) (vb_len b) (vb_storage b)) b.
Proof.
  intros (G & L). split; [|split; [|split]]; auto.
  - symmetry. now apply concat_pieces.
  - now apply uniform_pieces.
  - now rewrite length_pieces.
Qed.

Lemma vb_new_rep l : vb_rep l [] (vb_new l).
Proof. split; [|split; [|split]]; auto. constructor. Qed.

Lemma vb_get_point_ref_ok l recs b i r : vb_rep l recs b -> nth_error recs i = Some r -> vb_get_point_ref b i = Ok r.
Proof.
  intros H E. pose proof (vb_rep_storage l recs b H) as S. destruct H as (Hl & Hs & U & Hn).
  pose proof (nth_error_lt _ _ _ E). unfold vb_get_point_ref, vb_psize. rewrite Hl.
  rewrite slice_get_ok by nia. rewrite Hs. f_equal.
  replace ((i + 1) * l_size l - i * l_size l) with (l_size l) by lia. now apply sub_concat_one.
Qed.

Lemma vb_get_point_ref_panic l recs b i : good_layout l -> vb_rep l recs b -> length recs <= i ->
  vb_get_point_ref b i = Panic.
Proof.
  intros G H E. pose proof (vb_rep_storage l recs b H) as S. destruct H as (Hl & Hs & U & Hn).
  pose proof (good_size l G). unfold vb_get_point_ref, vb_psize. rewrite Hl.
  apply slice_get_panic. right. nia.
Qed.

Lemma vb_get_point_range_ref_ok l recs b s e : vb_rep l recs b -> s <= e -> e <= length recs ->
  vb_get_point_range_ref b s e = Ok (concat (sub recs s (e - s))).
Proof.
  intros H L1 L2. pose proof (vb_rep_storage l recs b H) as S. destruct H as (Hl & Hs & U & Hn).
  unfold vb_get_point_range_ref, vb_psize. rewrite Hl. rewrite slice_get_ok by nia. rewrite Hs. f_equal.
  replace (e * l_size l - s * l_size l) with ((e - s) * l_size l) by nia. now apply sub_concat.
Qed.

Lemma vb_get_attr_unchecked_ok l recs b m i r data : good_layout l -> vb_rep l recs b -> In m (l_attrs l) ->
  nth_error recs i = Some r -> length data = m_size m ->
  vb_get_attribute_unchecked b m i data = Ok (attr_value m r).
Proof.
  intros G H Hm E D. pose proof (vb_rep_storage l recs b H) as S. destruct H as (Hl & Hs & U & Hn).
  destruct (good_member l m G Hm) as (_ & _ & B).
  pose proof (nth_error_lt _ _ _ E). unfold vb_get_attribute_unchecked, vb_attr_start, vb_psize. rewrite Hl.
  rewrite slice_get_ok by nia. rewrite Hs. simpl.
  replace (i * l_size l + m_offset m + m_size m - (i * l_size l + m_offset m)) with (m_size m) by lia.
  rewrite (sub_concat_in (l_size l) recs i r) by assumption.
  apply copy_ok. rewrite D. symmetry. eapply length_attr_value; eauto. eapply uniform_nth; eauto.
Qed.

Lemma vb_get_attr_unchecked_panic l recs b m i data : good_layout l -> vb_rep l recs b -> In m (l_attrs l) ->
  length recs <= i -> vb_get_attribute_unchecked b m i data = Panic.
Proof.
  intros G H Hm E. pose proof (vb_rep_storage l recs b H) as S. destruct H as (Hl & Hs & U & Hn).
  destruct (good_member l m G Hm) as (P & _ & B).
  unfold vb_get_attribute_unchecked, vb_attr_start, vb_psize. rewrite Hl.
  rewrite slice_get_panic; auto. right. nia.
Qed.

(* The default get_attribute_range on top of any correct get_attribute_unchecked. *)
Lemma get_attr_range_default_ok l recs (gu : member -> nat -> list Z -> res (list Z)) a m s e data :
  good_layout l -> uniform (l_size l) recs -> member_of l a = Some m ->
  (forall i r d, nth_error recs i = Some r -> length d = m_size m -> gu m i d = Ok (attr_value m r)) ->
  s <= e -> e <= length recs -> length data = (e - s) * m_size m ->
  get_attribute_range_default gu l a s e data
  = Ok (concat (map (fun k => attr_value m (nth (s + k) recs [])) (seq 0 (e - s)))).
Proof.
  intros G U M HG L1 L2 D. unfold get_attribute_range_default. rewrite <- member_of_get, M. simpl.
  apply member_of_spec in M; auto. destruct M as [Hm _].
  destruct (good_member l m G Hm) as (P & _ & B).
  assert (LV : forall i r, nth_error recs i = Some r -> length (attr_value m r) = m_size m).
  { intros. eapply length_attr_value; eauto. eapply uniform_nth; eauto. }
  set (vals := map (fun k => attr_value m (nth (s + k) recs [])) (seq 0 (e - s))).
  assert (UV : uniform (m_size m) vals).
  { apply uniform_map. intros k Hk. apply in_seq in Hk.
    destruct (nth_error_get recs (s + k)) as [r Hr]; [lia|]. rewrite (nth_nth_error _ _ _ _ Hr). eauto. }
  assert (LVs : length vals = e - s) by (unfold vals; now rewrite map_length, seq_length).
  edestruct (foldM_range (fun i d => d = concat (firstn (i - s) vals ++ skipn (i - s) (pieces (m_size m) (e - s) data))))
    as [st' [E1 E2]].
  4: { rewrite E1, E2. rewrite firstn_all_ge by lia. rewrite skipn_all2 by (rewrite length_pieces; lia).
       now rewrite app_nil_r. }
  - lia.
  - rewrite Nat.sub_diag. simpl. symmetry. now apply concat_pieces.
  - intros i d Hi ->.
    assert (UP : uniform (m_size m) (firstn (i - s) vals ++ skipn (i - s) (pieces (m_size m) (e - s) data))).
    { apply uniform_app. now apply uniform_firstn. apply uniform_skipn, uniform_pieces. lia. }
    assert (LP : length (firstn (i - s) vals ++ skipn (i - s) (pieces (m_size m) (e - s) data)) = e - s).
    { rewrite app_length, firstn_length, skipn_length, length_pieces. lia. }
    set (cur := firstn (i - s) vals ++ skipn (i - s) (pieces (m_size m) (e - s) data)) in *.
    rewrite slice_get_ok. 2: nia. 2: { rewrite (length_concat (m_size m)) by assumption. nia. }
    simpl. destruct (nth_error_get recs i) as [r Hr]; [lia|].
    rewrite (HG i r); auto.
    2: { rewrite length_sub. lia. rewrite (length_concat (m_size m)) by assumption. nia. }
    simpl. eexists. split; [reflexivity|].
    rewrite (blit_concat_one (m_size m)); auto.
    2: lia. 2: eauto.
    f_equal. apply nth_error_ext. intros k. unfold set_nth. rewrite nth_error_mapi. unfold cur.
    assert (Hv : nth_error vals (i - s) = Some (attr_value m r)).
    { unfold vals. rewrite nth_error_map, nth_error_seq. destruct (Nat.ltb_spec (i - s) (e - s)); [|lia].
      simpl. replace (s + (i - s)) with i by lia. now rewrite (nth_nth_error _ _ _ _ Hr). }
    assert (Lf : length (firstn (i - s) vals) = i - s) by (rewrite firstn_length; lia).
    assert (Lf' : length (firstn (i + 1 - s) vals) = i + 1 - s) by (rewrite firstn_length; lia).
    destruct (Nat.eqb_spec k (i - s)).
    + subst k. rewrite (nth_error_app2 (firstn (i - s) vals)) by lia.
      rewrite nth_error_skipn, nth_error_pieces, Lf, Nat.sub_diag, Nat.add_0_r.
      destruct (Nat.ltb_spec (i - s) (e - s)); [|lia]. simpl.
      rewrite nth_error_app1 by lia. rewrite nth_error_firstn.
      destruct (Nat.ltb_spec (i - s) (i + 1 - s)); [|lia]. now rewrite Hv.
    + destruct (Nat.lt_ge_cases k (i - s)).
      * rewrite !nth_error_app1 by lia. rewrite !nth_error_firstn.
        destruct (Nat.ltb_spec k (i - s)); [|lia]. destruct (Nat.ltb_spec k (i + 1 - s)); [|lia].
        now destruct (nth_error vals k).
      * rewrite !nth_error_app2 by lia. rewrite !nth_error_skipn, Lf, Lf'.
        replace (i - s + (k - (i - s))) with k by lia. replace (i + 1 - s + (k - (i + 1 - s))) with k by lia.
        now destruct (nth_error (pieces (m_size m) (e - s) data) k).
Qed.

Lemma get_attr_range_default_panic l recs (gu : member -> nat -> list Z -> res (list Z)) a m s e data :
  good_layout l -> uniform (l_size l) recs -> member_of l a = Some m ->
  (forall i r d, nth_error recs i = Some r -> length d = m_size m -> gu m i d = Ok (attr_value m r)) ->
  (forall i d, length recs <= i -> length d = m_size m -> gu m i d = Panic) ->
  s < e -> length recs < e -> length data = (e - s) * m_size m ->
  get_attribute_range_default gu l a s e data = Panic.
Proof.
  intros G U M HG HP L1 L2 D. unfold get_attribute_range_default. rewrite <- member_of_get, M. simpl.
  apply member_of_spec in M; auto. destruct M as [Hm _].
  apply (foldM_range_panic (fun i d => length d = (e - s) * m_size m)) with (i0 := Nat.max s (length recs)); auto.
  - lia.
  - intros i d Hi Ld. rewrite slice_get_ok by nia. simpl.
    destruct (nth_error_get recs i) as [r Hr]; [lia|].
    assert (length (sub d ((i - s) * m_size m) ((i - s + 1) * m_size m - (i - s) * m_size m)) = m_size m).
    { rewrite length_sub; nia. }
    rewrite (HG i r) by assumption. simpl. eexists. split; [reflexivity|].
    assert (length (attr_value m r) = m_size m). { eapply length_attr_value; eauto. eapply uniform_nth; eauto. }
    rewrite length_blit; nia.
  - intros d Ld. rewrite slice_get_ok by nia. simpl. rewrite HP; auto. lia. rewrite length_sub; nia.
Qed.

Lemma vb_reads l recs b : good_layout l -> vb_rep l recs b -> vb_reads_as b recs.
Proof.
  intros G H. pose proof H as (Hl & Hs & U & Hn). unfold vb_reads_as. rewrite Hl.
  pose proof (good_size l G) as PS. pose proof (vb_rep_storage l recs b H) as S.
  split; [|split; [|split; [|split]]]; auto.
  - intros i data D. unfold vb_get_point. destruct (nth_error recs i) as [r|] eqn:E.
    + rewrite (vb_get_point_ref_ok l recs) with (r := r) by assumption. simpl. apply copy_ok.
      rewrite D. symmetry. eapply uniform_nth; eauto.
    + apply nth_error_None in E. erewrite vb_get_point_ref_panic; eauto.
  - intros s e data R D. unfold vb_get_point_range. destruct (Nat.leb_spec e (length recs)).
    + rewrite (vb_get_point_range_ref_ok l recs) by (try assumption; destruct R; lia). simpl.
      assert (LS : length (sub recs s (e - s)) = e - s) by (apply length_sub; destruct R; lia).
      rewrite copy_ok. 2: { rewrite (length_concat (l_size l)); [congruence|now apply uniform_sub]. }
      f_equal. f_equal. apply nth_error_ext. intros k. rewrite nth_error_sub, nth_error_map, nth_error_seq.
      destruct (Nat.ltb_spec k (e - s)); auto. simpl.
      destruct (nth_error_get recs (s + k)) as [r Hr]; [destruct R; lia|].
      now rewrite Hr, (nth_nth_error _ _ _ _ Hr).
    + unfold vb_get_point_range_ref, vb_psize. rewrite Hl. rewrite slice_get_panic; auto.
      right. nia.
  - intros a i data D. unfold vb_get_attribute. rewrite Hl, <- member_of_get.
    destruct (member_of l a) as [m|] eqn:M; auto. simpl. apply member_of_spec in M; auto.
    destruct M as [Hm <-]. destruct (good_member l m G Hm) as (_ & SZ & _).
    destruct (nth_error recs i) as [r|] eqn:E.
    + eapply vb_get_attr_unchecked_ok; eauto. lia.
    + apply nth_error_None in E. eapply vb_get_attr_unchecked_panic; eauto.
  - intros a s e data R D. unfold vb_get_attribute_range. rewrite Hl.
    destruct (member_of l a) as [m|] eqn:M.
    2: { unfold get_attribute_range_default. now rewrite <- member_of_get, M. }
    pose proof M as M'. apply member_of_spec in M'; auto. destruct M' as [Hm Ea].
    destruct (good_member l m G Hm) as (_ & SZ & _). rewrite Ea in SZ.
    destruct (Nat.leb_spec e (length recs)).
    + eapply get_attr_range_default_ok; eauto; try (destruct R; lia); try congruence.
      intros. eapply vb_get_attr_unchecked_ok; eauto.
    + eapply get_attr_range_default_panic; eauto; try (destruct R; lia); try congruence.
      * intros. eapply vb_get_attr_unchecked_ok; eauto.
      * intros. eapply vb_get_attr_unchecked_panic; eauto.
Qed.
