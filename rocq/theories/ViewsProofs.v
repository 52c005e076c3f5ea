(* Proofs about raw attribute views and the comparison of views and buffers. *)
From Coq Require Import String List ZArith Lia Bool Arith.
From Verif Require Import Base LayoutModel LayoutSpec LayoutProofs BufferModel BufferSpec ListLemmas BufferProofs BufferSteps BufferSteps2 BufferSteps3 TraitModel TraitSpec
  TraitProofs2 TraitProofs3 BufferFacts ConvModel ConvSpec ConvProofs ConvProofs5 ViewsModel ViewsSpec.
Import ListNotations.
Open Scope nat_scope.

Lemma sub_all {A} (l : list A) n : n = length l -> sub l 0 n = l.
Proof. intros ->. unfold sub. simpl. apply firstn_all. Qed.

Lemma bf_good b : bf_wf b -> good_layout (bf_layout b).
Proof. intros W. exact (proj2 (proj2 (proj2 (bf_wf_root b W)))). Qed.

(* ------------------------------------------------------------------ reading *)
Lemma raw_view_ok b m : bf_wf b -> In m (l_attrs (bf_layout b)) ->
  exists v, view_raw_attribute b m = Ok v /\ raw_len v = Ok (bf_len b)
    /\ (forall i p, nth_error (bf_points b) i = Some p -> raw_index v i = Ok (attr_value m p))
    /\ (forall i, bf_len b <= i -> raw_index v i = Panic).
Proof.
  intros W Hm. pose proof (bf_good b W) as G. destruct (bf_points_uniform b W) as (U & UL).
  destruct (good_member _ _ G Hm) as (Z0 & ZS & ZE). pose proof (good_size _ G) as ZL.
  pose proof (uniform_column _ m _ G Hm U) as UC.
  unfold view_raw_attribute. rewrite bf_is_columnar_eq. destruct (bf_columnar b) eqn:C.
  - unfold raw_from_columnar. rewrite (bf_column_ref b m 0 (bf_len b) W C Hm) by lia. cbn [bind].
    rewrite sub_all by (rewrite UL; lia). eexists. split; [reflexivity|].
    rewrite (ad_size_member (bf_layout b)) by auto.
    assert (LC : length (concat (map (attr_value m) (bf_points b))) = bf_len b * m_size m)
      by (rewrite (length_concat _ _ UC), map_length, UL; reflexivity).
    split; [|split].
    + unfold raw_len. cbn [rv_stride rv_data]. destruct (Nat.eqb_spec (m_size m) 0); [lia|]. cbn [negb assert bind].
      f_equal. rewrite LC. now apply Nat.div_mul.
    + intros i p Hp. unfold raw_index. cbn [rv_stride rv_data rv_offset rv_size].
      assert (Hi : i < bf_len b) by (rewrite <- UL; apply nth_error_Some; congruence).
      rewrite slice_get_ok by (rewrite ?LC; nia). f_equal.
      replace (0 + m_size m * i + m_size m - (0 + m_size m * i)) with (1 * m_size m) by lia.
      replace (0 + m_size m * i) with (i * m_size m) by lia.
      rewrite (ListLemmas.sub_concat (m_size m)) by auto.
      rewrite (sub_one _ i (attr_value m p)). simpl. apply app_nil_r. rewrite nth_error_map, Hp. reflexivity.
    + intros i Hi. unfold raw_index. cbn [rv_stride rv_data rv_offset rv_size]. apply slice_get_panic. rewrite LC. nia.
  - unfold raw_from_interleaved. rewrite (bf_points_ref b 0 (bf_len b) W C) by lia. cbn [bind].
    rewrite sub_all by (rewrite UL; lia). eexists. split; [reflexivity|].
    assert (LC : length (concat (bf_points b)) = bf_len b * l_size (bf_layout b))
      by (rewrite (length_concat _ _ U), UL; reflexivity).
    split; [|split].
    + unfold raw_len. cbn [rv_stride rv_data]. destruct (Nat.eqb_spec (l_size (bf_layout b)) 0); [lia|]. cbn [negb assert bind].
      f_equal. rewrite LC. apply Nat.div_mul. lia.
    + intros i p Hp. unfold raw_index. cbn [rv_stride rv_data rv_offset rv_size].
      assert (Hi : i < bf_len b) by (rewrite <- UL; apply nth_error_Some; congruence).
      rewrite slice_get_ok by (rewrite ?LC; nia). f_equal.
      replace (m_offset m + l_size (bf_layout b) * i + m_size m - (m_offset m + l_size (bf_layout b) * i)) with (m_size m) by lia.
      replace (m_offset m + l_size (bf_layout b) * i) with (i * l_size (bf_layout b) + m_offset m) by lia.
      assert (SP : sub (concat (bf_points b)) (i * l_size (bf_layout b)) (1 * l_size (bf_layout b)) = p).
      { rewrite (ListLemmas.sub_concat (l_size (bf_layout b))) by auto. rewrite (sub_one _ i p Hp). simpl. apply app_nil_r. }
      unfold attr_value. rewrite <- SP. rewrite sub_sub by lia. reflexivity.
    + intros i Hi. unfold raw_index. cbn [rv_stride rv_data rv_offset rv_size]. apply slice_get_panic. rewrite LC. nia.
Qed.

(* ------------------------------------------------------------------ writing *)
Lemma modify_column_panics b m f : forall i j, mb_wf b -> mb_columnar b = true -> In m (l_attrs (mb_layout b)) -> i <= j -> j <= mb_len b ->
  f (concat (map (attr_value m) (sub (mb_points b) i (j - i)))) = Panic ->
  mb_modify_attribute_range b (m_def m) i j f = Panic.
Proof.
  induction b as [v|h|e|b IH s e]; intros i j W C Hm L1 L2 F; try discriminate.
  - pose proof (mb_column_ref (MapB h) m i j W C Hm L1 L2) as CR.
    cbn [mb_get_attribute_range_ref] in CR. unfold hb_get_attribute_range_ref in CR.
    cbn [mb_modify_attribute_range]. destruct (hb_column h (m_def m)) as [c| |]; try discriminate. cbn [bind] in *.
    rewrite CR. cbn [bind]. rewrite F. reflexivity.
  - pose proof W as (W0 & S1 & S2). cbn [mb_modify_attribute_range mb_layout mb_len] in *. unfold slice_mut_range.
    rewrite (mb_slice_points b s e W) in F.
    destruct (Nat.leb_spec j e); [|lia]. cbn [assert bind]. destruct (Nat.leb_spec j i); cbn [bind fst snd].
    + rewrite IH; auto; try lia. replace (j - i) with 0 in F by lia. replace (e - e) with 0 by lia. exact F.
    + rewrite IH; auto; try lia. rewrite sub_sub in F by lia. replace (j + s - (i + s)) with (j - i) by lia. now rewrite (Nat.add_comm i s).
Qed.

Lemma modify_points_panics b f : forall i j, mb_wf b -> mb_columnar b = false -> i <= j -> j <= mb_len b ->
  f (concat (sub (mb_points b) i (j - i))) = Panic -> mb_modify_point_range b i j f = Panic.
Proof.
  induction b as [v|h|e|b IH s e]; intros i j W C L1 L2 F; try discriminate.
  - pose proof (mb_points_ref (VecB v) i j W C L1 L2) as CR.
    cbn [mb_get_point_range_ref] in CR. unfold vb_get_point_range_ref in CR.
    cbn [mb_modify_point_range]. rewrite CR. cbn [bind]. now rewrite F.
  - pose proof (mb_points_ref (ExtB e) i j W C L1 L2) as CR. cbn [mb_get_point_range_ref] in CR.
    cbn [mb_modify_point_range]. rewrite CR. cbn [bind]. now rewrite F.
  - pose proof W as (W0 & S1 & S2). cbn [mb_modify_point_range mb_layout mb_len] in *. unfold slice_mut_range.
    rewrite (mb_slice_points b s e W) in F.
    destruct (Nat.leb_spec j e); [|lia]. cbn [assert bind]. destruct (Nat.leb_spec j i); cbn [bind fst snd].
    + rewrite IH; auto; try lia. replace (j - i) with 0 in F by lia. replace (e - e) with 0 by lia. exact F.
    + rewrite IH; auto; try lia. rewrite sub_sub in F by lia. replace (j + s - (i + s)) with (j - i) by lia. now rewrite (Nat.add_comm i s).
Qed.

Lemma with_own_value l m r : good_layout l -> In m (l_attrs l) -> length r = l_size l -> with_attr m (attr_value m r) r = r.
Proof.
  intros G Hm L. destruct (good_member _ _ G Hm) as (Z0 & ZS & ZE). unfold with_attr, attr_value.
  rewrite <- blit_set_range by (rewrite length_sub; lia).
  apply nth_error_ext. intros k. rewrite nth_error_blit by (rewrite length_sub; lia). rewrite length_sub by lia.
  rewrite nth_error_sub. destruct (Nat.leb_spec (m_offset m) k); destruct (Nat.ltb_spec k (m_offset m + m_size m)); cbn [andb]; auto.
  destruct (Nat.ltb_spec (k - m_offset m) (m_size m)); [|lia]. f_equal. lia.
Qed.

Lemma stored_with_value b m i v : mb_wf b -> In m (l_attrs (mb_layout b)) -> length v = m_size m ->
  map (stored b) (with_value_at m i v (mb_points b)) = with_value_at m i v (mb_points b).
Proof.
  intros W Hm Hv. unfold with_value_at. rewrite map_mapi.
  rewrite <- (stored_points b W) at 2. rewrite mapi_map. apply mapi_ext. intros k r Hr.
  destruct (Nat.eqb k i); auto. apply stored_with_attr; auto.
  destruct (bf_points_uniform (Of b) W) as (U & UL). exact (uniform_nth _ _ _ _ U Hr).
Qed.

Lemma raw_set_ok b m i v : mb_wf b -> In m (l_attrs (mb_layout b)) -> i < mb_len b -> length v = m_size m ->
  exists b', raw_set b m i v = Ok b' /\ mb_wf b' /\ mb_layout b' = mb_layout b /\ mb_len b' = mb_len b
    /\ mb_points b' = with_value_at m i v (mb_points b)
    /\ mb_len (mb_root b') = mb_len (mb_root b)
    /\ (forall q, q < mb_off b \/ mb_off b + mb_len b <= q ->
          nth_error (mb_points (mb_root b')) q = nth_error (mb_points (mb_root b)) q).
Proof.
  intros W Hm Hi Hv. pose proof (wf_good b W) as G. destruct (good_member _ _ G Hm) as (Z0 & ZS & ZE).
  destruct (bf_points_uniform (Of b) W) as (U & UL). change (bf_points (Of b)) with (mb_points b) in *.
  change (bf_layout (Of b)) with (mb_layout b) in U. change (bf_len (Of b)) with (mb_len b) in UL.
  pose proof (uniform_column _ m _ G Hm U) as UC.
  unfold raw_set. rewrite mb_is_columnar_eq. destruct (mb_columnar b) eqn:C; cbv zeta.
  - rewrite (ad_size_member (mb_layout b)) by auto.
    set (new := concat (set_nth i v (map (attr_value m) (mb_points b)))).
    assert (US : uniform (m_size m) (set_nth i v (map (attr_value m) (mb_points b)))) by now apply uniform_set_nth.
    assert (LS : length (set_nth i v (map (attr_value m) (mb_points b))) = mb_len b).
    { unfold set_nth. rewrite length_mapi, map_length. exact UL. }
    assert (LN : length new = mb_len b * m_size m) by (unfold new; rewrite (length_concat _ _ US), LS; reflexivity).
    rewrite (modify_column b m _ new 0 (mb_len b)); auto; try lia.
    2:{ rewrite sub_all by lia. rewrite slice_set_ok.
        - f_equal. replace (0 + m_size m * i) with (i * m_size m) by lia. apply blit_concat_one; auto. rewrite map_length. lia.
        - lia.
        - rewrite (length_concat _ _ UC), map_length, UL. nia.
        - lia. }
    destruct (mb_write b (OSetAttributeRange (m_def m) 0 (mb_len b) new) W) as (b' & pts' & E & W' & S & EL & EN & EO & ES & EP & RW & LL & OUT).
    { simpl. repeat split; eauto; lia. }
    exists b'. split; [exact E|]. repeat split; auto. rewrite EP. cbn [spec_step] in ES. rewrite (member_of_In _ _ G Hm) in ES.
    destruct (Nat.leb (mb_len b) (length (mb_points b))); [|discriminate]. injection ES as <-.
    rewrite <- (stored_with_value b m i v W Hm Hv). f_equal. unfold with_value_at. apply mapi_ext. intros k r Hr.
    assert (Hk : k < mb_len b) by (rewrite <- UL; apply nth_error_Some; congruence).
    destruct (Nat.leb_spec 0 k); [|lia]. destruct (Nat.ltb_spec k (mb_len b)); [|lia]. cbn [andb].
    replace (k - 0) with k by lia. unfold new.
    replace (sub _ _ (m_size m)) with (sub (concat (set_nth i v (map (attr_value m) (mb_points b)))) (k * m_size m) (1 * m_size m)) by (f_equal; lia).
    rewrite (ListLemmas.sub_concat (m_size m)) by auto.
    rewrite (sub_one _ k (if Nat.eqb k i then v else attr_value m r)).
    + simpl. rewrite app_nil_r. destruct (Nat.eqb k i); auto. apply (with_own_value (mb_layout b)); auto. exact (uniform_nth _ _ _ _ U Hr).
    + unfold set_nth. rewrite nth_error_mapi, nth_error_map, Hr. reflexivity.
  - set (new := concat (with_value_at m i v (mb_points b))).
    assert (US : uniform (l_size (mb_layout b)) (with_value_at m i v (mb_points b))).
    { unfold uniform. apply Forall_forall. intros x Hx. apply In_nth_error in Hx. destruct Hx as [k Hk].
      unfold with_value_at in Hk. rewrite nth_error_mapi in Hk. destruct (nth_error (mb_points b) k) as [r|] eqn:Hr; [|discriminate].
      cbn in Hk. injection Hk as <-. pose proof (uniform_nth _ _ _ _ U Hr) as Lr. destruct (Nat.eqb k i); auto.
      rewrite length_with_attr; auto. }
    assert (LS : length (with_value_at m i v (mb_points b)) = mb_len b).
    { unfold with_value_at. rewrite length_mapi. exact UL. }
    assert (LN : length new = mb_len b * l_size (mb_layout b)) by (unfold new; rewrite (length_concat _ _ US), LS; reflexivity).
    rewrite (modify_points b _ new 0 (mb_len b)); auto; try lia.
    2:{ rewrite sub_all by lia. rewrite slice_set_ok.
        - f_equal. replace (m_offset m + l_size (mb_layout b) * i) with (i * l_size (mb_layout b) + m_offset m) by lia.
          destruct (nth_error_get (mb_points b) i) as [r Hr]; [lia|].
          rewrite (blit_concat_in (l_size (mb_layout b)) _ i r) by (auto; lia). unfold new, with_value_at, set_nth. f_equal.
          apply mapi_ext. intros k r' Hr'. destruct (Nat.eqb_spec k i); auto. subst k. rewrite Hr in Hr'. injection Hr' as <-.
          unfold with_attr. apply blit_set_range. rewrite (uniform_nth _ _ _ _ U Hr). lia.
        - lia.
        - rewrite (length_concat _ _ U), UL. nia.
        - lia. }
    destruct (mb_write b (OSetPointRange 0 (mb_len b) new) W) as (b' & pts' & E & W' & S & EL & EN & EO & ES & EP & RW & LL & OUT).
    { simpl. repeat split; eauto; lia. }
    exists b'. split; [exact E|]. repeat split; auto. rewrite EP. cbn [spec_step] in ES.
    rewrite <- (stored_with_value b m i v W Hm Hv). f_equal. rewrite Nat.sub_0_r in ES.
    destruct (Nat.leb (mb_len b) (length (mb_points b))); [|discriminate]. injection ES as <-.
    unfold new. rewrite <- LS at 1. rewrite pieces_concat by auto. rewrite <- blit_set_range by lia.
    unfold blit. simpl. rewrite LS, <- UL, skipn_all, app_nil_r. reflexivity.
Qed.

Lemma raw_set_panics b m i v : mb_wf b -> In m (l_attrs (mb_layout b)) -> mb_len b <= i \/ length v <> m_size m -> raw_set b m i v = Panic.
Proof.
  intros W Hm H. pose proof (wf_good b W) as G. destruct (good_member _ _ G Hm) as (Z0 & ZS & ZE).
  destruct (bf_points_uniform (Of b) W) as (U & UL). change (bf_points (Of b)) with (mb_points b) in *.
  change (bf_layout (Of b)) with (mb_layout b) in U. change (bf_len (Of b)) with (mb_len b) in UL.
  pose proof (uniform_column _ m _ G Hm U) as UC.
  unfold raw_set. rewrite mb_is_columnar_eq. destruct (mb_columnar b) eqn:C; cbv zeta.
  - rewrite (ad_size_member (mb_layout b)) by auto. apply modify_column_panics; auto; try lia. rewrite sub_all by lia.
    assert (LC : length (concat (map (attr_value m) (mb_points b))) = mb_len b * m_size m)
      by (rewrite (length_concat _ _ UC), map_length, UL; reflexivity).
    unfold slice_set. destruct (Nat.le_gt_cases (mb_len b) i).
    + rewrite slice_get_panic by (rewrite LC; nia). reflexivity.
    + rewrite slice_get_ok by (rewrite ?LC; nia). cbn [bind]. unfold copy_from_slice. rewrite length_sub by (rewrite LC; nia).
      destruct (Nat.eqb_spec (0 + m_size m * i + m_size m - (0 + m_size m * i)) (length v)); [lia|]. reflexivity.
  - apply modify_points_panics; auto; try lia. rewrite sub_all by lia.
    assert (LC : length (concat (mb_points b)) = mb_len b * l_size (mb_layout b)) by (rewrite (length_concat _ _ U), UL; reflexivity).
    unfold slice_set. destruct (Nat.le_gt_cases (mb_len b) i).
    + rewrite slice_get_panic by (rewrite LC; nia). reflexivity.
    + rewrite slice_get_ok by (rewrite ?LC; nia). cbn [bind]. unfold copy_from_slice. rewrite length_sub by (rewrite LC; nia).
      match goal with |- context[Nat.eqb ?x ?y] => destruct (Nat.eqb_spec x y); [lia|] end. reflexivity.
Qed.

(* ------------------------------------------------------------------ equality *)
Lemma all_equal_forallb eqv at1 at2 (f g : nat -> list Z) is :
  (forall i, In i is -> at1 i = Ok (f i)) -> (forall i, In i is -> at2 i = Ok (g i)) ->
  all_equal eqv at1 at2 is = Ok (forallb (fun i => eqv (f i) (g i)) is).
Proof.
  induction is as [|i is IH]; intros H1 H2; auto. cbn [all_equal forallb]. rewrite H1, H2 by now left. cbn [bind].
  destruct (eqv (f i) (g i)); auto. cbn [andb]. apply IH; intros j Hj; [apply H1|apply H2]; now right.
Qed.

Lemma Forall2_nth_iff {A} (P : A -> A -> Prop) d : forall l1 l2, length l1 = length l2 ->
  (Forall2 P l1 l2 <-> forall i, i < length l1 -> P (nth i l1 d) (nth i l2 d)).
Proof.
  induction l1 as [|x l1 IH]; intros [|y l2] L; try discriminate; split; intros H.
  - intros i Hi. inversion Hi.
  - constructor.
  - inversion H; subst. intros [|i] Hi; auto. cbn [nth]. apply IH; auto. cbn in Hi; lia.
  - constructor. { apply (H 0). cbn; lia. } apply IH; auto. intros i Hi. apply (H (Datatypes.S i)). cbn; lia.
Qed.

Lemma Forall2_same_length {A B} (P : A -> B -> Prop) l1 l2 : Forall2 P l1 l2 -> length l1 = length l2.
Proof. induction 1; cbn; congruence. Qed.

Lemma all_equal_lists eqv at1 at2 l1 l2 n : n = length l1 -> n = length l2 ->
  (forall i, i < n -> at1 i = Ok (nth i l1 [])) -> (forall i, i < n -> at2 i = Ok (nth i l2 [])) ->
  exists r, all_equal eqv at1 at2 (range 0 n) = Ok r /\ (r = true <-> same_values eqv l1 l2).
Proof.
  intros N1 N2 H1 H2. eexists. split.
  - apply all_equal_forallb with (f := fun i => nth i l1 []) (g := fun i => nth i l2 []); unfold range; intros i Hi; apply in_seq in Hi;
      [apply H1|apply H2]; lia.
  - unfold same_values. rewrite forallb_forall, (Forall2_nth_iff (fun x y => eqv x y = true) []) by congruence. unfold range. split; intros H i Hi.
    + apply H. apply in_seq. lia.
    + apply in_seq in Hi. apply H. lia.
Qed.

Lemma bf_points_len b : bf_wf b -> length (bf_points b) = bf_len b.
Proof. intros W. apply bf_points_uniform. exact W. Qed.

Lemma point_view_eq_ok eqv b1 b2 l : bf_wf b1 -> bf_wf b2 -> bf_layout b1 = l -> bf_layout b2 = l ->
  exists r, point_view_eq eqv b1 b2 l = Ok r /\ (r = true <-> same_values eqv (bf_points b1) (bf_points b2)).
Proof.
  intros W1 W2 L1 L2. unfold point_view_eq. rewrite L1, L2, (proj2 (layout_eqb_eq l l) eq_refl). cbn [assert bind].
  destruct (Nat.eqb_spec (bf_len b1) (bf_len b2)) as [E|E]; cbn [negb].
  - apply all_equal_lists.
    + now rewrite bf_points_len.
    + now rewrite bf_points_len.
    + intros i Hi. rewrite <- L1. now apply (point_view_facts b1 W1).
    + intros i Hi. rewrite <- L2. apply (point_view_facts b2 W2). lia.
  - exists false. split; auto. split; [discriminate|]. intros F. apply Forall2_same_length in F. rewrite !bf_points_len in F by auto. lia.
Qed.

Lemma point_view_eq_panics eqv b1 b2 l : bf_layout b1 <> l \/ bf_layout b2 <> l -> point_view_eq eqv b1 b2 l = Panic.
Proof.
  intros H. unfold point_view_eq. destruct (layout_eqb l (bf_layout b1)) eqn:E1; [|reflexivity].
  destruct (layout_eqb l (bf_layout b2)) eqn:E2; [|reflexivity]. apply layout_eqb_eq in E1, E2. destruct H; congruence.
Qed.

Lemma attr_def_eqb_iff a b : attr_def_eqb a b = true <-> a = b.
Proof. split; [apply attr_def_eqb_eq|intros ->; apply attr_def_eqb_refl]. Qed.

Lemma nth_map_values m (pts : list (list Z)) i : i < length pts -> nth i (map (attr_value m) pts) [] = attr_value m (nth i pts []).
Proof. intros H. rewrite (nth_indep _ [] (attr_value m [])) by now rewrite map_length. apply map_nth. Qed.

Lemma attribute_view_eq_ok eqv b1 b2 m1 m2 t : bf_wf b1 -> bf_wf b2 -> In m1 (l_attrs (bf_layout b1)) -> In m2 (l_attrs (bf_layout b2)) ->
  m_type m1 = t -> m_type m2 = t ->
  exists r, attribute_view_eq eqv b1 b2 (m_def m1) (m_def m2) t = Ok r
    /\ (r = true <-> m_def m1 = m_def m2
                     /\ same_values eqv (map (attr_value m1) (bf_points b1)) (map (attr_value m2) (bf_points b2))).
Proof.
  intros W1 W2 Hm1 Hm2 T1 T2. unfold attribute_view_eq, attribute_view at 1 2.
  assert (D1 : datatype_eqb t (ad_type (m_def m1)) = true) by (apply datatype_eqb_eq; now symmetry).
  assert (D2 : datatype_eqb t (ad_type (m_def m2)) = true) by (apply datatype_eqb_eq; now symmetry).
  rewrite D1, D2. cbn [assert bind].
  change (get_attribute (bf_layout b1) (m_def m1)) with (member_of (bf_layout b1) (m_def m1)).
  change (get_attribute (bf_layout b2) (m_def m2)) with (member_of (bf_layout b2) (m_def m2)).
  rewrite (member_of_In _ _ (bf_good b1 W1) Hm1), (member_of_In _ _ (bf_good b2 W2) Hm2). cbn [unwrap bind].
  destruct (Nat.eqb_spec (bf_len b1) (bf_len b2)) as [E|E]; cbn [andb].
  - destruct (attr_def_eqb (m_def m1) (m_def m2)) eqn:A.
    + apply attr_def_eqb_iff in A.
      destruct (all_equal_lists eqv (attribute_view_at b1 (m_def m1) t) (attribute_view_at b2 (m_def m2) t)
        (map (attr_value m1) (bf_points b1)) (map (attr_value m2) (bf_points b2)) (bf_len b1)) as (r & R1 & R2).
      * now rewrite map_length, bf_points_len.
      * now rewrite map_length, bf_points_len.
      * intros i Hi. rewrite <- T1, nth_map_values by now rewrite bf_points_len. now apply view_at.
      * intros i Hi. rewrite <- T2, nth_map_values by (rewrite bf_points_len by auto; lia). apply view_at; auto. lia.
      * exists r. split; auto. rewrite R2. tauto.
    + exists false. split; auto. split; [discriminate|]. intros [X _]. apply attr_def_eqb_iff in X. congruence.
  - exists false. split; auto. split; [discriminate|]. intros [_ F]. apply Forall2_same_length in F.
    rewrite !map_length, !bf_points_len in F by auto. lia.
Qed.

Lemma converting_view_shape l m a t : good_layout l -> In m (l_attrs l) -> m_name m = ad_name a -> ad_type a = t -> convertible (m_type m) t ->
  exists c, converting_view l a t = Ok (m, c).
Proof.
  intros G Hm HN HT CV. unfold converting_view. rewrite HT, datatype_eqb_refl. cbn [assert bind].
  rewrite (proj2 (get_by_name_spec l (ad_name a) m (proj1 (proj2 G))) (conj Hm HN)). cbn [unwrap bind].
  destruct (datatype_eqb (m_type m) t) eqn:E.
  - eexists. reflexivity.
  - destruct (converter_spec (m_def m) (with_custom_datatype a t)) as (c & E' & V).
    + exact HN.
    + intros Q. change (m_type m = t) in Q. rewrite Q, datatype_eqb_refl in E. discriminate.
    + destruct CV as [Q|Q]; [rewrite Q, datatype_eqb_refl in E; discriminate|exact Q].
    + rewrite E'. eexists. reflexivity.
Qed.

Lemma converting_view_eq_ok eqv b1 b2 m1 m2 a1 a2 t : bf_wf b1 -> bf_wf b2 ->
  In m1 (l_attrs (bf_layout b1)) -> In m2 (l_attrs (bf_layout b2)) ->
  m_name m1 = ad_name a1 -> m_name m2 = ad_name a2 -> ad_type a1 = t -> ad_type a2 = t ->
  convertible (m_type m1) t -> convertible (m_type m2) t ->
  exists r, converting_view_eq eqv b1 b2 a1 a2 t = Ok r
    /\ (r = true <-> m_def m1 = m_def m2
                     /\ same_values eqv (map (converted m1 t) (bf_points b1)) (map (converted m2 t) (bf_points b2))).
Proof.
  intros W1 W2 Hm1 Hm2 N1 N2 T1 T2 C1 C2. unfold converting_view_eq.
  destruct (converting_view_shape _ m1 a1 t (bf_good b1 W1) Hm1 N1 T1 C1) as (c1 & E1).
  destruct (converting_view_shape _ m2 a2 t (bf_good b2 W2) Hm2 N2 T2 C2) as (c2 & E2).
  rewrite E1, E2. cbn [bind].
  assert (V : forall b m a, bf_wf b -> In m (l_attrs (bf_layout b)) -> m_name m = ad_name a -> ad_type a = t -> convertible (m_type m) t ->
    forall i, i < bf_len b -> converting_view_at b a t i = Ok (nth i (map (converted m t) (bf_points b)) [])).
  { intros b m a W Hm N T C i Hi. destruct (nth_error_get (bf_points b) i) as [p Hp]; [now rewrite bf_points_len|].
    destruct (converting_view_ok b m a t i p W Hm N T C Hp) as (v & V1 & V2). rewrite V1. f_equal.
    symmetry. apply nth_error_nth. rewrite nth_error_map, Hp. cbn. unfold converted. now rewrite V2. }
  destruct (Nat.eqb_spec (bf_len b1) (bf_len b2)) as [E|E]; cbn [andb].
  - destruct (attr_def_eqb (m_def m1) (m_def m2)) eqn:A.
    + apply attr_def_eqb_iff in A.
      destruct (all_equal_lists eqv (converting_view_at b1 a1 t) (converting_view_at b2 a2 t)
        (map (converted m1 t) (bf_points b1)) (map (converted m2 t) (bf_points b2)) (bf_len b1)) as (r & R1 & R2).
      * now rewrite map_length, bf_points_len.
      * now rewrite map_length, bf_points_len.
      * now apply V.
      * intros i Hi. apply V; auto. lia.
      * exists r. split; auto. rewrite R2. tauto.
    + exists false. split; auto. split; [discriminate|]. intros [X _]. apply attr_def_eqb_iff in X. congruence.
  - exists false. split; auto. split; [discriminate|]. intros [_ F]. apply Forall2_same_length in F.
    rewrite !map_length, !bf_points_len in F by auto. lia.
Qed.

(* ------------------------------------------------------------------ buffers *)
Lemma bytes_eqb_iff x y : bytes_eqb x y = true <-> x = y.
Proof. unfold bytes_eqb. destruct (list_eq_dec Z.eq_dec x y); split; congruence. Qed.

Lemma vb_eqb_iff x y : vb_inv x -> vb_inv y ->
  (vb_eqb x y = true <-> vb_layout x = vb_layout y /\ mb_points (VecB x) = mb_points (VecB y)).
Proof.
  intros Wx Wy. unfold vb_eqb. rewrite !andb_true_iff, bytes_eqb_iff, layout_eqb_eq, Nat.eqb_eq. split.
  - intros ((S & L) & N). split; auto. f_equal. f_equal. destruct x, y; cbn in *; congruence.
  - intros (L & P). pose proof (root_rep_points (VecB x) Wx I) as (_ & Sx & _ & Nx).
    pose proof (root_rep_points (VecB y) Wy I) as (_ & Sy & _ & Ny). rewrite Sx, Sy, Nx, Ny, P. auto.
Qed.

Lemma overlay_same_values l p q data : length p = l_size l -> length q = l_size l -> length data = l_size l ->
  (forall m, In m (l_attrs l) -> attr_value m p = attr_value m q) -> overlay l p data = overlay l q data.
Proof.
  intros Lp Lq Ld V. apply nth_error_ext. intros k. rewrite !overlay_byte by auto.
  destruct (existsb _ (l_attrs l)) eqn:E; auto. apply existsb_exists in E. destruct E as (m & Hm & B).
  apply andb_true_iff in B. destruct B as [B1 B2]. apply Nat.leb_le in B1. apply Nat.ltb_lt in B2.
  specialize (V m Hm). apply (f_equal (fun l => nth_error l (k - m_offset m))) in V. unfold attr_value in V.
  rewrite !nth_error_sub in V. destruct (Nat.ltb_spec (k - m_offset m) (m_size m)); [|lia].
  now replace (m_offset m + (k - m_offset m)) with k in V by lia.
Qed.

Lemma hb_eqb_iff x y : hb_inv x -> hb_inv y ->
  (hb_eqb x y = true <-> hb_layout x = hb_layout y /\ mb_points (MapB x) = mb_points (MapB y)).
Proof.
  intros Wx Wy. pose proof (root_rep_points (MapB x) Wx I) as (_ & Nx & Ux & Kx & Cx).
  pose proof (root_rep_points (MapB y) Wy I) as (_ & Ny & Uy & Ky & Cy).
  pose proof (wf_good (MapB x) Wx) as Gx. pose proof (wf_good (MapB y) Wy) as Gy.
  change (mb_layout (MapB x)) with (hb_layout x) in *. change (mb_layout (MapB y)) with (hb_layout y) in *.
  assert (NDx : NoDup (map fst (hb_map x))) by (rewrite Kx; now apply good_defs).
  assert (NDy : NoDup (map fst (hb_map y))) by (rewrite Ky; now apply good_defs).
  unfold hb_eqb. rewrite !andb_true_iff, layout_eqb_eq, !Nat.eqb_eq, forallb_forall. split.
  - intros (((_ & F) & L) & N). split; auto.
    assert (COL : forall m, In m (l_attrs (hb_layout x)) -> map (attr_value m) (mb_points (MapB x)) = map (attr_value m) (mb_points (MapB y))).
    { intros m Hm. assert (Hy : In m (l_attrs (hb_layout y))) by now rewrite <- L.
      pose proof (Cx m Hm) as Gt. apply hm_get_In in Gt; auto. specialize (F _ Gt). cbn [fst snd] in F. rewrite (Cy m Hy) in F.
      apply bytes_eqb_iff in F. pose proof (uniform_column _ m _ Gx Hm Ux) as U1. pose proof (uniform_column _ m _ Gy Hy Uy) as U2.
      rewrite <- (pieces_concat _ _ U1), <- (pieces_concat _ _ U2), F, !map_length, <- Nx, <- Ny, N. reflexivity. }
    rewrite <- (stored_points (MapB x) Wx), <- (stored_points (MapB y) Wy). apply nth_error_ext. intros k. rewrite !nth_error_map.
    destruct (nth_error (mb_points (MapB x)) k) as [p|] eqn:Hp.
    + assert (Hk : k < length (mb_points (MapB y))). { rewrite <- Ny, <- N, Nx. apply nth_error_Some. congruence. }
      destruct (nth_error_get _ _ Hk) as [q Hq]. rewrite Hq. cbn [option_map]. f_equal. unfold stored.
      cbn [mb_columnar mb_root]. change (mb_layout (MapB x)) with (hb_layout x). change (mb_layout (MapB y)) with (hb_layout y).
      change (mb_columnar (MapB x)) with true. change (mb_columnar (MapB y)) with true. cbv iota. rewrite <- L.
      apply overlay_same_values; auto.
      * exact (uniform_nth _ _ _ _ Ux Hp).
      * rewrite L. exact (uniform_nth _ _ _ _ Uy Hq).
      * apply repeat_length.
      * intros m Hm. specialize (COL m Hm). apply (f_equal (fun l => nth_error l k)) in COL. rewrite !nth_error_map, Hp, Hq in COL. cbn in COL. congruence.
    + assert (Hq : nth_error (mb_points (MapB y)) k = None).
      { apply nth_error_None. rewrite <- Ny, <- N, Nx. now apply nth_error_None. }
      now rewrite Hq.
  - intros (L & P). assert (N : hb_len x = hb_len y) by (rewrite Nx, Ny, P; reflexivity). repeat split; auto.
    + rewrite <- (map_length fst (hb_map x)), <- (map_length fst (hb_map y)), Kx, Ky, L. reflexivity.
    + intros [k c] Hin. cbn [fst snd]. assert (Kin : In k (map fst (hb_map x))) by (change k with (fst (k, c)); now apply in_map).
      rewrite Kx in Kin. apply in_map_iff in Kin. destruct Kin as (m & <- & Hm). apply hm_get_In in Hin; auto.
      rewrite (Cx m Hm) in Hin. injection Hin as <-. rewrite Cy by now rewrite <- L. apply bytes_eqb_iff. now rewrite P.
Qed.

(* ------------------------------------------------------------------ push_point *)
Lemma push_one l recs p : good_layout l -> length p = l_size l -> spec_step l recs (OPush p) = Some (recs ++ [p]).
Proof.
  intros G L. pose proof (good_size _ G). cbn [spec_step]. rewrite L, Nat.mod_same by lia. cbn [Nat.eqb]. rewrite Nat.div_same by lia.
  unfold pieces. cbn [seq map Nat.mul]. rewrite sub_all; auto.
Qed.

Lemma vb_push_point_ok b p : vb_inv b -> length p = l_size (vb_layout b) ->
  exists b', vb_push_point b (vb_layout b) p = Ok b' /\ vb_inv b' /\ vb_layout b' = vb_layout b
    /\ mb_points (VecB b') = mb_points (VecB b) ++ [p].
Proof.
  intros W L. pose proof (root_rep_points (VecB b) W I) as R. change (vb_rep (vb_layout b) (mb_points (VecB b)) b) in R.
  pose proof (wf_good (VecB b) W) as G. change (mb_layout (VecB b)) with (vb_layout b) in G.
  pose proof (vb_push_ok _ G _ _ R p) as O. rewrite push_one in O by auto. destruct O as (b' & E & R').
  unfold vb_push_point. rewrite (proj2 (layout_eqb_eq _ _) eq_refl). cbn [assert bind]. exists b'. split; [exact E|].
  pose proof (vb_rep_inv _ _ _ G R') as W'. split; [exact W'|]. split; [apply R'|].
  change (mb_points (VecB b')) with (points_of (BV b')). exact (points_of_v _ _ b' G R').
Qed.

Lemma hb_push_point_ok b p : hb_inv b -> length p = l_size (hb_layout b) ->
  exists b', hb_push_point b (hb_layout b) p = Ok b' /\ hb_inv b' /\ hb_layout b' = hb_layout b
    /\ mb_points (MapB b') = mb_points (MapB b) ++ [stored (MapB b) p].
Proof.
  intros W L. pose proof (root_rep_points (MapB b) W I) as R. change (hb_rep (hb_layout b) (mb_points (MapB b)) b) in R.
  pose proof (wf_good (MapB b) W) as G. change (mb_layout (MapB b)) with (hb_layout b) in G.
  pose proof (hb_push_ok _ G _ _ R p) as O. rewrite push_one in O by auto. destruct O as (b' & E & R').
  unfold hb_push_point. rewrite (proj2 (layout_eqb_eq _ _) eq_refl). cbn [assert bind]. exists b'. split; [exact E|].
  pose proof (hb_rep_inv _ _ _ G R') as W'. split; [exact W'|]. split; [apply R'|].
  change (mb_points (MapB b')) with (points_of (BH b')). rewrite (points_of_h _ _ b' G R'), map_app. cbn [map]. f_equal.
  exact (stored_points (MapB b) W).
Qed.
