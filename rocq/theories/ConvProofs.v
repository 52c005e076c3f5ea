(* References into buffers and loops over chunks, for BufferLayoutConverter. *)
From Coq Require Import String List ZArith Lia Bool Arith.
From Verif Require Import Base LayoutModel LayoutSpec LayoutProofs BufferModel BufferSpec ListLemmas BufferProofs
  BufferSteps BufferSteps2 BufferSteps3 BufferSteps4 TraitModel TraitSpec TraitProofs TraitProofs2 TraitProofs3 NumModel ConvModel.
Import ListNotations.
Open Scope nat_scope.

Lemma mb_is_columnar_eq b : mb_is_columnar b = mb_columnar b.
Proof. unfold mb_columnar. induction b; auto. Qed.
Lemma bf_is_columnar_eq b : bf_is_columnar b = bf_columnar b.
Proof. induction b; simpl; auto. apply mb_is_columnar_eq. Qed.

Lemma mb_slice_points b s e : mb_wf (SliceMutB b s e) -> mb_points (SliceMutB b s e) = sub (mb_points b) s (e - s).
Proof.
  intros (W & L1 & L2). rewrite (mb_points_root (SliceMutB b s e)) by (simpl; auto). rewrite (mb_points_root b W).
  unfold window. cbn [mb_root mb_off mb_len]. symmetry. apply sub_sub. lia.
Qed.

Lemma map_sub {A B} (f : A -> B) l o n : map f (sub l o n) = sub (map f l) o n.
Proof. unfold sub. now rewrite <- firstn_map, <- skipn_map. Qed.

Lemma sub_zero {A} (l : list A) o : sub l o 0 = [].
Proof. reflexivity. Qed.

Lemma wf_uniform b : mb_wf b -> uniform (l_size (mb_layout b)) (mb_points b) /\ length (mb_points b) = mb_len b.
Proof. intros W. exact (bf_points_uniform (Of b) W). Qed.

Lemma uniform_column l m pts : good_layout l -> In m (l_attrs l) -> uniform (l_size l) pts -> uniform (m_size m) (map (attr_value m) pts).
Proof.
  intros G Hm U. apply uniform_map. intros r Hr. apply (length_attr_value l); auto. unfold uniform in U. rewrite Forall_forall in U. now apply U.
Qed.

(* ------------------------------------------------------------------ reading *)

Lemma mb_column_ref b m : forall i j, mb_wf b -> mb_columnar b = true -> In m (l_attrs (mb_layout b)) -> i <= j -> j <= mb_len b ->
  mb_get_attribute_range_ref b (m_def m) i j = Ok (concat (map (attr_value m) (sub (mb_points b) i (j - i)))).
Proof.
  induction b as [v|h|e|b IH s e]; intros i j W C Hm L1 L2; try discriminate.
  - pose proof (root_rep_points (MapB h) W I) as (Hl & Hn & U & K & CO). simpl. unfold hb_get_attribute_range_ref, hb_column.
    simpl in Hm, L2. rewrite CO by auto. cbn [unwrap bind]. pose proof (wf_good _ W) as G. simpl in G, U.
    rewrite (ad_size_member (hb_layout h)) by auto.
    assert (UC := uniform_column _ m _ G Hm U).
    rewrite slice_get_ok; [|nia|].
    + rewrite map_sub. replace (j * m_size m - i * m_size m) with ((j - i) * m_size m) by nia. now rewrite (sub_concat (m_size m)).
    + rewrite (length_concat (m_size m)) by auto. rewrite map_length. apply Nat.mul_le_mono_r. rewrite <- Hn. exact L2.
  - pose proof W as (W0 & S1 & S2). cbn [mb_get_attribute_range_ref mb_layout mb_len] in *. unfold slice_mut_range.
    destruct (Nat.leb_spec j e); [|lia]. cbn [assert bind].
    rewrite (mb_slice_points b s e W).
    destruct (Nat.leb_spec j i); cbn [bind fst snd].
    + rewrite IH by (auto; lia). replace (e - e) with 0 by lia. replace (j - i) with 0 by lia. now rewrite !sub_zero.
    + rewrite IH by (auto; lia). f_equal. f_equal. f_equal. rewrite sub_sub by lia.
      replace (j + s - (i + s)) with (j - i) by lia. now rewrite (Nat.add_comm i s).
Qed.

Lemma bf_column_ref b m : forall i j, bf_wf b -> bf_columnar b = true -> In m (l_attrs (bf_layout b)) -> i <= j -> j <= bf_len b ->
  bf_get_attribute_range_ref b (m_def m) i j = Ok (concat (map (attr_value m) (sub (bf_points b) i (j - i)))).
Proof.
  induction b as [mb|b IH s e]; intros i j W C Hm L1 L2.
  - now apply mb_column_ref.
  - destruct W as (W & S1 & S2). cbn [bf_get_attribute_range_ref bf_layout bf_len] in *. unfold slice_range.
    destruct (Nat.leb_spec j (e - s)); [|lia]. cbn [assert bind]. rewrite slice_points by auto.
    destruct (Nat.leb_spec j i); cbn [bind fst snd].
    + rewrite IH by (auto; lia). replace (e - e) with 0 by lia. replace (j - i) with 0 by lia. now rewrite !sub_zero.
    + rewrite IH by (auto; lia). f_equal. f_equal. f_equal. rewrite sub_sub by lia.
      replace (j + s - (i + s)) with (j - i) by lia. now rewrite (Nat.add_comm i s).
Qed.

Lemma vec_range_ref l recs v i j : vb_rep l recs v -> i <= j -> j <= length recs ->
  slice_get (vb_storage v) (i * l_size l) (j * l_size l) = Ok (concat (sub recs i (j - i))).
Proof.
  intros R L1 L2. pose proof (vb_rep_storage _ _ _ R) as LS. destruct R as (HL & HS & U & HN).
  rewrite slice_get_ok; [|nia|rewrite LS; nia].
  replace (j * l_size l - i * l_size l) with ((j - i) * l_size l) by nia. rewrite HS. now rewrite sub_concat.
Qed.

Lemma mb_points_ref b : forall i j, mb_wf b -> mb_columnar b = false -> i <= j -> j <= mb_len b ->
  mb_get_point_range_ref b i j = Ok (concat (sub (mb_points b) i (j - i))).
Proof.
  induction b as [v|h|e|b IH s e]; intros i j W C L1 L2; try discriminate.
  - pose proof (root_rep_points (VecB v) W I) as R. apply (vec_range_ref _ _ _ _ _ R L1).
    destruct R as (_ & _ & _ & HN). rewrite <- HN. exact L2.
  - pose proof (root_rep_points (ExtB e) W I) as R. apply (vec_range_ref _ _ _ _ _ R L1).
    destruct R as (_ & _ & _ & HN). rewrite <- HN. exact L2.
  - pose proof W as (W0 & S1 & S2). cbn [mb_get_point_range_ref mb_layout mb_len] in *. unfold slice_mut_range.
    destruct (Nat.leb_spec j e); [|lia]. cbn [assert bind]. rewrite (mb_slice_points b s e W).
    destruct (Nat.leb_spec j i); cbn [bind fst snd].
    + rewrite IH by (auto; lia). replace (e - e) with 0 by lia. replace (j - i) with 0 by lia. now rewrite !sub_zero.
    + rewrite IH by (auto; lia). f_equal. f_equal. rewrite sub_sub by lia.
      replace (j + s - (i + s)) with (j - i) by lia. now rewrite (Nat.add_comm i s).
Qed.

Lemma bf_points_ref b : forall i j, bf_wf b -> bf_columnar b = false -> i <= j -> j <= bf_len b ->
  bf_get_point_range_ref b i j = Ok (concat (sub (bf_points b) i (j - i))).
Proof.
  induction b as [mb|b IH s e]; intros i j W C L1 L2.
  - now apply mb_points_ref.
  - destruct W as (W & S1 & S2). cbn [bf_get_point_range_ref bf_layout bf_len] in *. unfold slice_range.
    destruct (Nat.leb_spec j (e - s)); [|lia]. cbn [assert bind]. rewrite slice_points by auto.
    destruct (Nat.leb_spec j i); cbn [bind fst snd].
    + rewrite IH by (auto; lia). replace (e - e) with 0 by lia. replace (j - i) with 0 by lia. now rewrite !sub_zero.
    + rewrite IH by (auto; lia). f_equal. f_equal. rewrite sub_sub by lia.
      replace (j + s - (i + s)) with (j - i) by lia. now rewrite (Nat.add_comm i s).
Qed.

(* ------------------------------------------------------------------ modifying in place is writing the result *)

Lemma modify_column b m f new : forall i j, mb_wf b -> mb_columnar b = true -> In m (l_attrs (mb_layout b)) -> i <= j -> j <= mb_len b ->
  f (concat (map (attr_value m) (sub (mb_points b) i (j - i)))) = Ok new -> length new = (j - i) * m_size m ->
  mb_modify_attribute_range b (m_def m) i j f = mb_set_attribute_range b (m_def m) i j new.
Proof.
  induction b as [v|h|e|b IH s e]; intros i j W C Hm L1 L2 F LN; try discriminate.
  - pose proof (mb_column_ref (MapB h) m i j W C Hm L1 L2) as CR.
    cbn [mb_get_attribute_range_ref] in CR. unfold hb_get_attribute_range_ref in CR.
    cbn [mb_modify_attribute_range mb_set_attribute_range]. unfold hb_set_attribute_range, slice_set.
    destruct (hb_column h (m_def m)) as [c| |]; try discriminate. cbn [bind] in *.
    pose proof (root_rep_points (MapB h) W I) as (Hl & Hn & U & K & CO). pose proof (wf_good _ W) as G.
    rewrite CR. cbn [bind]. rewrite F. cbn [bind].
    rewrite copy_ok; [reflexivity|]. rewrite LN. rewrite (length_concat (m_size m)).
    + rewrite map_length, length_sub; auto. simpl in L2. change (mb_len (MapB h)) with (hb_len h) in Hn. lia.
    + rewrite map_sub. apply uniform_sub. now apply (uniform_column (hb_layout h)).
  - pose proof W as (W0 & S1 & S2). cbn [mb_modify_attribute_range mb_set_attribute_range mb_layout mb_len] in *. unfold slice_mut_range.
    rewrite (mb_slice_points b s e W) in F.
    destruct (Nat.leb_spec j e); [|lia]. cbn [assert bind]. destruct (Nat.leb_spec j i); cbn [bind fst snd].
    + rewrite IH; auto; try (now rewrite LN; replace (j - i) with 0 by lia; replace (e - e) with 0 by lia); try lia.
      replace (j - i) with 0 in F by lia. replace (e - e) with 0 by lia. exact F.
    + rewrite IH; auto; try (now rewrite LN; f_equal; lia); try lia.
      rewrite sub_sub in F by lia. replace (j + s - (i + s)) with (j - i) by lia. now rewrite (Nat.add_comm i s).
Qed.

Lemma modify_points b f new : forall i j, mb_wf b -> mb_columnar b = false -> i <= j -> j <= mb_len b ->
  f (concat (sub (mb_points b) i (j - i))) = Ok new -> length new = (j - i) * l_size (mb_layout b) ->
  mb_modify_point_range b i j f = mb_set_point_range b i j new.
Proof.
  induction b as [v|h|e|b IH s e]; intros i j W C L1 L2 F LN; try discriminate.
  - pose proof (mb_points_ref (VecB v) i j W C L1 L2) as CR. destruct (wf_uniform _ W) as [U UL].
    cbn [mb_get_point_range_ref] in CR. unfold vb_get_point_range_ref in CR.
    cbn [mb_modify_point_range mb_set_point_range]. unfold vb_set_point_range, slice_set.
    rewrite CR. cbn [bind]. rewrite F. cbn [bind]. rewrite copy_ok; [reflexivity|]. rewrite LN.
    rewrite (length_concat (l_size (mb_layout (VecB v)))) by now apply uniform_sub. rewrite length_sub; [reflexivity|lia].
  - pose proof (mb_points_ref (ExtB e) i j W C L1 L2) as CR. destruct (wf_uniform _ W) as [U UL].
    cbn [mb_get_point_range_ref] in CR.
    cbn [mb_modify_point_range mb_set_point_range]. unfold eb_set_point_range, slice_set.
    rewrite CR. cbn [bind]. rewrite F. cbn [bind]. rewrite copy_ok; [reflexivity|]. rewrite LN.
    rewrite (length_concat (l_size (mb_layout (ExtB e)))) by now apply uniform_sub. rewrite length_sub; [reflexivity|lia].
  - pose proof W as (W0 & S1 & S2). cbn [mb_modify_point_range mb_set_point_range mb_layout mb_len] in *. unfold slice_mut_range.
    rewrite (mb_slice_points b s e W) in F.
    destruct (Nat.leb_spec j e); [|lia]. cbn [assert bind]. destruct (Nat.leb_spec j i); cbn [bind fst snd].
    + rewrite IH; auto; try (now rewrite LN; replace (j - i) with 0 by lia; replace (e - e) with 0 by lia); try lia.
      replace (j - i) with 0 in F by lia. replace (e - e) with 0 by lia. exact F.
    + rewrite IH; auto; try (now rewrite LN; f_equal; lia); try lia.
      rewrite sub_sub in F by lia. replace (j + s - (i + s)) with (j - i) by lia. now rewrite (Nat.add_comm i s).
Qed.

(* ------------------------------------------------------------------ loops updating one piece per point *)

Lemma update_loop sz recs off (g : nat -> list Z -> list Z) n s e (f : list Z -> nat -> res (list Z)) :
  uniform sz recs -> (forall i v, s <= i < e -> length v = n -> length (g i v) = n) -> off + n <= sz -> s <= e -> e <= length recs ->
  (forall st i, s <= i < e -> length st = length recs * sz ->
     f st i = Ok (blit st (i * sz + off) (g i (sub st (i * sz + off) n)))) ->
  foldM f (range s e) (concat recs)
  = Ok (concat (mapi (fun k r => if Nat.leb s k && Nat.ltb k e then blit r off (g k (sub r off n)) else r) recs)).
Proof.
  intros U LV B L1 L2 HF.
  edestruct (foldM_range (fun i st => st = concat (mapi (fun k r => if Nat.leb s k && Nat.ltb k i then blit r off (g k (sub r off n)) else r) recs)))
    as [st' [E1 E2]]; [exact L1| | |rewrite E1, E2; reflexivity].
  - rewrite mapi_id; auto. intros k a _. leb_cases; auto; lia.
  - intros i st Hi ->.
    assert (UM : uniform sz (mapi (fun k r => if Nat.leb s k && Nat.ltb k i then blit r off (g k (sub r off n)) else r) recs)).
    { apply uniform_mapi. intros k r Hr. pose proof (uniform_nth _ _ _ _ U Hr). leb_cases; simpl; auto.
      assert (length (sub r off n) = n) by (apply length_sub; lia).
      rewrite length_blit; auto. rewrite LV by (auto; lia). lia. }
    rewrite HF. 2: lia. 2: { rewrite (length_concat sz) by assumption. now rewrite length_mapi. }
    eexists. split; [reflexivity|].
    destruct (nth_error_get recs i) as [r Hr]; [lia|].
    assert (Hri : nth_error (mapi (fun k r => if Nat.leb s k && Nat.ltb k i then blit r off (g k (sub r off n)) else r) recs) i = Some r).
    { rewrite nth_error_mapi, Hr. simpl. leb_cases; simpl; auto; lia. }
    rewrite (sub_concat_in sz _ i r off n UM Hri B).
    assert (length (sub r off n) = n) by (apply length_sub; pose proof (uniform_nth _ _ _ _ U Hr); lia).
    rewrite (blit_concat_in sz _ i r); auto.
    + f_equal. apply nth_error_ext. intros k. unfold set_nth. rewrite !nth_error_mapi.
      destruct (nth_error recs k) as [x|] eqn:Ek; auto. simpl. f_equal.
      destruct (Nat.eqb_spec k i).
      * subst. rewrite Hr in Ek. injection Ek as <-. leb_cases; simpl; try lia. reflexivity.
      * leb_cases; simpl; auto; lia.
    + rewrite LV by (auto; lia). assumption.
Qed.

Lemma foldM_map {A B S} (f : S -> B -> res S) (g : A -> B) l st : foldM f (map g l) st = foldM (fun s a => f s (g a)) l st.
Proof. revert st. induction l as [|a l IH]; intros st; simpl; auto. destruct (f st (g a)); simpl; auto. Qed.

Lemma range_shift k n : range k (k + n) = map (fun i => i + k) (range 0 n).
Proof.
  unfold range. replace (k + n - k) with n by lia. rewrite Nat.sub_0_r. apply nth_error_ext. intros i.
  rewrite nth_error_map, !nth_error_seq. destruct (Nat.ltb i n); auto. simpl. f_equal. lia.
Qed.

(* only the value on the actual memory matters *)
Lemma modify_ext b m f g : forall i j, mb_wf b -> mb_columnar b = true -> In m (l_attrs (mb_layout b)) -> i <= j -> j <= mb_len b ->
  f (concat (map (attr_value m) (sub (mb_points b) i (j - i)))) = g (concat (map (attr_value m) (sub (mb_points b) i (j - i)))) ->
  mb_modify_attribute_range b (m_def m) i j f = mb_modify_attribute_range b (m_def m) i j g.
Proof.
  induction b as [v|h|e|b IH s e]; intros i j W C Hm L1 L2 F; try discriminate.
  - pose proof (mb_column_ref (MapB h) m i j W C Hm L1 L2) as CR.
    cbn [mb_get_attribute_range_ref] in CR. unfold hb_get_attribute_range_ref in CR. cbn [mb_modify_attribute_range].
    destruct (hb_column h (m_def m)) as [c| |]; try discriminate. cbn [bind] in *. rewrite CR. cbn [bind]. now rewrite F.
  - pose proof W as (W0 & S1 & S2). cbn [mb_modify_attribute_range mb_layout mb_len] in *. unfold slice_mut_range.
    rewrite (mb_slice_points b s e W) in F.
    destruct (Nat.leb_spec j e); [|lia]. cbn [assert bind]. destruct (Nat.leb_spec j i); cbn [bind fst snd].
    + rewrite (IH e e); auto; try lia. replace (j - i) with 0 in F by lia. replace (e - e) with 0 by lia. exact F.
    + rewrite (IH (i + s) (j + s)); auto; try lia. rewrite sub_sub in F by lia. replace (j + s - (i + s)) with (j - i) by lia. now rewrite (Nat.add_comm i s).
Qed.
