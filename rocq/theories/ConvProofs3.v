(* The four conversion paths apply one mapping alike. *)
From Coq Require Import String List ZArith Lia Bool Arith.
From Verif Require Import Base LayoutModel LayoutSpec LayoutProofs BufferModel BufferSpec ListLemmas BufferProofs
  BufferSteps BufferSteps2 BufferSteps3 BufferSteps4 TraitModel TraitSpec TraitProofs TraitProofs2 TraitProofs3 NumModel
  ConvModel ConvSpec ConvProofs ConvProofs2.
Import ListNotations.
Open Scope nat_scope.

Lemma for_chunks_ok sz recs limit (f : nat -> list Z -> res (list Z)) (g : nat -> list Z -> list Z) :
  0 < sz -> uniform sz recs -> length recs <= limit ->
  (forall k c, k < length recs -> length c = sz -> f k c = Ok (g k c) /\ length (g k c) = sz) ->
  for_chunks_mut sz limit f (concat recs) = Ok (concat (mapi g recs)).
Proof.
  intros P U L F. unfold for_chunks_mut, chunks_exact. destruct (Nat.eqb_spec sz 0); [lia|]. cbn [negb assert bind].
  rewrite as_points_concat by auto. rewrite Nat.min_r by lia.
  rewrite (update_loop sz recs 0 g sz 0 (length recs)); auto; try lia.
  - f_equal. f_equal. apply mapi_ext. intros k r Hr. pose proof (nth_error_lt _ _ _ Hr).
    destruct (Nat.ltb_spec k (length recs)); [|lia]. simpl. pose proof (uniform_nth _ _ _ _ U Hr) as LR.
    assert (SR : sub r 0 sz = r) by (unfold sub; simpl; apply firstn_all_ge; lia). rewrite SR.
    destruct (F k r) as [_ LG]; auto. unfold blit. simpl. rewrite LG, <- LR, skipn_all. apply app_nil_r.
  - intros i v Hi LV. now destruct (F i v) as [_ ?]; [lia|auto|].
  - intros st i Hi LS. rewrite slice_get_ok by nia. cbn [bind]. replace ((i + 1) * sz - i * sz) with sz by lia.
    destruct (F i (sub st (i * sz) sz)) as [E _]; [lia|apply length_sub; nia|]. rewrite E. cbn [bind]. now rewrite !Nat.add_0_r.
Qed.

Lemma with_attr_twice m v v' r : length v = m_size m -> length v' = m_size m -> m_offset m + m_size m <= length r ->
  with_attr m v' (with_attr m v r) = with_attr m v' r.
Proof.
  intros L L' B. unfold with_attr. apply nth_error_ext. intros k. unfold set_range. rewrite !nth_error_mapi.
  destruct (nth_error r k) as [x|]; auto. cbn [option_map]. f_equal. rewrite L, L'.
  destruct (Nat.leb_spec (m_offset m) k), (Nat.ltb_spec k (m_offset m + m_size m)); cbn [andb]; auto. apply nth_indep. lia.
Qed.

Lemma same_shape_trans a : forall b c, same_shape a b -> same_shape b c -> same_shape a c.
Proof.
  induction a; destruct b; destruct c; simpl; try tauto. intros (-> & -> & S) (-> & -> & S'). eauto.
Qed.

Lemma shift_fold {S} (F : S -> nat -> res S) ts te d :
  foldM F (range 0 (te - ts)) d = foldM (fun d i => F d (i - ts)) (range ts te) d.
Proof.
  destruct (Nat.leb_spec ts te).
  - replace (range ts te) with (map (fun i => i + ts) (range 0 (te - ts))) by (rewrite <- range_shift; f_equal; lia).
    rewrite foldM_map. apply foldM_ext_in. intros k st _. now replace (k + ts - ts) with k by lia.
  - rewrite !range_empty by lia. reflexivity.
Qed.

Section Paths.
Variables (from to : layout) (mp : mapping) (sb : buffer) (s e ts te : nat).
Hypotheses (GF : good_layout from) (GT : good_layout to) (MO : mp_ok from to mp).
Hypotheses (WS : bf_wf sb) (LS : bf_layout sb = from) (S1 : s <= e) (S2 : e <= bf_len sb) (T1 : ts <= te) (EQ : e - s = te - ts).
Let sm := mp_src mp.
Let tm := mp_tgt mp.
Let src (k : nat) : list Z := attr_value sm (nth (k - ts + s) (bf_points sb) []).
Let val (k : nat) : list Z := mp_value mp (src k).

Lemma sb_uniform : uniform (l_size from) (bf_points sb) /\ length (bf_points sb) = bf_len sb.
Proof. rewrite <- LS. now apply bf_points_uniform. Qed.
Lemma src_len k : ts <= k < te -> length (src k) = m_size sm.
Proof.
  intros K. destruct sb_uniform as [U L]. apply (length_attr_value from); auto; [apply MO|].
  destruct (nth_error_get (bf_points sb) (k - ts + s)) as [r Hr]; [lia|]. rewrite (nth_nth_error _ _ [] _ Hr). exact (uniform_nth _ _ _ _ U Hr).
Qed.
Lemma val_len k : ts <= k < te -> length (val k) = m_size tm.
Proof. intros K. apply (mp_value_len from to); auto. now apply src_len. Qed.

Lemma src_values : map (attr_value sm) (sub (bf_points sb) s (e - s)) = map src (range ts te).
Proof.
  destruct sb_uniform as [_ L]. apply nth_error_ext. intros k. rewrite !nth_error_map, nth_error_sub. unfold range. rewrite nth_error_seq, EQ.
  destruct (Nat.ltb_spec k (te - ts)); auto. destruct (nth_error_get (bf_points sb) (s + k)) as [r Hr]; [lia|]. rewrite Hr. simpl. f_equal.
  unfold src. replace (ts + k - ts + s) with (s + k) by lia. now rewrite (nth_nth_error _ _ [] _ Hr).
Qed.
Lemma src_values_uniform : uniform (m_size sm) (map src (range ts te)).
Proof. apply uniform_map. intros k Hk. apply in_seq in Hk. apply src_len. lia. Qed.

Lemma mapi_val (recs : list (list Z)) : length recs = te - ts -> mapi (fun k _ => val (k + ts)) recs = map val (range ts te).
Proof.
  intros L. apply nth_error_ext. intros k. rewrite nth_error_mapi, nth_error_map. unfold range. rewrite nth_error_seq.
  destruct (Nat.ltb_spec k (te - ts)).
  - destruct (nth_error_get recs k) as [r Hr]; [lia|]. rewrite Hr. simpl. do 2 f_equal. lia.
  - rewrite nth_error_None_ge by lia. reflexivity.
Qed.

Lemma nth_src k : k < te - ts -> nth_error (map src (range ts te)) k = Some (src (k + ts)).
Proof.
  intros K. rewrite nth_error_map. unfold range. rewrite nth_error_seq. destruct (Nat.ltb_spec k (te - ts)); [|lia].
  simpl. do 2 f_equal. lia.
Qed.

Lemma source_chunks : bf_columnar sb = true ->
  bf_get_attribute_range_ref sb (m_def sm) s e = Ok (concat (map src (range ts te)))
  /\ chunks_exact (m_size sm) (concat (map src (range ts te))) = Ok (map src (range ts te)).
Proof.
  intros C. assert (Hs : In sm (l_attrs (bf_layout sb))) by (rewrite LS; apply MO). split.
  - rewrite (bf_column_ref sb sm) by auto. now rewrite src_values.
  - pose proof (sm_pos from to mp GF MO) as P. fold sm in P. unfold chunks_exact. destruct (Nat.eqb_spec (m_size sm) 0); [lia|]. cbn [negb assert bind].
    now rewrite as_points_concat by auto using src_values_uniform.
Qed.

Lemma source_raw : bf_columnar sb = false ->
  exists data, bf_get_point_range_ref sb 0 (bf_len sb) = Ok data
    /\ forall k, ts <= k < te -> raw_view_index data (m_offset sm) (l_size (bf_layout sb)) (m_size sm) (k - ts + s) = Ok (src k).
Proof.
  intros C. destruct sb_uniform as [U L]. exists (concat (bf_points sb)). split.
  - rewrite (bf_points_ref sb) by (auto; lia). unfold sub. simpl. now rewrite Nat.sub_0_r, <- L, firstn_all.
  - intros k K. unfold raw_view_index. destruct (nth_error_get (bf_points sb) (k - ts + s)) as [r Hr]; [lia|].
    assert (Hs : In sm (l_attrs from)) by apply MO. destruct (good_member _ _ GF Hs) as (_ & _ & B). rewrite LS.
    rewrite slice_get_ok; [|lia|].
    + replace (m_offset sm + l_size from * (k - ts + s) + m_size sm - (m_offset sm + l_size from * (k - ts + s))) with (m_size sm) by lia.
      replace (m_offset sm + l_size from * (k - ts + s)) with ((k - ts + s) * l_size from + m_offset sm) by lia.
      rewrite (sub_concat_in (l_size from) _ (k - ts + s) r) by auto. unfold src, attr_value. now rewrite (nth_nth_error _ _ [] _ Hr).
    + rewrite (length_concat (l_size from)) by auto. nia.
Qed.

Variable tb : mbuf.
Hypotheses (WT : mb_wf tb) (LT : mb_layout tb = to) (T2 : te <= mb_len tb).

Lemma tm_in' : In tm (l_attrs (mb_layout tb)). Proof. rewrite LT. apply MO. Qed.

Lemma target_column b : mb_wf b -> mb_layout b = to -> mb_len b = mb_len tb ->
  uniform (m_size tm) (map (attr_value tm) (sub (mb_points b) ts (te - ts)))
  /\ length (map (attr_value tm) (sub (mb_points b) ts (te - ts))) = te - ts.
Proof.
  intros W L N. destruct (wf_uniform b W) as [U UL]. split.
  - apply (uniform_column to); auto; [apply MO|]. apply uniform_sub. now rewrite <- L.
  - rewrite map_length, length_sub; lia.
Qed.

Lemma column_write (f : nat -> list Z -> res (list Z)) limit : mb_columnar tb = true ->
  te - ts <= limit -> (forall k c, k < te - ts -> length c = m_size tm -> f k c = Ok (val (k + ts))) ->
  exists tb', mb_modify_attribute_range tb (m_def tm) ts te (for_chunks_mut (m_size tm) limit f) = Ok tb'
              /\ effect mp tb tb' ts te val.
Proof.
  intros C LL F. destruct (target_column tb WT LT eq_refl) as [U L].
  destruct (set_range_effect from to mp GT MO tb ts te (concat (map val (range ts te))) val) as (tb' & E & EF); auto.
  { intros. now apply val_len. }
  fold tm in E. exists tb'. split; [|exact EF]. rewrite <- E. apply modify_column; auto.
  - apply tm_in'.
  - rewrite (for_chunks_ok (m_size tm) _ limit f (fun k _ => val (k + ts))); auto.
    + now rewrite mapi_val by exact L.
    + exact (tm_pos from to mp GT MO).
    + now rewrite L.
    + intros k c K LC. rewrite L in K. split; [now apply F|]. apply val_len. lia.
  - rewrite (length_concat (m_size tm)); [now rewrite map_length, length_range|].
    apply uniform_map. intros k Hk. apply in_seq in Hk. apply val_len. lia.
Qed.

Lemma points_write h (f : list Z -> nat -> res (list Z)) : mb_columnar tb = false ->
  (forall d, h d = foldM f (range ts te) d) ->
  (forall st i, ts <= i < te -> length st = mb_len tb * l_size to ->
     f st i = Ok (blit st (i * l_size to + m_offset tm) (val i))) ->
  exists tb', mb_modify_point_range tb 0 (mb_len tb) h = Ok tb' /\ effect mp tb tb' ts te val.
Proof.
  intros C HF F. destruct (wf_uniform tb WT) as [U UL]. rewrite LT in U.
  destruct (set_points_effect from to mp MO tb ts te val WT LT C) as (tb' & E & EF); auto.
  { intros. now apply val_len. }
  exists tb'. split; [|exact EF]. rewrite <- E. pose proof tm_in' as Ht. rewrite LT in Ht. destruct (good_member _ _ GT Ht) as (_ & _ & B).
  apply modify_points; auto; try lia.
  - unfold sub. simpl skipn. rewrite Nat.sub_0_r, <- UL, firstn_all, HF.
    apply (write_loop (l_size to) (mb_points tb) (m_offset tm) val (m_size tm)); auto; try lia.
    + intros. now apply val_len.
    + intros st i Hi Ls. apply F; auto. now rewrite <- UL.
  - rewrite LT, (length_concat (l_size to)), length_mapi; [lia|]. apply uniform_mapi. intros k r Hr. pose proof (uniform_nth _ _ _ _ U Hr) as LR.
    destruct (Nat.leb_spec ts k), (Nat.ltb_spec k te); simpl; auto. rewrite length_blit; auto. rewrite val_len by lia. fold tm. lia.
Qed.

Lemma cc_ok : bf_columnar sb = true -> mb_columnar tb = true ->
  exists tb', convert_cc mp sb s e tb ts te = Ok tb' /\ effect mp tb tb' ts te val.
Proof.
  intros CS CT. destruct (source_chunks CS) as [R CH]. unfold convert_cc. fold sm tm. rewrite R. cbn [bind].
  destruct (mp_conv mp) as [c|] eqn:EC.
  - destruct (column_write (fun k tchunk =>
          let* schunk := unwrap (nth_error (map src (range ts te)) k) in
          match mp_tf mp with
          | Some tf =>
              if tf_source tf
              then let* tmp := copy_from_slice (repeat 0%Z (m_size sm)) schunk in
                   Ok (conv_into c (tf_func tf tmp) tchunk)
              else Ok (tf_func tf (conv_into c schunk tchunk))
          | None => Ok (conv_into c schunk tchunk)
          end) (length (map src (range ts te))) CT) as (tb' & E & EF).
    + rewrite map_length, length_range. lia.
    + intros k ch K LC. rewrite nth_src by auto. cbn [unwrap bind].
      apply (chunk_columnar from to mp GT MO c); auto. apply src_len. lia.
    + exists tb'. split; [|exact EF]. rewrite CH. exact E.
  - assert (SZ := same_size from to mp GF GT MO EC). fold sm tm in SZ.
    destruct (set_range_effect from to mp GT MO tb ts te (concat (map src (range ts te))) src) as (t1 & E1 & EF1); auto.
    { intros k K. fold tm. rewrite <- SZ. now apply src_len. }
    fold tm in E1. rewrite E1. cbn [bind]. destruct (mp_tf mp) as [tf|] eqn:TF.
    + pose proof EF1 as (W1 & SH1 & L1 & N1 & P1 & O1 & RN1 & C1 & OUT1).
      destruct (target_column t1 W1) as [U1 LC1]; try congruence.
      assert (V : forall k, mp_value mp (src k) = tf_func tf (src k)) by (intros; unfold mp_value; now rewrite EC, TF).
      destruct (set_range_effect from to mp GT MO t1 ts te (concat (map val (range ts te))) val) as (t2 & E2 & EF2); auto; try congruence.
      { intros. now apply val_len. }
      fold tm in E2. exists t2. split.
      * rewrite <- E2. apply modify_column; auto; try congruence.
        -- rewrite L1. apply tm_in'.
        -- assert (CE : map (attr_value tm) (sub (mb_points t1) ts (te - ts)) = map src (range ts te)).
           { apply nth_error_ext. intros k. rewrite !nth_error_map, nth_error_sub. unfold range. rewrite nth_error_seq.
             destruct (Nat.ltb_spec k (te - ts)); auto. rewrite P1, nth_error_mapi. destruct (wf_uniform tb WT) as [U UL].
             destruct (nth_error_get (mb_points tb) (ts + k)) as [r Hr]; [lia|]. rewrite Hr. cbn [option_map].
             destruct (Nat.leb_spec ts (ts + k)); [|lia]. destruct (Nat.ltb_spec (ts + k) te); [|lia]. cbn [andb]. f_equal. fold tm.
             apply (attr_value_with_same to); auto.
             - rewrite <- LT. apply tm_in'.
             - rewrite <- LT. exact (uniform_nth _ _ _ _ U Hr).
             - rewrite <- SZ. apply src_len. lia. }
           rewrite CE. rewrite (for_chunks_ok (m_size tm) _ _ _ (fun _ c => tf_func tf c)).
           ++ f_equal. f_equal. apply nth_error_ext. intros k. rewrite nth_error_mapi, !nth_error_map. unfold range. rewrite nth_error_seq.
              destruct (Nat.ltb k (te - ts)); auto. cbn [option_map]. f_equal. unfold val. now rewrite V.
           ++ exact (tm_pos from to mp GT MO).
           ++ rewrite <- SZ. apply src_values_uniform.
           ++ rewrite (length_concat (m_size sm)) by apply src_values_uniform. pose proof (sm_pos from to mp GF MO). fold sm in H. nia.
           ++ intros k c K LC. split; auto. rewrite (tf_len from to mp GF GT MO tf) by (auto; destruct (tf_source tf); fold sm tm; congruence). exact LC.
        -- rewrite (length_concat (m_size tm)); [now rewrite map_length, length_range|].
           apply uniform_map. intros k Hk. apply in_seq in Hk. apply val_len. lia.
      * destruct EF2 as (W2 & SH2 & L2 & N2 & P2 & O2 & RN2 & C2 & OUT2). unfold effect.
        split; [exact W2|]. split; [now apply (same_shape_trans tb t1 t2)|]. split; [congruence|]. split; [congruence|].
        split. { rewrite P2, P1. apply nth_error_ext. intros k. rewrite !nth_error_mapi.
                 destruct (nth_error (mb_points tb) k) as [r|] eqn:Hr; auto. cbn [option_map]. f_equal.
                 destruct (Nat.leb_spec ts k), (Nat.ltb_spec k te); cbn [andb]; auto. fold tm.
                 pose proof tm_in' as Ht. destruct (good_member _ _ (wf_good _ WT) Ht) as (_ & _ & B).
                 destruct (wf_uniform tb WT) as [U UL]. pose proof (uniform_nth _ _ _ _ U Hr).
                 apply with_attr_twice; [rewrite <- SZ; apply src_len; lia|apply val_len; lia|lia]. }
        split; [congruence|]. split; [congruence|]. split; [congruence|]. intros q Q. rewrite OUT2 by lia. apply OUT1. exact Q.
    + exists t1. split; [reflexivity|].
      replace val with src; [exact EF1|]. unfold val. unfold mp_value. rewrite EC, TF. reflexivity.
Qed.

Lemma raw_update_ok st i chunk_fn : ts <= i < te -> length st = mb_len tb * l_size to ->
  (forall c, length c = m_size tm -> chunk_fn c = Ok (val i)) ->
  raw_view_update st (m_offset tm) (l_size to) (m_size tm) i chunk_fn = Ok (blit st (i * l_size to + m_offset tm) (val i)).
Proof.
  intros I L F. unfold raw_view_update. pose proof tm_in' as Ht. rewrite LT in Ht. destruct (good_member _ _ GT Ht) as (_ & _ & B).
  rewrite slice_get_ok by (try lia; nia). cbn [bind].
  replace (m_offset tm + l_size to * i + m_size tm - (m_offset tm + l_size to * i)) with (m_size tm) by lia.
  rewrite F by (apply length_sub; nia). cbn [bind]. do 2 f_equal. lia.
Qed.

Lemma ci_ok : bf_columnar sb = true -> mb_columnar tb = false ->
  exists tb', convert_ci mp sb s e tb ts te = Ok tb' /\ effect mp tb tb' ts te val.
Proof.
  intros CS CT. destruct (source_chunks CS) as [R CH]. unfold convert_ci. fold sm tm. rewrite R. cbn [bind]. rewrite LT.
  eapply points_write; [exact CT| |].
  - intros d. rewrite CH. cbn [bind]. rewrite map_length, length_range.
    apply (shift_fold _ ts te d).
  - intros st i Hi L. cbn beta. rewrite nth_src by lia. cbn [unwrap bind]. replace (i - ts + ts) with i by lia.
    apply raw_update_ok; auto. intros c LC. pose proof (src_len i Hi) as LI. destruct (mp_conv mp) as [cf|] eqn:EC.
    + unfold val. now apply (chunk_columnar from to mp GT MO cf).
    + pose proof (same_size from to mp GF GT MO EC) as SZ. fold sm tm in SZ. rewrite copy_ok by congruence. cbn [bind].
      unfold val, mp_value. rewrite EC. now destruct (mp_tf mp).
Qed.

Variable max : nat.
Hypothesis MAX : m_size sm <= max.

Lemma ic_ok : bf_columnar sb = false -> mb_columnar tb = true ->
  exists tb', convert_ic max mp sb s e tb ts te = Ok tb' /\ effect mp tb tb' ts te val.
Proof.
  intros CS CT. destruct (source_raw CS) as (data & R & RI). unfold convert_ic. fold sm tm. rewrite R. cbn [bind].
  edestruct (column_write (fun k tchunk =>
      let* schunk := raw_view_index data (m_offset sm) (l_size (bf_layout sb)) (m_size sm) (k + s) in
      match mp_conv mp with
      | Some c =>
          match mp_tf mp with
          | Some tf =>
              if tf_source tf
              then let* buf := scratch max (length schunk) schunk in Ok (conv_into c (tf_func tf buf) tchunk)
              else Ok (tf_func tf (conv_into c schunk tchunk))
          | None => Ok (conv_into c schunk tchunk)
          end
      | None =>
          match mp_tf mp with
          | Some tf => let* buf := scratch max (length schunk) schunk in copy_from_slice tchunk (tf_func tf buf)
          | None => copy_from_slice tchunk schunk
          end
      end) ((te - ts) * m_size tm) CT) as (tb' & E & EF).
  - pose proof (tm_pos from to mp GT MO). fold tm in H. nia.
  - intros k c K LC. specialize (RI (k + ts)). replace (k + ts - ts + s) with (k + s) in RI by lia. rewrite RI by lia. cbn [bind].
    apply (chunk_interleaved from to mp GF GT MO max); auto. apply src_len. lia.
  - exists tb'. split; [|exact EF]. rewrite <- E. destruct (target_column tb WT LT eq_refl) as [U L].
    apply modify_ext; auto; [apply tm_in'|]. fold tm. now rewrite (length_concat (m_size tm)), L.
Qed.

Lemma ii_ok : bf_columnar sb = false -> mb_columnar tb = false ->
  exists tb', convert_ii max mp sb s e tb ts te = Ok tb' /\ effect mp tb tb' ts te val.
Proof.
  intros CS CT. destruct (source_raw CS) as (data & R & RI). unfold convert_ii. fold sm tm. rewrite R. cbn [bind]. rewrite LT.
  eapply points_write; [exact CT| |].
  - intros d. assert (CM : combine (range s e) (range ts te) = map (fun i => (i - ts + s, i)) (range ts te)).
    { apply nth_error_ext. intros k. rewrite nth_error_combine2, nth_error_map. unfold range. rewrite !nth_error_seq, EQ.
      destruct (Nat.ltb k (te - ts)); auto. simpl. do 2 f_equal. lia. }
    rewrite CM, foldM_map. cbn beta iota. reflexivity.
  - intros st i Hi L. cbn beta iota. rewrite RI by auto. cbn [bind].
    apply raw_update_ok; auto. intros c LC. apply (chunk_interleaved from to mp GF GT MO max); auto. now apply src_len. symmetry. now apply src_len.
Qed.
End Paths.
