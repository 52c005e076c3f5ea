(* HashMapBuffer writes, appending, histories. *)
From Coq Require Import String List ZArith Lia Bool Arith.
From Verif Require Import Base LayoutModel LayoutSpec LayoutProofs BufferModel BufferSpec ListLemmas BufferProofs
  BufferSteps BufferSteps2.
Import ListNotations.

(* ------------------------------------------------------------------ folds over the attributes *)

Definition col_step (g : member -> list Z -> res (list Z)) (h : list (attr_def * list Z)) (m : member) :=
  let* c := unwrap (hm_get h (m_def m)) in
  let* c' := g m c in
  Ok (hm_set h (m_def m) c').

Lemma col_fold l g (old new : member -> list Z) h : good_layout l ->
  (forall m, In m (l_attrs l) -> hm_get h (m_def m) = Some (old m)) ->
  (forall m, In m (l_attrs l) -> g m (old m) = Ok (new m)) ->
  exists h', foldM (col_step g) (l_attrs l) h = Ok h' /\ map fst h' = map fst h
             /\ forall m, In m (l_attrs l) -> hm_get h' (m_def m) = Some (new m).
Proof.
  intros G HO HN.
  destruct (foldM_list (fun pre h' => map fst h' = map fst h
                /\ forall m, In m (l_attrs l) -> (In m pre -> hm_get h' (m_def m) = Some (new m))
                                              /\ (~ In m pre -> hm_get h' (m_def m) = Some (old m)))
             (col_step g) (l_attrs l) h) as [h' [E [K C]]].
  - split; auto. intros m Hm. split; [simpl; tauto|auto].
  - intros pre m post h1 E (K & C).
    assert (Hm : In m (l_attrs l)) by (rewrite E; apply in_elt).
    assert (NP : ~ In m pre).
    { intros Hp. pose proof (good_defs l G) as ND. rewrite E, map_app in ND. simpl in ND.
      apply NoDup_remove_2 in ND. apply ND. apply in_or_app. left. now apply in_map. }
    destruct (C m Hm) as [_ C1]. specialize (C1 NP).
    unfold col_step. rewrite C1. simpl. rewrite HN by assumption. simpl. eexists. split; [reflexivity|]. split.
    + now rewrite hm_set_keys.
    + intros m' Hm'. destruct (C m' Hm') as [D1 D2].
      assert (DEC : m' = m \/ m_def m <> m_def m').
      { destruct (attr_def_eqb (m_def m) (m_def m')) eqn:Q.
        - apply attr_def_eqb_eq in Q. left. eapply good_def_inj; eauto.
        - right. intros Q'. rewrite Q', attr_def_eqb_refl in Q. discriminate. }
      destruct DEC as [->|N].
      * rewrite (hm_get_set_same _ _ _ _ C1). split; auto. intros X. exfalso. apply X. apply in_or_app. right. simpl; auto.
      * rewrite hm_get_set_other by assumption. split.
        -- intros X. apply in_app_or in X. destruct X as [X|[X|[]]]; auto. subst. contradiction.
        -- intros X. apply D2. intros Y. apply X. apply in_or_app. auto.
  - exists h'. split; [|split]; auto. intros m Hm. now apply C.
Qed.

Lemma col_fold_panic l g (old : member -> list Z) h : good_layout l ->
  (forall m, In m (l_attrs l) -> hm_get h (m_def m) = Some (old m)) ->
  (forall m, In m (l_attrs l) -> g m (old m) = Panic) ->
  foldM (col_step g) (l_attrs l) h = Panic.
Proof.
  intros G HO HP. destruct (good_cons l G) as (m & ms & A).
  assert (Hm : In m (l_attrs l)) by (rewrite A; simpl; auto). rewrite A. simpl. unfold col_step at 1.
  rewrite HO by assumption. simpl. now rewrite HP.
Qed.

Lemma hm_get_map (f : attr_def * list Z -> list Z) h a :
  hm_get (map (fun kv => (fst kv, f kv)) h) a = option_map (fun c => f (a, c)) (hm_get h a).
Proof.
  induction h as [|[k c] h IH]; simpl; auto. destruct (attr_def_eqb k a) eqn:E; auto.
  apply attr_def_eqb_eq in E. now subst.
Qed.

Lemma hm_map_keys (f : attr_def * list Z -> list Z) h : map fst (map (fun kv => (fst kv, f kv)) h) = map fst h.
Proof. rewrite map_map. now apply map_ext. Qed.

Lemma mapM_ok {A B} (f : A -> res B) (g : A -> B) l : (forall a, In a l -> f a = Ok (g a)) -> mapM f l = Ok (map g l).
Proof.
  induction l as [|a l IH]; simpl; intros H; auto. rewrite H by auto. simpl. rewrite IH by auto. reflexivity.
Qed.

Section H.
Variables (l : layout) (G : good_layout l) (recs : list rec) (b : hbuf) (H : hb_rep l recs b).

Lemma hb_write_rep recs' h : uniform (l_size l) recs' -> length recs' = length recs ->
  map fst h = map fst (hb_map b) ->
  (forall m, In m (l_attrs l) -> hm_get h (m_def m) = Some (concat (map (attr_value m) recs'))) ->
  hb_rep l recs' (hb_with_map b h).
Proof.
  destruct H as (Hl & Hn & U & K & C). intros U' L K' C'. unfold hb_rep, hb_with_map. simpl.
  rewrite L, K'. auto.
Qed.

Lemma hb_facts : hb_layout b = l /\ hb_len b = length recs /\ uniform (l_size l) recs
  /\ map fst (hb_map b) = map m_def (l_attrs l)
  /\ (forall m, In m (l_attrs l) -> hm_get (hb_map b) (m_def m) = Some (concat (map (attr_value m) recs)))
  /\ 0 < l_size l.
Proof.
  pose proof H as (Hl & Hn & U & K & C). split; [|split; [|split; [|split; [|split]]]]; auto. now apply good_size.
Qed.

Lemma col_facts m : In m (l_attrs l) ->
  uniform (m_size m) (map (attr_value m) recs)
  /\ length (concat (map (attr_value m) recs)) = length recs * m_size m
  /\ ad_size (m_def m) = m_size m /\ 0 < m_size m /\ m_offset m + m_size m <= l_size l.
Proof.
  intros Hm. destruct hb_facts as (_ & _ & U & _). pose proof (uniform_values l m recs G Hm U) as UV.
  destruct (good_member l m G Hm) as (P & SZ & B). repeat split; auto.
  rewrite (length_concat (m_size m)) by assumption. now rewrite map_length.
Qed.

Lemma hb_set_point_ok i data : length data = l_size l ->
  outcome (hb_rep l) (hb_set_point b i data) (spec_step l recs (OSetPoint i data)).
Proof.
  intros D. destruct hb_facts as (Hl & Hn & U & K & C & PS). unfold outcome, hb_set_point. cbn [spec_step]. rewrite Hl.
  set (g := fun m c => let* src := slice_get data (m_offset m) (m_offset m + m_size m) in
              slice_set c (i * ad_size (m_def m)) ((i + 1) * ad_size (m_def m)) src).
  rewrite (foldM_ext_in _ (col_step g)).
  2: { intros m h Hm. unfold col_step, g. destruct (unwrap (hm_get h (m_def m))); auto. simpl.
       now destruct (slice_get data (m_offset m) (m_offset m + m_size m)). }
  destruct (Nat.ltb_spec i (length recs)) as [L|L].
  - destruct (col_fold l g (fun m => concat (map (attr_value m) recs))
               (fun m => concat (map (attr_value m) (set_nth i data recs))) (hb_map b)) as (h & E & K' & C'); auto.
    + intros m Hm. destruct (col_facts m Hm) as (UV & LC & AS & P & B). unfold g. rewrite AS.
      rewrite slice_get_ok by lia. cbn [bind].
      replace (m_offset m + m_size m - m_offset m) with (m_size m) by lia. fold (attr_value m data).
      assert (LV : length (attr_value m data) = m_size m) by (eapply length_attr_value; eauto).
      rewrite slice_set_ok by nia. f_equal. rewrite blit_concat_one; auto. 2: now rewrite map_length.
      now rewrite map_set_nth.
    + rewrite E. simpl. eexists. split; [reflexivity|]. apply hb_write_rep; auto.
      now apply uniform_set_nth. apply length_set_nth.
  - rewrite (col_fold_panic l g (fun m => concat (map (attr_value m) recs))); auto.
    intros m Hm. destruct (col_facts m Hm) as (UV & LC & AS & P & B). unfold g. rewrite AS.
    rewrite slice_get_ok by lia. cbn [bind]. apply slice_set_panic. right. nia.
Qed.

Lemma blit_whole (r v : list Z) : length v = length r -> blit r 0 v = v.
Proof. intros L. unfold blit. rewrite L. simpl. rewrite skipn_all. now rewrite app_nil_r. Qed.

Lemma hb_set_point_range_ok s e data : range_ok (length recs) s e -> length data = (e - s) * l_size l ->
  outcome (hb_rep l) (hb_set_point_range b s e data) (spec_step l recs (OSetPointRange s e data)).
Proof.
  intros R D. destruct hb_facts as (Hl & Hn & U & K & C & PS). unfold outcome, hb_set_point_range, hb_psize.
  cbn [spec_step]. rewrite Hl.
  set (f := fun m (c : list Z) i =>
                let z := i - s in
                let* p := slice_get data (z * l_size l) ((z + 1) * l_size l) in
                let* src := slice_get p (m_offset m) (m_offset m + m_size m) in
                slice_set c (i * ad_size (m_def m)) ((i + 1) * ad_size (m_def m)) src).
  change (foldM _ (l_attrs l) (hb_map b)) with (foldM (col_step (fun m c => foldM (f m) (range s e) c)) (l_attrs l) (hb_map b)).
  assert (F : forall m c i, In m (l_attrs l) -> s <= i < e ->
     f m c i = slice_set c (i * m_size m) ((i + 1) * m_size m) (attr_value m (sub data ((i - s) * l_size l) (l_size l)))
     /\ length (attr_value m (sub data ((i - s) * l_size l) (l_size l))) = m_size m).
  { intros m c i Hm Hi. destruct (col_facts m Hm) as (UV & LC & AS & P & B). unfold f. cbv zeta. rewrite AS.
    rewrite slice_get_ok by nia. cbn [bind].
    replace ((i - s + 1) * l_size l - (i - s) * l_size l) with (l_size l) by lia.
    assert (LS : length (sub data ((i - s) * l_size l) (l_size l)) = l_size l) by (apply length_sub; nia).
    rewrite slice_get_ok by lia. cbn [bind].
    replace (m_offset m + m_size m - m_offset m) with (m_size m) by lia. split; auto.
    now apply length_attr_value with (l := l). }
  destruct (Nat.leb_spec e (length recs)) as [L|L].
  - assert (L1 : s <= e) by (destruct R; lia).
    destruct (col_fold l (fun m c => foldM (f m) (range s e) c) (fun m => concat (map (attr_value m) recs))
               (fun m => concat (map (attr_value m) (set_range s (pieces (l_size l) (e - s) data) recs))) (hb_map b))
      as (h & E & K' & C'); auto.
    + intros m Hm. destruct (col_facts m Hm) as (UV & LC & AS & P & B).
      rewrite (write_loop (m_size m) (map (attr_value m) recs) 0
                 (fun i => attr_value m (sub data ((i - s) * l_size l) (l_size l))) (m_size m)); auto.
      * f_equal. f_equal. rewrite mapi_map. unfold set_range. rewrite map_mapi. apply mapi_ext. intros k r Hr.
        rewrite length_pieces. replace (s + (e - s)) with e by lia.
        destruct (Nat.leb_spec s k), (Nat.ltb_spec k e); simpl; auto.
        destruct (nth_error_get (pieces (l_size l) (e - s) data) (k - s)) as [x Hx].
        { rewrite length_pieces. lia. }
        rewrite (nth_nth_error _ _ _ _ Hx). rewrite nth_error_pieces in Hx.
        destruct (Nat.ltb_spec (k - s) (e - s)); [|discriminate]. injection Hx as <-.
        apply blit_whole. destruct (F m [] k Hm) as [_ ->]; [lia|].
        symmetry. eapply length_attr_value; eauto. eapply uniform_nth; eauto.
      * intros i Hi. apply (F m [] i Hm Hi).
      * now rewrite map_length.
      * intros st i Hi Ls. destruct (F m st i Hm Hi) as [-> LV]. rewrite map_length in Ls. rewrite Nat.add_0_r.
        apply slice_set_ok; nia.
    + rewrite E. simpl. eexists. split; [reflexivity|]. apply hb_write_rep; auto.
      apply uniform_set_range; auto. now apply uniform_pieces. apply length_set_range.
  - rewrite (col_fold_panic l (fun m c => foldM (f m) (range s e) c) (fun m => concat (map (attr_value m) recs))); auto.
    intros m Hm. destruct (col_facts m Hm) as (UV & LC & AS & P & B).
    apply (foldM_range_panic (fun i st => length st = length recs * m_size m)) with (i0 := Nat.max s (length recs)); auto.
    + destruct R; lia.
    + intros i st Hi Ls. destruct (F m st i Hm) as [-> LV]; [lia|]. rewrite slice_set_ok by nia.
      eexists. split; [reflexivity|]. rewrite length_blit; nia.
    + intros st Ls. destruct (F m st (Nat.max s (length recs)) Hm) as [-> LV]; [destruct R; lia|].
      apply slice_set_panic. right. nia.
Qed.

(* replacing one column *)
Lemma hb_set_column m c recs' : In m (l_attrs l) -> uniform (l_size l) recs' -> length recs' = length recs ->
  c = concat (map (attr_value m) recs') ->
  (forall m', In m' (l_attrs l) -> m' <> m -> map (attr_value m') recs' = map (attr_value m') recs) ->
  hb_rep l recs' (hb_with_map b (hm_set (hb_map b) (m_def m) c)).
Proof.
  intros Hm U' L' -> O. destruct hb_facts as (Hl & Hn & U & K & C & PS). apply hb_write_rep; auto.
  - apply hm_set_keys.
  - intros m' Hm'. destruct (attr_def_eqb (m_def m) (m_def m')) eqn:Q.
    + apply attr_def_eqb_eq in Q. assert (m' = m) by (eapply good_def_inj; eauto). subst m'.
      apply (hm_get_set_same _ _ _ _ (C m Hm)).
    + rewrite hm_get_set_other. 2: intros Q'; rewrite Q', attr_def_eqb_refl in Q; discriminate.
      rewrite C by assumption. rewrite O; auto. intros ->. rewrite attr_def_eqb_refl in Q. discriminate.
Qed.

Lemma hb_set_attribute_ok a i data : length data = dt_size (ad_type a) ->
  outcome (hb_rep l) (hb_set_attribute b a i data) (spec_step l recs (OSetAttribute a i data)).
Proof.
  intros D. destruct hb_facts as (Hl & Hn & U & K & C & PS). unfold outcome, hb_set_attribute. cbn [spec_step].
  destruct (member_of l a) as [m|] eqn:M.
  2: { rewrite (hb_column_none l recs) by assumption. reflexivity. }
  apply member_of_spec in M; auto. destruct M as [Hm <-].
  destruct (col_facts m Hm) as (UV & LC & AS & P & B).
  unfold hb_column. rewrite C by assumption. cbn [unwrap bind]. rewrite AS. unfold ad_size in AS. rewrite AS in D.
  destruct (Nat.ltb_spec i (length recs)).
  - rewrite slice_set_ok by nia. cbn [bind]. eexists. split; [reflexivity|].
    apply hb_set_column; auto.
    + apply uniform_mapi. intros k r Hr. pose proof (uniform_nth _ _ _ _ U Hr). destruct (k =? i); auto.
      now rewrite length_with_attr.
    + apply length_mapi.
    + rewrite blit_concat_one; auto. 2: now rewrite map_length. f_equal. unfold set_nth.
      rewrite mapi_map, map_mapi. apply mapi_ext. intros k r Hr. destruct (k =? i); auto.
      symmetry. apply (attr_value_with_same l); auto. eapply uniform_nth; eauto.
    + intros m' Hm' N. rewrite map_mapi. apply nth_error_ext. intros k. rewrite nth_error_mapi, nth_error_map.
      destruct (nth_error recs k) as [r|] eqn:Hr; auto. simpl. f_equal. destruct (k =? i); auto.
      apply (attr_value_with_other l); auto. eapply uniform_nth; eauto.
  - rewrite slice_set_panic; auto. right. nia.
Qed.

Lemma hb_set_attribute_range_ok a s e data : range_ok (length recs) s e -> length data = (e - s) * dt_size (ad_type a) ->
  outcome (hb_rep l) (hb_set_attribute_range b a s e data) (spec_step l recs (OSetAttributeRange a s e data)).
Proof.
  intros R D. destruct hb_facts as (Hl & Hn & U & K & C & PS). unfold outcome, hb_set_attribute_range. cbn [spec_step].
  destruct (member_of l a) as [m|] eqn:M.
  2: { rewrite (hb_column_none l recs) by assumption. reflexivity. }
  apply member_of_spec in M; auto. destruct M as [Hm <-].
  destruct (col_facts m Hm) as (UV & LC & AS & P & B).
  unfold hb_column. rewrite C by assumption. cbn [unwrap bind]. rewrite AS. unfold ad_size in AS. rewrite AS in D.
  assert (LV : forall k, s <= k < e -> length (sub data ((k - s) * m_size m) (m_size m)) = m_size m).
  { intros. apply length_sub. nia. }
  destruct (Nat.leb_spec e (length recs)).
  - assert (L1 : s <= e) by (destruct R; lia).
    rewrite slice_set_ok by nia. cbn [bind]. eexists. split; [reflexivity|].
    apply hb_set_column; auto.
    + apply uniform_mapi. intros k r Hr. pose proof (uniform_nth _ _ _ _ U Hr). destruct (_ && _); auto.
      now rewrite length_with_attr.
    + apply length_mapi.
    + rewrite (blit_set_range_concat (m_size m) _ s (e - s)); auto. 2: rewrite map_length; lia.
      f_equal. unfold set_range. rewrite mapi_map, map_mapi, length_pieces. replace (s + (e - s)) with e by lia.
      apply mapi_ext. intros k r Hr. destruct (Nat.leb_spec s k), (Nat.ltb_spec k e); simpl; auto.
      rewrite (attr_value_with_same l); auto. 2: eapply uniform_nth; eauto.
      apply nth_nth_error. rewrite nth_error_pieces. destruct (Nat.ltb_spec (k - s) (e - s)); [reflexivity|lia].
    + intros m' Hm' N. rewrite map_mapi. apply nth_error_ext. intros k. rewrite nth_error_mapi, nth_error_map.
      destruct (nth_error recs k) as [r|] eqn:Hr; auto. simpl. f_equal.
      destruct (Nat.leb_spec s k), (Nat.ltb_spec k e); simpl; auto.
      apply (attr_value_with_other l); auto. eapply uniform_nth; eauto.
  - rewrite slice_set_panic; auto. right. nia.
Qed.

Lemma hb_swap_ok i j : outcome (hb_rep l) (hb_swap b i j) (spec_step l recs (OSwap i j)).
Proof.
  destruct hb_facts as (Hl & Hn & U & K & C & PS). unfold outcome, hb_swap. cbn [spec_step]. rewrite Hn.
  destruct (Nat.ltb_spec i (length recs)); simpl; auto.
  destruct (Nat.ltb_spec j (length recs)); simpl; auto.
  destruct (Nat.eqb_spec i j).
  - subst. eexists. split; [reflexivity|]. now rewrite exchange_same.
  - assert (CM : forall a c, In (a, c) (hb_map b) -> exists m, In m (l_attrs l) /\ a = m_def m
                     /\ c = concat (map (attr_value m) recs)).
    { intros a c Hin. assert (Ha : In a (map m_def (l_attrs l))).
      { rewrite <- K. change a with (fst (a, c)). now apply in_map. }
      apply in_map_iff in Ha. destruct Ha as [m [<- Hm]]. exists m. split; [|split]; auto.
      apply hm_get_In in Hin. 2: { rewrite K. now apply good_defs. } rewrite (C m Hm) in Hin. congruence. }
    set (f := fun kv : attr_def * list Z =>
       match swap_bytes (snd kv) (i * ad_size (fst kv)) (j * ad_size (fst kv)) (ad_size (fst kv)) with
       | Ok c => c | _ => [] end).
    assert (F : forall m, In m (l_attrs l) ->
       swap_bytes (concat (map (attr_value m) recs)) (i * ad_size (m_def m)) (j * ad_size (m_def m)) (ad_size (m_def m))
       = Ok (concat (map (attr_value m) (exchange i j recs)))).
    { intros m Hm. destruct (col_facts m Hm) as (UV & LC & AS & P & B). rewrite AS.
      destruct (nth_error_get recs i) as [x Hx]; auto. destruct (nth_error_get recs j) as [y Hy]; auto.
      rewrite (swap_bytes_ok (m_size m) _ i j (attr_value m x) (attr_value m y)); auto.
      - now rewrite map_exchange.
      - now rewrite nth_error_map, Hx.
      - now rewrite nth_error_map, Hy. }
    rewrite (mapM_ok _ (fun kv => (fst kv, f kv))).
    2: { intros [a c] Hin. destruct (CM a c Hin) as (m & Hm & -> & ->). unfold f. cbn [fst snd]. now rewrite F. }
    simpl. eexists. split; [reflexivity|]. apply hb_write_rep.
    + now apply uniform_exchange.
    + apply length_exchange.
    + apply hm_map_keys.
    + intros m Hm. rewrite hm_get_map, C by assumption. simpl. unfold f. cbn [fst snd]. now rewrite F.
Qed.

Lemma attr_value_zero m : In m (l_attrs l) -> attr_value m (repeat 0%Z (l_size l)) = repeat 0%Z (m_size m).
Proof.
  intros Hm. destruct (good_member l m G Hm) as (P & SZ & B). apply nth_error_ext. intros k. unfold attr_value.
  rewrite nth_error_sub. destruct (Nat.ltb_spec k (m_size m)).
  - rewrite !nth_error_repeat by lia. reflexivity.
  - symmetry. apply nth_error_None_ge. now rewrite repeat_length.
Qed.

Lemma map_repeat {A B} (f : A -> B) x n : map f (repeat x n) = repeat (f x) n.
Proof. induction n; simpl; congruence. Qed.

Lemma hb_resize_rep n : hb_rep l (firstn n recs ++ repeat (repeat 0%Z (l_size l)) (n - length recs)) (hb_resize b n).
Proof.
  destruct hb_facts as (Hl & Hn & U & K & C & PS). unfold hb_rep, hb_resize. simpl.
  split; [|split; [|split; [|split]]]; auto.
  - rewrite app_length, firstn_length, repeat_length. lia.
  - apply uniform_app; [now apply uniform_firstn|apply uniform_repeat].
  - now rewrite (hm_map_keys (fun kv => vec_resize (snd kv) (n * ad_size (fst kv)))).
  - intros m Hm. destruct (col_facts m Hm) as (UV & LC & AS & P & B).
    rewrite (hm_get_map (fun kv => vec_resize (snd kv) (n * ad_size (fst kv)))), C by assumption. simpl. f_equal.
    rewrite AS, vec_resize_concat by assumption. f_equal. rewrite map_app, map_length, firstn_map. f_equal.
    rewrite map_repeat. now rewrite attr_value_zero.
Qed.

Lemma hb_clear_rep : hb_rep l [] (hb_clear b).
Proof.
  destruct hb_facts as (Hl & Hn & U & K & C & PS). unfold hb_rep, hb_clear. simpl.
  split; [|split; [|split; [|split]]]; auto.
  - constructor.
  - now rewrite (hm_map_keys (fun _ => [])).
  - intros m Hm. rewrite (hm_get_map (fun _ => [])), C by assumption. reflexivity.
Qed.

Lemma hb_push_ok bytes : outcome (hb_rep l) (hb_push_points b bytes) (spec_step l recs (OPush bytes)).
Proof.
  destruct hb_facts as (Hl & Hn & U & K & C & PS). unfold outcome, hb_push_points, hb_psize. cbn [spec_step]. rewrite Hl.
  destruct (Nat.eqb_spec (l_size l) 0); [lia|].
  destruct (Nat.eqb_spec (length bytes mod l_size l) 0) as [E|E]; cbn [assert bind]; auto.
  set (num := length bytes / l_size l) in *.
  assert (LB : length bytes = num * l_size l).
  { pose proof (Nat.div_mod (length bytes) (l_size l) n). unfold num. lia. }
  set (f := fun m (c : list Z) i =>
                let* p := slice_get bytes (i * l_size l) ((i + 1) * l_size l) in
                let* src := slice_get p (m_offset m) (m_offset m + m_size m) in
                Ok (c ++ src)).
  change (foldM _ (l_attrs l) (hb_map b)) with (foldM (col_step (fun m c => foldM (f m) (range 0 num) c)) (l_attrs l) (hb_map b)).
  destruct (col_fold l (fun m c => foldM (f m) (range 0 num) c) (fun m => concat (map (attr_value m) recs))
             (fun m => concat (map (attr_value m) (recs ++ pieces (l_size l) num bytes))) (hb_map b))
      as (h & E1 & K' & C'); auto.
  - intros m Hm. destruct (col_facts m Hm) as (UV & LC & AS & P & B).
    edestruct (foldM_range (fun i st => st = concat (map (attr_value m) (recs ++ firstn i (pieces (l_size l) num bytes)))))
      as [st' [E1 E2]].
    4: { rewrite E1, E2. rewrite firstn_all_ge by (now rewrite length_pieces). reflexivity. }
    + lia.
    + simpl. now rewrite app_nil_r.
    + intros i st Hi ->. unfold f. rewrite slice_get_ok by nia. cbn [bind].
      replace ((i + 1) * l_size l - i * l_size l) with (l_size l) by lia.
      assert (LS : length (sub bytes (i * l_size l) (l_size l)) = l_size l) by (apply length_sub; nia).
      rewrite slice_get_ok by lia. cbn [bind]. eexists. split; [reflexivity|].
      replace (m_offset m + m_size m - m_offset m) with (m_size m) by lia.
      replace (firstn (i + 1) (pieces (l_size l) num bytes))
        with (firstn i (pieces (l_size l) num bytes) ++ [sub bytes (i * l_size l) (l_size l)]).
      * rewrite app_assoc, (map_app _ (_ ++ _)), concat_app. f_equal. simpl. now rewrite app_nil_r.
      * assert (LF : length (firstn i (pieces (l_size l) num bytes)) = i) by (rewrite firstn_length, length_pieces; lia).
        apply nth_error_ext. intros k. rewrite (nth_error_firstn _ (i + 1)).
        destruct (Nat.lt_ge_cases k i).
        -- rewrite nth_error_app1 by lia. rewrite nth_error_firstn.
           destruct (Nat.ltb_spec k i); [|lia]. destruct (Nat.ltb_spec k (i + 1)); [|lia]. reflexivity.
        -- rewrite nth_error_app2 by lia. rewrite LF. destruct (Nat.ltb_spec k (i + 1)).
           ++ replace k with i by lia. rewrite Nat.sub_diag, nth_error_pieces.
              destruct (Nat.ltb_spec i num); [reflexivity|lia].
           ++ apply nth_error_None_ge. simpl. lia.
  - rewrite E1. cbn [bind]. eexists. split; [reflexivity|]. unfold hb_rep. simpl.
    split; [|split; [|split; [|split]]]; auto.
    + rewrite app_length, length_pieces. lia.
    + apply uniform_app; auto. now apply uniform_pieces.
    + congruence.
Qed.
End H.

Lemma hb_new_rep l : good_layout l -> hb_rep l [] (hb_new l).
Proof.
  intros G. unfold hb_rep, hb_new. simpl. split; [|split; [|split; [|split]]]; auto.
  - constructor.
  - now rewrite map_map.
  - intros m Hm. apply hm_get_In.
    + rewrite map_map. simpl. now apply good_defs.
    + apply in_map_iff. exists m. auto.
Qed.
