(* Every operation of a VectorBuffer / HashMapBuffer refines the operation on the list of points. *)
From Coq Require Import String List ZArith Lia Bool Arith.
From Verif Require Import Base LayoutModel LayoutSpec LayoutProofs BufferModel BufferSpec ListLemmas BufferProofs.
Import ListNotations.

(* ------------------------------------------------------------------ HashMapBuffer: map and reads *)

Lemma hm_get_set_same h a v w : hm_get h a = Some w -> hm_get (hm_set h a v) a = Some v.
Proof.
  induction h as [|[k x] h IH]; simpl; intros H; [discriminate|].
  destruct (attr_def_eqb k a) eqn:E; simpl; rewrite E; auto.
Qed.

Lemma hm_get_set_other h a b v : a <> b -> hm_get (hm_set h a v) b = hm_get h b.
Proof.
  intros N. induction h as [|[k x] h IH]; simpl; auto.
  destruct (attr_def_eqb k a) eqn:E; simpl.
  - apply attr_def_eqb_eq in E. subst. rewrite attr_def_eqb_neq by assumption. reflexivity.
  - destruct (attr_def_eqb k b); auto.
Qed.

Lemma hm_set_keys h a v : map fst (hm_set h a v) = map fst h.
Proof.
  induction h as [|[k x] h IH]; simpl; auto. destruct (attr_def_eqb k a); simpl; congruence.
Qed.

Lemma hm_get_In h a c : NoDup (map fst h) -> (hm_get h a = Some c <-> In (a, c) h).
Proof.
  induction h as [|[k x] h IH]; simpl; intros ND; [split; [discriminate|tauto]|].
  inversion ND as [|? ? NI ND']; subst. destruct (attr_def_eqb k a) eqn:E.
  - apply attr_def_eqb_eq in E. subst. split.
    + intros H; injection H as ->. auto.
    + intros [H|H]; [injection H as ->; auto|]. exfalso. apply NI.
      change a with (fst (a, c)). now apply in_map.
  - rewrite IH by assumption. split; auto. intros [H|H]; auto.
    injection H as -> ->. rewrite attr_def_eqb_refl in E. discriminate.
Qed.

Lemma hm_get_None h a : ~ In a (map fst h) -> hm_get h a = None.
Proof.
  induction h as [|[k x] h IH]; simpl; auto. intros N. destruct (attr_def_eqb k a) eqn:E.
  - apply attr_def_eqb_eq in E. tauto.
  - apply IH. tauto.
Qed.

Lemma hm_get_key h a : In a (map fst h) -> exists c, hm_get h a = Some c.
Proof.
  induction h as [|[k x] h IH]; simpl; [tauto|]. intros H. destruct (attr_def_eqb k a) eqn:E; eauto.
  destruct H as [->|H]; auto. rewrite attr_def_eqb_refl in E. discriminate.
Qed.

Lemma good_cons l : good_layout l -> exists m ms, l_attrs l = m :: ms.
Proof. intros (N & _). destruct (l_attrs l) as [|m ms]; [contradiction|eauto]. Qed.

Definition hb_rep (l : layout) (recs : list rec) (b : hbuf) : Prop :=
  hb_layout b = l /\ hb_len b = length recs /\ uniform (l_size l) recs
  /\ map fst (hb_map b) = map m_def (l_attrs l)
  /\ (forall m, In m (l_attrs l) -> hm_get (hb_map b) (m_def m) = Some (concat (map (attr_value m) recs))).

Lemma uniform_values l m recs : good_layout l -> In m (l_attrs l) -> uniform (l_size l) recs ->
  uniform (m_size m) (map (attr_value m) recs).
Proof.
  intros G Hm U. apply uniform_map. intros r Hr. eapply length_attr_value; eauto.
  unfold uniform in U. rewrite Forall_forall in U. auto.
Qed.

Lemma ad_size_member l m : good_layout l -> In m (l_attrs l) -> ad_size (m_def m) = m_size m.
Proof. intros G Hm. unfold ad_size. destruct (good_member l m G Hm) as (_ & E & _). now symmetry. Qed.

Lemma good_no_member l a : good_layout l -> member_of l a = None -> ~ In a (map m_def (l_attrs l)).
Proof.
  intros G N H. apply in_map_iff in H. destruct H as [m [<- Hm]]. rewrite member_of_In in N; auto. discriminate.
Qed.

Lemma hb_column_none l recs b a : good_layout l -> hb_rep l recs b -> member_of l a = None -> hb_column b a = Panic.
Proof.
  intros G (Hl & Hn & U & K & C) N. unfold hb_column. rewrite hm_get_None; auto. rewrite K.
  now apply good_no_member.
Qed.

Lemma hb_get_attribute_ref_ok l recs b m i r : good_layout l -> hb_rep l recs b -> In m (l_attrs l) ->
  nth_error recs i = Some r -> hb_get_attribute_ref b (m_def m) i = Ok (attr_value m r).
Proof.
  intros G (Hl & Hn & U & K & C) Hm E. unfold hb_get_attribute_ref, hb_column. rewrite C by assumption.
  simpl. rewrite (ad_size_member l) by assumption.
  pose proof (uniform_values l m recs G Hm U) as UV. pose proof (nth_error_lt _ _ _ E).
  rewrite slice_get_ok. 2: nia. 2: { rewrite (length_concat (m_size m)) by assumption. rewrite map_length. nia. }
  f_equal. replace ((i + 1) * m_size m - i * m_size m) with (m_size m) by lia.
  apply sub_concat_one; auto. now rewrite nth_error_map, E.
Qed.

Lemma hb_get_attribute_ref_panic l recs b m i : good_layout l -> hb_rep l recs b -> In m (l_attrs l) ->
  length recs <= i -> hb_get_attribute_ref b (m_def m) i = Panic.
Proof.
  intros G (Hl & Hn & U & K & C) Hm E. unfold hb_get_attribute_ref, hb_column. rewrite C by assumption.
  simpl. rewrite (ad_size_member l) by assumption.
  pose proof (uniform_values l m recs G Hm U) as UV. destruct (good_member l m G Hm) as (P & _ & _).
  apply slice_get_panic. right. rewrite (length_concat (m_size m)) by assumption. rewrite map_length. nia.
Qed.

Definition covered (l : layout) (k : nat) : Prop := exists m, In m (l_attrs l) /\ occupies m k.

Lemma covered_b l k :
  existsb (fun m => Nat.leb (m_offset m) k && Nat.ltb k (m_offset m + m_size m)) (l_attrs l) = true <-> covered l k.
Proof.
  rewrite existsb_exists. unfold covered, occupies.
  split; intros [m [Hm H]]; exists m; split; auto.
  - apply andb_prop in H. destruct H as [H1 H2]. apply Nat.leb_le in H1. apply Nat.ltb_lt in H2. lia.
  - apply andb_true_intro. split; [apply Nat.leb_le|apply Nat.ltb_lt]; lia.
Qed.

Lemma attr_value_byte m r k : occupies m k -> nth_error (attr_value m r) (k - m_offset m) = nth_error r k.
Proof.
  unfold occupies. intros H. unfold attr_value. rewrite nth_error_sub.
  destruct (Nat.ltb_spec (k - m_offset m) (m_size m)); [|lia]. f_equal. lia.
Qed.

(* the overlay is determined by the attribute values and the uncovered bytes *)
Lemma overlay_unique l r data d : length r = l_size l -> length data = l_size l -> length d = l_size l ->
  (forall m, In m (l_attrs l) -> attr_value m d = attr_value m r) ->
  (forall k, ~ covered l k -> nth_error d k = nth_error data k) ->
  d = overlay l r data.
Proof.
  intros Lr Ld L V U. apply nth_error_ext. intros k. unfold overlay. rewrite nth_error_mapi.
  destruct (existsb _ (l_attrs l)) eqn:E.
  - pose proof E as E'. apply covered_b in E'. destruct E' as [m [Hm O]].
    rewrite <- (attr_value_byte m d k O), (V m Hm), (attr_value_byte m r k O).
    destruct (nth_error data k) eqn:F; simpl.
    + destruct (nth_error_get r k) as [x Hx]; [apply nth_error_lt in F; lia|].
      now rewrite (nth_nth_error _ _ _ _ Hx).
    + apply nth_error_None in F. apply nth_error_None_ge. lia.
  - rewrite U. 2: { intros H. apply covered_b in H. congruence. }
    now destruct (nth_error data k).
Qed.

Lemma length_overlay l r data : length (overlay l r data) = length data.
Proof. unfold overlay. apply length_mapi. Qed.

Lemma overlay_byte l r data k : length r = l_size l -> length data = l_size l ->
  nth_error (overlay l r data) k =
  if existsb (fun m => Nat.leb (m_offset m) k && Nat.ltb k (m_offset m + m_size m)) (l_attrs l)
  then nth_error r k else nth_error data k.
Proof.
  intros Lr Ld. unfold overlay. rewrite nth_error_mapi. destruct (existsb _ (l_attrs l)).
  - destruct (nth_error data k) eqn:F; simpl.
    + destruct (nth_error_get r k) as [x Hx]; [apply nth_error_lt in F; lia|].
      now rewrite Hx, (nth_nth_error _ _ _ _ Hx).
    + apply nth_error_None in F. symmetry. apply nth_error_None_ge. lia.
  - now destruct (nth_error data k).
Qed.

Lemma attr_value_overlay l r data m : good_layout l -> In m (l_attrs l) -> length r = l_size l ->
  length data = l_size l -> attr_value m (overlay l r data) = attr_value m r.
Proof.
  intros G Hm Lr Ld. unfold attr_value. apply nth_error_ext. intros k. rewrite !nth_error_sub.
  destruct (Nat.ltb_spec k (m_size m)); auto. rewrite overlay_byte by assumption.
  assert (C : covered l (m_offset m + k)) by (exists m; unfold occupies; split; auto; lia).
  apply covered_b in C. now rewrite C.
Qed.

Lemma overlay_overlay l r r' data : length r = l_size l -> length r' = l_size l -> length data = l_size l ->
  overlay l r (overlay l r' data) = overlay l r data.
Proof.
  intros. apply nth_error_ext. intros k. rewrite !overlay_byte; auto. 2: now rewrite length_overlay.
  destruct (existsb _ (l_attrs l)); auto.
Qed.

(* writing the attribute values one by one *)
Lemma hb_get_point_gen l b i (v : member -> list Z) data :
  good_layout l -> hb_layout b = l ->
  (forall m, In m (l_attrs l) -> hb_get_attribute_ref b (m_def m) i = Ok (v m) /\ length (v m) = m_size m) ->
  length data = l_size l ->
  exists d, hb_get_point b i data = Ok d /\ length d = l_size l
            /\ (forall m, In m (l_attrs l) -> attr_value m d = v m)
            /\ (forall k, ~ covered l k -> nth_error d k = nth_error data k).
Proof.
  intros G Hl HV D. unfold hb_get_point. rewrite Hl.
  destruct (foldM_list (fun pre d => length d = l_size l /\ (forall m, In m pre -> attr_value m d = v m)
                                     /\ (forall k, ~ covered l k -> nth_error d k = nth_error data k))
             (fun d m => let* src := hb_get_attribute_ref b (m_def m) i in
                         slice_set d (m_offset m) (m_offset m + m_size m) src) (l_attrs l) data)
    as [d [E P]].
  - simpl. split; [|split]; auto. tauto.
  - intros pre m post d E (L & V & Un).
    assert (Hm : In m (l_attrs l)) by (rewrite E; apply in_elt).
    destruct (HV m Hm) as [Eq Lv]. rewrite Eq. simpl.
    destruct (good_member l m G Hm) as (P & _ & B).
    rewrite slice_set_ok by lia. eexists. split; [reflexivity|]. split; [|split].
    + rewrite length_blit; lia.
    + rewrite blit_set_range by lia. change (set_range (m_offset m) (v m) d) with (with_attr m (v m) d).
      intros m' Hm'. apply in_app_or in Hm'. destruct Hm' as [Hm'|[<-|[]]].
      * assert (In m' (l_attrs l)) by (rewrite E; apply in_or_app; auto).
        rewrite (attr_value_with_other l m m'); auto.
        intros ->. pose proof (good_defs l G) as ND. rewrite E, map_app in ND. simpl in ND.
        apply NoDup_remove_2 in ND. apply ND. apply in_or_app. left. now apply in_map.
      * now apply (attr_value_with_same l).
    + intros k Hk. rewrite nth_error_blit by lia. rewrite <- (Un k Hk).
      destruct (Nat.leb_spec (m_offset m) k); auto. destruct (Nat.ltb_spec k (m_offset m + length (v m))); auto.
      exfalso. apply Hk. exists m. split; auto. unfold occupies. lia.
  - exists d. split; [exact E|]. exact P.
Qed.

Lemma hb_get_point_ok l recs b i r data : good_layout l -> hb_rep l recs b -> nth_error recs i = Some r ->
  length data = l_size l -> hb_get_point b i data = Ok (overlay l r data).
Proof.
  intros G H E D.
  assert (Lr : length r = l_size l) by (destruct H as (_ & _ & U & _); eapply uniform_nth; eauto).
  destruct (hb_get_point_gen l b i (fun m => attr_value m r) data) as (d & Ed & Ld & V & Un); auto.
  - now destruct H as (Hl & _).
  - intros m Hm. split; [eapply hb_get_attribute_ref_ok; eauto|eapply length_attr_value; eauto].
  - rewrite Ed. f_equal. now apply overlay_unique.
Qed.

Lemma hb_get_point_panic l recs b i data : good_layout l -> hb_rep l recs b -> length recs <= i ->
  hb_get_point b i data = Panic.
Proof.
  intros G H E. unfold hb_get_point. pose proof H as (Hl & _). rewrite Hl.
  destruct (good_cons l G) as (m & ms & A). rewrite A. simpl.
  rewrite (hb_get_attribute_ref_panic l recs); auto. rewrite A. simpl; auto.
Qed.

Lemma hb_get_point_range_ok l recs b s e data : good_layout l -> hb_rep l recs b -> s <= e -> e <= length recs ->
  length data = (e - s) * l_size l ->
  hb_get_point_range b s e data
  = Ok (concat (map (fun k => overlay l (nth (s + k) recs []) (sub data (k * l_size l) (l_size l))) (seq 0 (e - s)))).
Proof.
  intros G H L1 L2 D. pose proof H as (Hl & Hn & U & K & C). unfold hb_get_point_range, hb_psize. rewrite Hl.
  set (sz := l_size l) in *.
  set (Q := fun (pre : list member) k (p : list Z) =>
         length p = sz
         /\ (forall m, In m pre -> attr_value m p = attr_value m (nth (s + k) recs []))
         /\ (forall j, ~ covered l j -> nth_error p j = nth_error (sub data (k * sz) sz) j)).
  destruct (foldM_list
     (fun pre d => exists ps, d = concat ps /\ uniform sz ps /\ length ps = e - s
                              /\ forall k p, nth_error ps k = Some p -> Q pre k p)
     (fun d m => let* c := hb_column b (m_def m) in
           foldM (fun d i =>
                    let* src := slice_get c (i * ad_size (m_def m)) ((i + 1) * ad_size (m_def m)) in
                    let base := (i - s) * sz in
                    slice_set d (base + m_offset m) (base + m_offset m + m_size m) src)
                 (range s e) d) (l_attrs l) data) as [d [Ed Pd]].
  - exists (pieces sz (e - s) data). split; [|split; [|split]].
    + symmetry. now apply concat_pieces.
    + now apply uniform_pieces.
    + apply length_pieces.
    + intros k p Hk. pose proof (uniform_nth sz _ _ _ (uniform_pieces sz (e - s) data D) Hk).
      rewrite nth_error_pieces in Hk. destruct (Nat.ltb_spec k (e - s)); [|discriminate].
      injection Hk as <-. split; [|split]; auto. simpl; tauto.
  - intros pre m post d E (ps0 & -> & U0 & N0 & Q0).
    assert (Hm : In m (l_attrs l)) by (rewrite E; apply in_elt).
    destruct (good_member l m G Hm) as (P & _ & B). fold sz in B.
    assert (NP : ~ In m pre).
    { intros Hp. pose proof (good_defs l G) as ND. rewrite E, map_app in ND. simpl in ND.
      apply NoDup_remove_2 in ND. apply ND. apply in_or_app. left. now apply in_map. }
    unfold hb_column. rewrite C by assumption. cbn [unwrap bind]. rewrite (ad_size_member l) by assumption.
    pose proof (uniform_values l m recs G Hm U) as UV.
    edestruct (foldM_range
       (fun i d => exists ps, d = concat ps /\ uniform sz ps /\ length ps = e - s
                    /\ forall k p, nth_error ps k = Some p -> Q (if Nat.ltb k (i - s) then pre ++ [m] else pre) k p))
       as [st' [E1 E2]].
    4: { rewrite E1. eexists. split; [reflexivity|]. destruct E2 as (ps & -> & Up & Np & Qp).
         exists ps. split; [|split; [|split]]; auto. intros k p Hk. specialize (Qp k p Hk).
         apply nth_error_lt in Hk. destruct (Nat.ltb_spec k (e - s)); [auto|lia]. }
    + lia.
    + exists ps0. split; [|split; [|split]]; auto. rewrite Nat.sub_diag. intros k p Hk.
      destruct (Nat.ltb_spec k 0); [lia|]. auto.
    + intros i d Hi (ps & -> & Up & Np & Qp).
      destruct (nth_error_get recs i) as [r Hr]; [lia|].
      assert (Lr : length r = sz) by exact (uniform_nth sz recs i r U Hr).
      rewrite slice_get_ok. 2: nia. 2: { rewrite (length_concat (m_size m)) by assumption. rewrite map_length. nia. }
      cbn [bind]. replace ((i + 1) * m_size m - i * m_size m) with (m_size m) by lia.
      rewrite (sub_concat_one (m_size m) _ i (attr_value m r)); auto. 2: now rewrite nth_error_map, Hr.
      assert (Lv : length (attr_value m r) = m_size m) by (eapply length_attr_value; eauto).
      destruct (nth_error_get ps (i - s)) as [p Hp]; [lia|].
      pose proof (uniform_nth _ _ _ _ Up Hp) as Lp.
      rewrite slice_set_ok.
      2: lia. 2: { rewrite (length_concat sz) by assumption. nia. } 2: lia.
      eexists. split; [reflexivity|].
      rewrite (blit_concat_in sz ps (i - s) p); auto. 2: lia.
      eexists. split; [reflexivity|]. split; [|split].
      * apply uniform_intro. intros k q Hq. unfold set_nth in Hq. rewrite nth_error_mapi in Hq.
        destruct (nth_error ps k) as [q'|] eqn:Hq'; [|discriminate]. simpl in Hq. injection Hq as <-.
        destruct (Nat.eqb k (i - s)); [rewrite length_blit; lia|eapply uniform_nth; eauto].
      * unfold set_nth. now rewrite length_mapi.
      * intros k q Hq. unfold set_nth in Hq. rewrite nth_error_mapi in Hq.
        destruct (nth_error ps k) as [q'|] eqn:Hq'; [|discriminate]. simpl in Hq. injection Hq as <-.
        destruct (Nat.eqb_spec k (i - s)) as [->|Nk].
        -- destruct (Nat.ltb_spec (i - s) (i + 1 - s)); [|lia].
           assert (q' = p) by congruence. subst q'. clear Hq'.
           specialize (Qp _ _ Hp). destruct (Nat.ltb_spec (i - s) (i - s)); [lia|].
           destruct Qp as (_ & V & Un). split; [|split].
           ++ rewrite length_blit; lia.
           ++ rewrite blit_set_range by lia. change (set_range (m_offset m) (attr_value m r) p) with (with_attr m (attr_value m r) p).
              intros m' Hm'. apply in_app_or in Hm'. destruct Hm' as [Hm'|[<-|[]]].
              ** assert (In m' (l_attrs l)) by (rewrite E; apply in_or_app; auto).
                 rewrite (attr_value_with_other l m m'); auto. intros ->. contradiction.
              ** rewrite (attr_value_with_same l); auto. replace (s + (i - s)) with i by lia.
                 now rewrite (nth_nth_error _ _ _ _ Hr).
           ++ intros k Hk. rewrite nth_error_blit by lia. rewrite <- (Un k Hk).
              destruct (Nat.leb_spec (m_offset m) k); auto.
              destruct (Nat.ltb_spec k (m_offset m + length (attr_value m r))); auto.
              exfalso. apply Hk. exists m. split; auto. unfold occupies. lia.
        -- specialize (Qp _ _ Hq'). destruct (Nat.ltb_spec k (i - s)), (Nat.ltb_spec k (i + 1 - s)); auto; lia.
  - change (foldM _ (l_attrs l) data) with (foldM (fun d m => let* c := hb_column b (m_def m) in
           foldM (fun d i =>
                    let* src := slice_get c (i * ad_size (m_def m)) ((i + 1) * ad_size (m_def m)) in
                    let base := (i - s) * sz in
                    slice_set d (base + m_offset m) (base + m_offset m + m_size m) src)
                 (range s e) d) (l_attrs l) data).
    rewrite Ed. f_equal. destruct Pd as (ps & -> & Up & Np & Qp). f_equal.
    apply nth_error_ext. intros k. rewrite nth_error_map, nth_error_seq.
    destruct (Nat.ltb_spec k (e - s)).
    + destruct (nth_error_get ps k) as [p Hp]; [lia|]. rewrite Hp. simpl. f_equal.
      destruct (Qp k p Hp) as (Lp & V & Un).
      destruct (nth_error_get recs (s + k)) as [r Hr]; [lia|].
      rewrite (nth_nth_error _ _ _ _ Hr) in *.
      apply overlay_unique; auto.
      * exact (uniform_nth _ _ _ _ U Hr).
      * apply length_sub. fold sz. nia.
    + apply nth_error_None_ge. lia.
Qed.

Lemma hb_get_point_range_panic l recs b s e data : good_layout l -> hb_rep l recs b -> s < e -> length recs < e ->
  length data = (e - s) * l_size l -> hb_get_point_range b s e data = Panic.
Proof.
  intros G H L1 L2 D. pose proof H as (Hl & Hn & U & K & C). unfold hb_get_point_range, hb_psize. rewrite Hl.
  destruct (good_cons l G) as (m & ms & A). rewrite A. cbn [foldM].
  assert (Hm : In m (l_attrs l)) by (rewrite A; simpl; auto).
  destruct (good_member l m G Hm) as (P & _ & B).
  unfold hb_column. rewrite C by assumption. cbn [unwrap bind]. rewrite (ad_size_member l) by assumption.
  pose proof (uniform_values l m recs G Hm U) as UV.
  rewrite (foldM_range_panic (fun i d => length d = (e - s) * l_size l)) with (i0 := Nat.max s (length recs)); auto.
  - lia.
  - intros i d Hi Ld. rewrite slice_get_ok. 2: nia. 2: { rewrite (length_concat (m_size m)) by assumption. rewrite map_length. nia. }
    cbn [bind].
    assert (LS : length (sub (concat (map (attr_value m) recs)) (i * m_size m) ((i + 1) * m_size m - i * m_size m)) = m_size m).
    { rewrite length_sub. lia. rewrite (length_concat (m_size m)) by assumption. rewrite map_length. nia. }
    rewrite slice_set_ok. 2: lia. 2: nia. 2: lia.
    eexists. split; [reflexivity|]. rewrite length_blit; nia.
  - intros d Ld. rewrite slice_get_panic; auto. right. rewrite (length_concat (m_size m)) by assumption.
    rewrite map_length. nia.
Qed.

Lemma hb_reads l recs b : good_layout l -> hb_rep l recs b -> hb_reads_as b recs.
Proof.
  intros G H. pose proof H as (Hl & Hn & U & K & C). unfold hb_reads_as. rewrite Hl.
  split; [|split; [|split; [|split]]]; auto.
  - intros i data D. destruct (nth_error recs i) as [r|] eqn:E.
    + eapply hb_get_point_ok; eauto.
    + apply nth_error_None in E. eapply hb_get_point_panic; eauto.
  - intros s e data R D. destruct (Nat.leb_spec e (length recs)).
    + eapply hb_get_point_range_ok; eauto. destruct R; lia.
    + eapply hb_get_point_range_panic; eauto. destruct R; lia.
  - intros a i data D. unfold hb_get_attribute. destruct (member_of l a) as [m|] eqn:M.
    + apply member_of_spec in M; auto. destruct M as [Hm <-]. destruct (good_member l m G Hm) as (_ & SZ & _).
      destruct (nth_error recs i) as [r|] eqn:E.
      * erewrite hb_get_attribute_ref_ok; eauto. simpl. apply copy_ok. rewrite D, <- SZ. symmetry.
        eapply length_attr_value; eauto. eapply uniform_nth; eauto.
      * apply nth_error_None in E. erewrite hb_get_attribute_ref_panic; eauto.
    + unfold hb_get_attribute_ref. erewrite hb_column_none; eauto.
  - intros a s e data R D. unfold hb_get_attribute_range. rewrite Hl.
    destruct (member_of l a) as [m|] eqn:M.
    2: { unfold get_attribute_range_default. now rewrite <- member_of_get, M. }
    pose proof M as M'. apply member_of_spec in M'; auto. destruct M' as [Hm Ea].
    destruct (good_member l m G Hm) as (_ & SZ & _). rewrite Ea in SZ.
    assert (OKc : forall i r d, nth_error recs i = Some r -> length d = m_size m ->
                    hb_get_attribute_unchecked b m i d = Ok (attr_value m r)).
    { intros i r d Hr Ld. unfold hb_get_attribute_unchecked. erewrite hb_get_attribute_ref_ok; eauto. simpl.
      apply copy_ok. rewrite Ld. symmetry. eapply length_attr_value; eauto. eapply uniform_nth; eauto. }
    destruct (Nat.leb_spec e (length recs)).
    + eapply get_attr_range_default_ok; eauto; try (destruct R; lia); try congruence.
    + eapply get_attr_range_default_panic; eauto; try (destruct R; lia); try congruence.
      intros i d Hi Ld. unfold hb_get_attribute_unchecked. erewrite hb_get_attribute_ref_panic; eauto.
Qed.

(* ------------------------------------------------------------------ invariants give representations *)

Lemma points_of_v l recs v : good_layout l -> vb_rep l recs v -> points_of (BV v) = recs.
Proof.
  intros G H. pose proof (vb_reads l recs v G H) as R. pose proof H as (Hl & Hs & U & Hn).
  destruct R as (_ & RP & _). unfold points_of. cbn [any_len any_layout any_get_point]. rewrite Hl in *.
  apply nth_error_ext. intros k. rewrite nth_error_map, nth_error_seq, Hn.
  destruct (Nat.ltb_spec k (length recs)).
  - simpl. rewrite RP by (now rewrite repeat_length). destruct (nth_error_get recs k) as [r Hr]; auto. now rewrite Hr.
  - symmetry. now apply nth_error_None_ge.
Qed.

Lemma points_of_h l recs h : good_layout l -> hb_rep l recs h ->
  points_of (BH h) = map (fun r => overlay l r (repeat 0%Z (l_size l))) recs.
Proof.
  intros G H. pose proof H as (Hl & Hn & U & _). unfold points_of. cbn [any_len any_layout any_get_point]. rewrite Hl, Hn.
  apply nth_error_ext. intros k. rewrite !nth_error_map, nth_error_seq.
  destruct (Nat.ltb_spec k (length recs)).
  - simpl. destruct (nth_error_get recs k) as [r Hr]; auto. rewrite Hr.
    rewrite (hb_get_point_ok l recs h k r) by (auto; apply repeat_length). reflexivity.
  - rewrite (nth_error_None_ge recs) by assumption. reflexivity.
Qed.

Lemma hb_inv_rep b : hb_inv b -> hb_rep (hb_layout b) (points_of (BH b)) b.
Proof.
  intros (G & K & L). set (l := hb_layout b) in *.
  assert (COL : forall m, In m (l_attrs l) -> exists c, hm_get (hb_map b) (m_def m) = Some c
                          /\ length c = hb_len b * m_size m).
  { intros m Hm. destruct (hm_get_key (hb_map b) (m_def m)) as [c Hc].
    - rewrite K. now apply in_map.
    - exists c. split; auto. apply hm_get_In in Hc. 2: { rewrite K. now apply good_defs. }
      rewrite (L _ _ Hc). now rewrite <- (ad_size_member l m). }
  assert (REF : forall m i, In m (l_attrs l) -> i < hb_len b -> exists v,
             hb_get_attribute_ref b (m_def m) i = Ok v /\ length v = m_size m).
  { intros m i Hm Hi. destruct (COL m Hm) as (c & Hc & Lc). unfold hb_get_attribute_ref, hb_column. rewrite Hc.
    simpl. rewrite (ad_size_member l) by assumption. rewrite slice_get_ok by nia. eexists. split; [reflexivity|].
    rewrite length_sub; nia. }
  assert (PT : forall i, i < hb_len b -> exists d, nth_error (points_of (BH b)) i = Some d /\ length d = l_size l
            /\ forall m, In m (l_attrs l) -> hb_get_attribute_ref b (m_def m) i = Ok (attr_value m d)).
  { intros i Hi.
    destruct (hb_get_point_gen l b i (fun m => match hb_get_attribute_ref b (m_def m) i with Ok v => v | _ => [] end)
               (repeat 0%Z (l_size l))) as (d & Ed & Ld & V & _); auto.
    - intros m Hm. destruct (REF m i Hm Hi) as (v & Hv & Lv). rewrite Hv. auto.
    - now rewrite repeat_length.
    - exists d. split; [|split]; auto.
      + unfold points_of. cbn [any_len any_layout any_get_point]. rewrite nth_error_map, nth_error_seq.
        destruct (Nat.ltb_spec i (hb_len b)); [|lia]. simpl. fold l. now rewrite Ed.
      + intros m Hm. rewrite (V m Hm). destruct (REF m i Hm Hi) as (v & Hv & Lv). now rewrite Hv. }
  assert (LEN : length (points_of (BH b)) = hb_len b).
  { unfold points_of. now rewrite map_length, seq_length. }
  assert (UN : uniform (l_size l) (points_of (BH b))).
  { apply uniform_intro. intros k r Hk. destruct (PT k) as (d & Hd & Ld & _).
    - apply nth_error_lt in Hk. lia.
    - rewrite Hk in Hd. now injection Hd as ->. }
  split; [|split; [|split; [|split]]]; auto.
  intros m Hm. destruct (COL m Hm) as (c & Hc & Lc). rewrite Hc. f_equal.
  destruct (good_member l m G Hm) as (P & _ & _).
  rewrite <- (concat_pieces (m_size m) (hb_len b) c) by assumption. f_equal.
  apply nth_error_ext. intros k. rewrite nth_error_pieces, nth_error_map.
  destruct (Nat.ltb_spec k (hb_len b)).
  - destruct (PT k) as (d & Hd & Ld & V); auto. rewrite Hd. simpl. f_equal.
    specialize (V m Hm). unfold hb_get_attribute_ref, hb_column in V. rewrite Hc in V. simpl in V.
    rewrite (ad_size_member l) in V by assumption. rewrite slice_get_ok in V by nia. injection V as <-.
    f_equal. lia.
  - rewrite (nth_error_None_ge (points_of (BH b))) by lia. reflexivity.
Qed.

Lemma hb_rep_inv l recs b : good_layout l -> hb_rep l recs b -> hb_inv b.
Proof.
  intros G (Hl & Hn & U & K & C). unfold hb_inv. rewrite Hl, Hn. split; [|split]; auto.
  intros a c Hin. assert (Ha : In a (map m_def (l_attrs l))).
  { rewrite <- K. change a with (fst (a, c)). now apply in_map. }
  apply in_map_iff in Ha. destruct Ha as [m [<- Hm]]. apply hm_get_In in Hin.
  2: { rewrite K. now apply good_defs. }
  rewrite (C m Hm) in Hin. injection Hin as <-.
  rewrite (length_concat (m_size m)) by (eapply uniform_values; eauto). rewrite map_length.
  destruct (good_member l m G Hm) as (_ & -> & _). reflexivity.
Qed.
