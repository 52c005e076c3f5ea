(* Proofs about the access to points and attribute values by reference. *)
From Coq Require Import String List ZArith Lia Bool Arith Permutation.
From Verif Require Import Base LayoutModel LayoutSpec LayoutProofs BufferModel BufferSpec ListLemmas BufferProofs BufferSteps BufferSteps2 BufferSteps3 TraitModel TraitSpec
  TraitProofs2 TraitProofs3 BufferFacts ConvModel ConvSpec ConvProofs ConvProofs5 ViewsModel ViewsSpec ViewsProofs RefModel RefSpec.
Import ListNotations.
Open Scope nat_scope.

Lemma each_mapi_from g l : forall k, each g k l = mapi (fun i x => g (k + i) x) l.
Proof.
  induction l as [|x l IH]; intros k; [reflexivity|]. cbn [each]. rewrite IH. apply nth_error_ext. intros [|i].
  - rewrite nth_error_mapi. cbn. now rewrite Nat.add_0_r.
  - rewrite nth_error_mapi. cbn [nth_error]. rewrite nth_error_mapi. replace (k + 1 + i) with (k + S i) by lia. reflexivity.
Qed.
Lemma each_mapi g l : each g 0 l = mapi g l.
Proof. exact (each_mapi_from g l 0). Qed.

(* ------------------------------------------------------------------ one item is a range of one *)
Lemma slice_index_range s e i : slice_range s e i (i + 1) = (let* g := slice_index s e i in Ok (g, g + 1)).
Proof.
  unfold slice_range, slice_index. destruct (Nat.leb_spec (i + 1) (e - s)), (Nat.ltb_spec i (e - s)); try lia; cbn [assert bind]; [|reflexivity].
  destruct (Nat.leb_spec (i + 1) i); [lia|]. f_equal. f_equal. lia.
Qed.
Lemma slice_mut_index_range s e i : slice_mut_range s e i (i + 1) = (let* g := slice_mut_index s e i in Ok (g, g + 1)).
Proof.
  unfold slice_mut_range, slice_mut_index. destruct (Nat.leb_spec (i + 1) e), (Nat.ltb_spec i e); try lia; cbn [assert bind]; [|reflexivity].
  destruct (Nat.leb_spec (i + 1) i); [lia|]. f_equal. f_equal. lia.
Qed.

Section Place.
Variable pl : place.

Lemma mb_point_is_range b : forall i, mb_point_ref pl b i = mb_points_ref pl b i (i + 1).
Proof.
  induction b as [v|h|e|b IH s e]; intros i; try reflexivity. cbn [mb_point_ref mb_points_ref]. rewrite slice_mut_index_range.
  destruct (slice_mut_index s e i) as [g| |]; cbn [bind fst snd]; auto.
Qed.
Lemma bf_point_is_range b : forall i, bf_point_ref pl b i = bf_points_ref pl b i (i + 1).
Proof.
  induction b as [m|b IH s e]; intros i; [apply mb_point_is_range|]. cbn [bf_point_ref bf_points_ref]. rewrite slice_index_range.
  destruct (slice_index s e i) as [g| |]; cbn [bind fst snd]; auto.
Qed.
Lemma mb_value_is_range b a : forall i, mb_value_ref pl b a i = mb_column_ref pl b a i (i + 1).
Proof.
  induction b as [v|h|e|b IH s e]; intros i; try reflexivity. cbn [mb_value_ref mb_column_ref]. rewrite slice_mut_index_range.
  destruct (slice_mut_index s e i) as [g| |]; cbn [bind fst snd]; auto.
Qed.
Lemma bf_value_is_range b a : forall i, bf_value_ref pl b a i = bf_column_ref pl b a i (i + 1).
Proof.
  induction b as [m|b IH s e]; intros i; [apply mb_value_is_range|]. cbn [bf_value_ref bf_column_ref]. rewrite slice_index_range.
  destruct (slice_index s e i) as [g| |]; cbn [bind fst snd]; auto.
Qed.
Lemma mb_point_mut_is_range b f : forall i, mb_point_mut pl b i f = mb_points_mut pl b i (i + 1) f.
Proof.
  induction b as [v|h|e|b IH s e]; intros i; try reflexivity. cbn [mb_point_mut mb_points_mut]. rewrite slice_mut_index_range.
  destruct (slice_mut_index s e i) as [g| |]; cbn [bind fst snd]; auto. now rewrite IH.
Qed.
Lemma mb_value_mut_is_range b a f : forall i, mb_value_mut pl b a i f = mb_column_mut pl b a i (i + 1) f.
Proof.
  induction b as [v|h|e|b IH s e]; intros i; try reflexivity. cbn [mb_value_mut mb_column_mut]. rewrite slice_mut_index_range.
  destruct (slice_mut_index s e i) as [g| |]; cbn [bind fst snd]; auto. now rewrite IH.
Qed.

(* ------------------------------------------------------------------ the address of a range *)
Definition lift (base sz : nat) (r : res (list Z)) (x : res located) : Prop :=
  match r with Ok d => exists k, x = Ok (base + k * sz, d) | Err => x = Err | Panic => x = Panic end.
Lemma lift_locate base sz st i e : lift base sz (slice_get st (i * sz) e) (locate base st (i * sz) e).
Proof. unfold lift, locate. destruct (slice_get st (i * sz) e); cbn [bind]; eauto. Qed.

Lemma mb_points_located b : forall i j, lift (pl_points pl) (l_size (mb_layout b)) (mb_get_point_range_ref b i j) (mb_points_ref pl b i j).
Proof.
  induction b as [v|h|e|b IH s e]; intros i j; cbn [mb_get_point_range_ref mb_points_ref mb_layout].
  - apply (lift_locate _ (vb_psize v)).
  - reflexivity.
  - apply (lift_locate _ (eb_psize e)).
  - destruct (slice_mut_range s e i j); cbn [bind]; try reflexivity. apply IH.
Qed.
Lemma bf_points_located b : forall i j, lift (pl_points pl) (l_size (bf_layout b)) (bf_get_point_range_ref b i j) (bf_points_ref pl b i j).
Proof.
  induction b as [m|b IH s e]; intros i j; cbn [bf_get_point_range_ref bf_points_ref bf_layout]; [apply mb_points_located|].
  destruct (slice_range s e i j); cbn [bind]; try reflexivity. apply IH.
Qed.
Lemma mb_column_located b a : forall i j, lift (pl_column pl a) (ad_size a) (mb_get_attribute_range_ref b a i j) (mb_column_ref pl b a i j).
Proof.
  induction b as [v|h|e|b IH s e]; intros i j; cbn [mb_get_attribute_range_ref mb_column_ref]; try reflexivity.
  - unfold hb_get_attribute_range_ref. destruct (hb_column h a); cbn [bind]; try reflexivity. apply lift_locate.
  - destruct (slice_mut_range s e i j); cbn [bind]; try reflexivity. apply IH.
Qed.
Lemma bf_column_located b a : forall i j, lift (pl_column pl a) (ad_size a) (bf_get_attribute_range_ref b a i j) (bf_column_ref pl b a i j).
Proof.
  induction b as [m|b IH s e]; intros i j; cbn [bf_get_attribute_range_ref bf_column_ref]; [apply mb_column_located|].
  destruct (slice_range s e i j); cbn [bind]; try reflexivity. apply IH.
Qed.
Lemma mb_points_mut_located b : forall i j, exists k, forall f,
  mb_points_mut pl b i j f = mb_modify_point_range b i j (fun d => f (pl_points pl + k * l_size (mb_layout b), d)).
Proof.
  induction b as [v|h|e|b IH s e]; intros i j; cbn [mb_points_mut mb_modify_point_range mb_layout].
  - exists i. intros f. unfold locate. fold (vb_psize v). destruct (slice_get _ _ _); reflexivity.
  - exists 0. reflexivity.
  - exists i. intros f. unfold locate. fold (eb_psize e). destruct (slice_get _ _ _); reflexivity.
  - destruct (slice_mut_range s e i j) as [g| |]; cbn [bind].
    + destruct (IH (fst g) (snd g)) as (k & K). exists k. intros f. now rewrite K.
    + exists 0. reflexivity.
    + exists 0. reflexivity.
Qed.
Lemma mb_column_mut_located b a : forall i j, exists k, forall f,
  mb_column_mut pl b a i j f = mb_modify_attribute_range b a i j (fun d => f (pl_column pl a + k * ad_size a, d)).
Proof.
  induction b as [v|h|e|b IH s e]; intros i j; cbn [mb_column_mut mb_modify_attribute_range]; try (exists 0; reflexivity).
  - exists i. intros f. destruct (hb_column h a); cbn [bind]; try reflexivity. unfold locate. destruct (slice_get _ _ _); reflexivity.
  - destruct (slice_mut_range s e i j) as [g| |]; cbn [bind].
    + destruct (IH (fst g) (snd g)) as (k & K). exists k. intros f. now rewrite K.
    + exists 0. reflexivity.
    + exists 0. reflexivity.
Qed.

(* ------------------------------------------------------------------ alignment *)
Lemma aligned_iff al sz base k : 0 < al -> Nat.divide al sz -> (Nat.divide al base <-> Nat.eqb ((base + k * sz) mod al) 0 = true).
Proof.
  intros A (q & ->). rewrite Nat.eqb_eq. replace (k * (q * al)) with (k * q * al) by ring. rewrite Nat.mod_add by lia.
  symmetry. rewrite Nat.mod_divide by lia. reflexivity.
Qed.
Lemma from_bytes_at al sz base k d : 0 < al -> Nat.divide al sz -> length d = sz ->
  (Nat.divide al base -> from_bytes sz al (base + k * sz, d) = Ok d) /\ (~ Nat.divide al base -> from_bytes sz al (base + k * sz, d) = Panic).
Proof.
  intros A D L. pose proof (aligned_iff al sz base k A D) as I. unfold from_bytes. cbn [fst snd]. rewrite L, Nat.eqb_refl. cbn [assert bind].
  destruct (Nat.eqb _ 0); cbn [assert bind]; split; intros H; auto; [exfalso; apply H; now apply I | apply I in H; discriminate].
Qed.
Lemma cast_slice_at al sz base k items : 0 < al -> 0 < sz -> Nat.divide al sz -> uniform sz items ->
  (Nat.divide al base -> cast_slice sz al (base + k * sz, concat items) = Ok items)
  /\ (~ Nat.divide al base -> cast_slice sz al (base + k * sz, concat items) = Panic).
Proof.
  intros A Z D U. pose proof (aligned_iff al sz base k A D) as I. unfold cast_slice. cbn [fst snd].
  rewrite (length_concat _ _ U), Nat.mod_mul, as_points_concat by (auto; lia).
  destruct (Nat.eqb _ 0); cbn [assert bind]; split; intros H; auto; [exfalso; apply H; now apply I | apply I in H; discriminate].
Qed.

(* ------------------------------------------------------------------ one point, any index *)
Definition item (base sz : nat) (by_value : res (list Z)) (r : res located) : Prop :=
  match r with Ok m => by_value = Ok (snd m) /\ length (snd m) = sz /\ exists k, fst m = base + k * sz | Err => by_value = Err | Panic => by_value = Panic end.

Lemma locate_item base sz st i : item base sz (let* p := slice_get st (i * sz) ((i + 1) * sz) in copy_from_slice (repeat 0%Z sz) p)
                                              (locate base st (i * sz) ((i + 1) * sz)).
Proof.
  unfold locate. destruct (slice_get st (i * sz) ((i + 1) * sz)) as [d| |] eqn:E; cbn [bind item]; try reflexivity.
  unfold slice_get in E. destruct (Nat.leb_spec (i * sz) ((i + 1) * sz)); [|discriminate]. destruct (Nat.leb_spec ((i + 1) * sz) (length st)); [|discriminate].
  cbn [andb] in E. injection E as <-. cbn [fst snd]. assert (L : length (sub st (i * sz) ((i + 1) * sz - i * sz)) = sz) by (rewrite length_sub; lia).
  split; [|split; [exact L|now exists i]]. unfold copy_from_slice. now rewrite repeat_length, L, Nat.eqb_refl.
Qed.
Lemma mb_point_item b : forall i, mb_is_columnar b = false ->
  item (pl_points pl) (l_size (mb_layout b)) (mb_get_point b i (repeat 0%Z (l_size (mb_layout b)))) (mb_point_ref pl b i).
Proof.
  induction b as [v|h|e|b IH s e]; intros i C; cbn [mb_get_point mb_point_ref mb_layout mb_is_columnar] in *; try discriminate.
  - apply (locate_item _ (vb_psize v)).
  - apply (locate_item _ (eb_psize e)).
  - destruct (slice_mut_index s e i); cbn [bind]; try reflexivity. now apply IH.
Qed.
Lemma bf_point_item b : forall i, bf_is_columnar b = false ->
  item (pl_points pl) (l_size (bf_layout b)) (bf_get_point b i (repeat 0%Z (l_size (bf_layout b)))) (bf_point_ref pl b i).
Proof.
  induction b as [m|b IH s e]; intros i C; cbn [bf_get_point bf_point_ref bf_layout bf_is_columnar] in *; [now apply mb_point_item|].
  destruct (slice_index s e i); cbn [bind]; try reflexivity. now apply IH.
Qed.
Lemma mb_value_item b m : forall i, mb_is_columnar b = true ->
  item (pl_column pl (m_def m)) (ad_size (m_def m)) (mb_get_attribute_unchecked b m i (repeat 0%Z (ad_size (m_def m)))) (mb_value_ref pl b (m_def m) i).
Proof.
  induction b as [v|h|e|b IH s e]; intros i C; cbn [mb_get_attribute_unchecked mb_value_ref mb_is_columnar] in *; try discriminate.
  - unfold hb_get_attribute_unchecked, hb_get_attribute_ref. destruct (hb_column h (m_def m)); cbn [bind]; try reflexivity. apply locate_item.
  - destruct (slice_mut_index s e i); cbn [bind]; try reflexivity. now apply IH.
Qed.
Lemma bf_value_item b m : forall i, bf_is_columnar b = true ->
  item (pl_column pl (m_def m)) (ad_size (m_def m)) (bf_get_attribute_unchecked b m i (repeat 0%Z (ad_size (m_def m)))) (bf_value_ref pl b (m_def m) i).
Proof.
  induction b as [mb|b IH s e]; intros i C; cbn [bf_get_attribute_unchecked bf_value_ref bf_is_columnar] in *; [now apply mb_value_item|].
  destruct (slice_index s e i); cbn [bind]; try reflexivity. now apply IH.
Qed.

Lemma item_cast al base sz v r : 0 < al -> Nat.divide al sz -> item base sz v r ->
  (Nat.divide al base -> (let* m := r in from_bytes sz al m) = v)
  /\ (~ Nat.divide al base -> v <> Err -> (let* m := r in from_bytes sz al m) = Panic).
Proof.
  intros A D I. destruct r as [(a, d)| |]; cbn [bind].
  - destruct I as (-> & L & k & K). cbn [fst snd] in *. subst a. destruct (from_bytes_at al sz base k d A D L) as (P & Q). split; [exact P|]. intros N _. now apply Q.
  - cbn in I. subst v. split; [reflexivity|]. congruence.
  - cbn in I. subst v. split; reflexivity.
Qed.

(* Not aligned: a panic in any case. *)
Lemma get_point_not_err b : forall i d, bf_is_columnar b = false -> bf_get_point b i d <> Err.
Proof.
  assert (S : forall st s e d, (let* p := slice_get st s e in copy_from_slice d p) <> Err).
  { intros st s e d. unfold slice_get, copy_from_slice. destruct (_ && _); cbn [bind]; [|discriminate]. destruct (Nat.eqb _ _); discriminate. }
  assert (M : forall b i d, mb_is_columnar b = false -> mb_get_point b i d <> Err).
  { induction b0 as [v|h|e|b0 IH s e]; intros i d C; cbn [mb_get_point mb_is_columnar] in *; try discriminate; try apply S.
    unfold slice_mut_index. destruct (Nat.ltb i e); cbn [assert bind]; [|discriminate]. now apply IH. }
  induction b as [m|b IH s e]; intros i d C; cbn [bf_get_point bf_is_columnar] in *; [now apply M|].
  unfold slice_index. destruct (Nat.ltb i (e - s)); cbn [assert bind]; [|discriminate]. now apply IH.
Qed.
Lemma get_value_not_err b m : forall i d, bf_is_columnar b = true -> bf_get_attribute_unchecked b m i d <> Err.
Proof.
  assert (M : forall b i d, mb_is_columnar b = true -> mb_get_attribute_unchecked b m i d <> Err).
  { induction b0 as [v|h|e|b0 IH s e]; intros i d C; cbn [mb_get_attribute_unchecked mb_is_columnar] in *; try discriminate.
    - unfold hb_get_attribute_unchecked, hb_get_attribute_ref, hb_column. destruct (hm_get _ _); cbn [unwrap bind]; [|discriminate].
      unfold slice_get, copy_from_slice. destruct (_ && _); cbn [bind]; [|discriminate]. destruct (Nat.eqb _ _); discriminate.
    - unfold slice_mut_index. destruct (Nat.ltb i e); cbn [assert bind]; [|discriminate]. now apply IH. }
  induction b as [mb|b IH s e]; intros i d C; cbn [bf_get_attribute_unchecked bf_is_columnar] in *; [now apply M|].
  unfold slice_index. destruct (Nat.ltb i (e - s)); cbn [assert bind]; [|discriminate]. now apply IH.
Qed.

Lemma at_ref_ok b tl al i : bf_columnar b = false -> 0 < al -> Nat.divide al (l_size tl) ->
  (Nat.divide al (pl_points pl) -> point_view_at_ref pl b tl al i = point_view_at b tl i)
  /\ (~ Nat.divide al (pl_points pl) -> point_view_at_ref pl b tl al i = Panic).
Proof.
  intros C A D. rewrite <- bf_is_columnar_eq in C. unfold point_view_at_ref, point_view_at.
  destruct (layout_eqb tl (bf_layout b)) eqn:E; cbn [assert bind]; [|split; reflexivity]. apply layout_eqb_eq in E. subst tl.
  destruct (item_cast al _ _ _ _ A D (bf_point_item b i C)) as (P & Q). split; [exact P|]. intros N. apply (Q N). now apply get_point_not_err.
Qed.
Lemma view_member l a t m : attribute_view l a t = Ok m -> m_def m = a /\ dt_size t = ad_size (m_def m).
Proof.
  unfold attribute_view. destruct (datatype_eqb t (ad_type a)) eqn:E; cbn [assert bind]; [|discriminate]. apply datatype_eqb_eq in E. subst t.
  destruct (get_attribute l a) as [x|] eqn:G; cbn [unwrap]; [|discriminate]. intros H. injection H as <-. unfold get_attribute in G.
  apply find_some in G. destruct G as (_ & G). apply attr_def_eqb_iff in G. rewrite G. split; reflexivity.
Qed.
Lemma attribute_at_ref_ok b a t al i : bf_columnar b = true -> 0 < al -> Nat.divide al (dt_size t) ->
  (Nat.divide al (pl_column pl a) -> attribute_view_at_ref pl b a t al i = attribute_view_at b a t i)
  /\ (~ Nat.divide al (pl_column pl a) -> attribute_view_at_ref pl b a t al i = Panic).
Proof.
  intros C A D. rewrite <- bf_is_columnar_eq in C. unfold attribute_view_at_ref, attribute_view_at.
  destruct (attribute_view (bf_layout b) a t) as [m| |] eqn:V; cbn [bind].
  - destruct (view_member _ _ _ _ V) as (MA & MS). rewrite MS in *. rewrite <- MA.
    destruct (item_cast al _ _ _ _ A D (bf_value_item b m i C)) as (P & Q). split; [exact P|]. intros N. apply (Q N). now apply get_value_not_err.
  - split; [reflexivity|]. unfold attribute_view in V. destruct (datatype_eqb t (ad_type a)); cbn [assert bind] in V; [|discriminate].
    destruct (get_attribute (bf_layout b) a); discriminate.
  - split; reflexivity.
Qed.

(* ------------------------------------------------------------------ iterators *)
Lemma iter_ok b al : bf_wf b -> bf_columnar b = false -> 0 < al -> Nat.divide al (l_size (bf_layout b)) ->
  (Nat.divide al (pl_points pl) -> point_view_iter pl b (bf_layout b) al = Ok (bf_points b))
  /\ (~ Nat.divide al (pl_points pl) -> point_view_iter pl b (bf_layout b) al = Panic).
Proof.
  intros W C A D. destruct (bf_points_uniform b W) as (U & UL). pose proof (good_size _ (bf_good b W)) as ZL.
  unfold point_view_iter. replace (layout_eqb (bf_layout b) (bf_layout b)) with true by (symmetry; now apply layout_eqb_eq). cbn [assert bind].
  pose proof (bf_points_located b 0 (bf_len b)) as L. rewrite (ConvProofs.bf_points_ref b 0 (bf_len b) W C) in L by lia.
  rewrite sub_all in L by (rewrite UL; lia). destruct L as (k & ->). cbn [bind]. now apply cast_slice_at.
Qed.
Lemma member_view l m : good_layout l -> In m (l_attrs l) -> attribute_view l (m_def m) (m_type m) = Ok m.
Proof.
  intros G Hm. unfold attribute_view. replace (datatype_eqb (m_type m) (ad_type (m_def m))) with true by (symmetry; now apply datatype_eqb_eq). cbn [assert bind].
  change (get_attribute l (m_def m)) with (member_of l (m_def m)). now rewrite (member_of_In _ _ G Hm).
Qed.
Lemma member_type_size l m : good_layout l -> In m (l_attrs l) -> dt_size (m_type m) = m_size m.
Proof. intros G Hm. destruct (good_member _ _ G Hm) as (_ & E & _). now rewrite E. Qed.
Lemma attribute_iter_ok b m al : bf_wf b -> bf_columnar b = true -> In m (l_attrs (bf_layout b)) -> 0 < al -> Nat.divide al (m_size m) ->
  (Nat.divide al (pl_column pl (m_def m)) -> attribute_view_iter pl b (m_def m) (m_type m) al = Ok (map (attr_value m) (bf_points b)))
  /\ (~ Nat.divide al (pl_column pl (m_def m)) -> attribute_view_iter pl b (m_def m) (m_type m) al = Panic).
Proof.
  intros W C Hm A D. destruct (bf_points_uniform b W) as (U & UL). pose proof (bf_good b W) as G. destruct (good_member _ _ G Hm) as (Z0 & ZS & ZE).
  pose proof (uniform_column _ m _ G Hm U) as UC.
  unfold attribute_view_iter. rewrite (member_view _ _ G Hm), (member_type_size _ _ G Hm). cbn [bind].
  pose proof (bf_column_located b (m_def m) 0 (bf_len b)) as L. rewrite (ConvProofs.bf_column_ref b m 0 (bf_len b) W C Hm) in L by lia.
  rewrite (ad_size_member _ _ G Hm), sub_all in L by (rewrite UL; lia). destruct L as (k & ->). cbn [bind]. now apply cast_slice_at.
Qed.

(* ------------------------------------------------------------------ one item in place, any index *)
Lemma slice_set_as st s e d : slice_set st s e d
  = (let* p := slice_get st s e in if Nat.eqb (length p) (length d) then Ok (blit st s d) else Panic).
Proof. unfold slice_set, copy_from_slice. destruct (slice_get st s e) as [p| |]; cbn [bind]; try reflexivity. destruct (Nat.eqb (length p) (length d)); reflexivity. Qed.

Lemma locate_mut base sz st i al g : 0 < al -> Nat.divide al sz -> (forall p, length p = sz -> length (g p) = sz) ->
  (Nat.divide al base ->
    (let* m := locate base st (i * sz) ((i + 1) * sz) in let* d := (let* p := from_bytes sz al m in Ok (g p)) in Ok (blit st (i * sz) d))
    = (let* p := (let* p := slice_get st (i * sz) ((i + 1) * sz) in copy_from_slice (repeat 0%Z sz) p) in slice_set st (i * sz) ((i + 1) * sz) (g p)))
  /\ (~ Nat.divide al base ->
    (let* m := locate base st (i * sz) ((i + 1) * sz) in let* d := (let* p := from_bytes sz al m in Ok (g p)) in Ok (blit st (i * sz) d)) = Panic).
Proof.
  intros A D G. unfold locate. destruct (slice_get st (i * sz) ((i + 1) * sz)) as [d| |] eqn:E; cbn [bind].
  - assert (L : length d = sz).
    { unfold slice_get in E. destruct (Nat.leb_spec (i * sz) ((i + 1) * sz)); [|discriminate]. destruct (Nat.leb_spec ((i + 1) * sz) (length st)); [|discriminate].
      cbn [andb] in E. injection E as <-. rewrite length_sub; lia. }
    destruct (from_bytes_at al sz base i d A D L) as (P & Q). split; intros H.
    + rewrite (P H). cbn [bind]. unfold copy_from_slice at 1. rewrite repeat_length, L, Nat.eqb_refl. cbn [bind]. rewrite slice_set_as, E. cbn [bind].
      now rewrite L, (G d L), Nat.eqb_refl.
    + now rewrite (Q H).
  - exfalso. unfold slice_get in E. destruct (_ && _); discriminate.
  - split; reflexivity.
Qed.

Lemma mb_at_mut b al g : 0 < al -> Nat.divide al (l_size (mb_layout b)) -> (forall p, length p = l_size (mb_layout b) -> length (g p) = l_size (mb_layout b)) ->
  mb_is_columnar b = false -> forall i,
  (Nat.divide al (pl_points pl) -> mb_point_mut pl b i (fun m => let* p := from_bytes (l_size (mb_layout b)) al m in Ok (g p))
     = (let* p := mb_get_point b i (repeat 0%Z (l_size (mb_layout b))) in mb_set_point b i (g p)))
  /\ (~ Nat.divide al (pl_points pl) -> mb_point_mut pl b i (fun m => let* p := from_bytes (l_size (mb_layout b)) al m in Ok (g p)) = Panic).
Proof.
  intros A. induction b as [v|h|e|b IH s e]; intros D G C i; cbn [mb_point_mut mb_get_point mb_set_point mb_layout mb_is_columnar] in *; try discriminate.
  - destruct (locate_mut (pl_points pl) (vb_psize v) (vb_storage v) i al g A D G) as (P & Q).
    change (l_size (vb_layout v)) with (vb_psize v) in *. unfold vb_get_point, vb_get_point_ref, vb_set_point. split; intros H.
    + specialize (P H). destruct (locate _ _ _ _) as [m| |]; cbn [bind] in *.
      * destruct (from_bytes (vb_psize v) al m) as [p| |]; cbn [bind] in *;
          destruct (let* p := slice_get _ _ _ in copy_from_slice _ p) as [q| |]; cbn [bind] in *; try congruence; rewrite <- P; reflexivity.
      * destruct (let* p := slice_get _ _ _ in copy_from_slice _ p) as [q| |]; cbn [bind] in *; try congruence; rewrite <- P; reflexivity.
      * destruct (let* p := slice_get _ _ _ in copy_from_slice _ p) as [q| |]; cbn [bind] in *; try congruence; rewrite <- P; reflexivity.
    + specialize (Q H). destruct (locate _ _ _ _) as [m| |]; cbn [bind] in *; try congruence.
      destruct (from_bytes (vb_psize v) al m) as [p| |]; cbn [bind] in *; congruence.
  - destruct (locate_mut (pl_points pl) (eb_psize e) (eb_mem e) i al g A D G) as (P & Q).
    change (l_size (eb_layout e)) with (eb_psize e) in *. unfold eb_get_point, eb_set_point. split; intros H.
    + specialize (P H). destruct (locate _ _ _ _) as [m| |]; cbn [bind] in *.
      * destruct (from_bytes (eb_psize e) al m) as [p| |]; cbn [bind] in *;
          destruct (let* p := slice_get _ _ _ in copy_from_slice _ p) as [q| |]; cbn [bind] in *; try congruence; rewrite <- P; reflexivity.
      * destruct (let* p := slice_get _ _ _ in copy_from_slice _ p) as [q| |]; cbn [bind] in *; try congruence; rewrite <- P; reflexivity.
      * destruct (let* p := slice_get _ _ _ in copy_from_slice _ p) as [q| |]; cbn [bind] in *; try congruence; rewrite <- P; reflexivity.
    + specialize (Q H). destruct (locate _ _ _ _) as [m| |]; cbn [bind] in *; try congruence.
      destruct (from_bytes (eb_psize e) al m) as [p| |]; cbn [bind] in *; congruence.
  - destruct (slice_mut_index s e i) as [k| |] eqn:E; cbn [bind].
    + destruct (IH D G C k) as (P & Q). split; intros H.
      * rewrite (P H). destruct (mb_get_point b k _) as [p| |]; reflexivity.
      * now rewrite (Q H).
    + exfalso. unfold slice_mut_index in E. destruct (Nat.ltb i e); discriminate.
    + split; reflexivity.
Qed.
Lemma at_mut_ok b tl al i g : mb_columnar b = false -> 0 < al -> Nat.divide al (l_size tl) -> (forall p, length p = l_size tl -> length (g p) = l_size tl) ->
  (Nat.divide al (pl_points pl) ->
     point_view_at_mut pl b tl al i g = (let* p := point_view_at (Of b) tl i in point_view_set_at b tl i (g p)))
  /\ (~ Nat.divide al (pl_points pl) -> point_view_at_mut pl b tl al i g = Panic).
Proof.
  intros C A D G. rewrite <- mb_is_columnar_eq in C. unfold point_view_at_mut, point_view_at, point_view_set_at. cbn [bf_layout bf_get_point].
  destruct (layout_eqb tl (mb_layout b)) eqn:E; cbn [assert bind]; [|split; reflexivity]. apply layout_eqb_eq in E. subst tl. now apply mb_at_mut.
Qed.

Lemma mb_value_at_mut b m al g : 0 < al -> Nat.divide al (ad_size (m_def m)) -> (forall p, length p = ad_size (m_def m) -> length (g p) = ad_size (m_def m)) ->
  mb_is_columnar b = true -> forall i,
  (Nat.divide al (pl_column pl (m_def m)) -> mb_value_mut pl b (m_def m) i (fun r => let* p := from_bytes (ad_size (m_def m)) al r in Ok (g p))
     = (let* p := mb_get_attribute_unchecked b m i (repeat 0%Z (ad_size (m_def m))) in mb_set_attribute b (m_def m) i (g p)))
  /\ (~ Nat.divide al (pl_column pl (m_def m)) ->
      mb_value_mut pl b (m_def m) i (fun r => let* p := from_bytes (ad_size (m_def m)) al r in Ok (g p)) = Panic).
Proof.
  intros A D G. induction b as [v|h|e|b IH s e]; intros C i; cbn [mb_value_mut mb_get_attribute_unchecked mb_set_attribute mb_is_columnar] in *; try discriminate.
  - unfold hb_get_attribute_unchecked, hb_get_attribute_ref, hb_set_attribute. destruct (hb_column h (m_def m)) as [c| |] eqn:HC; cbn [bind].
    + destruct (locate_mut (pl_column pl (m_def m)) (ad_size (m_def m)) c i al g A D G) as (P & Q). split; intros H.
      * specialize (P H). destruct (locate _ _ _ _) as [r| |]; cbn [bind] in *.
        -- destruct (from_bytes (ad_size (m_def m)) al r) as [p| |]; cbn [bind] in *;
             destruct (let* p := slice_get _ _ _ in copy_from_slice _ p) as [q| |]; cbn [bind] in *; try congruence; rewrite <- P; reflexivity.
        -- destruct (let* p := slice_get _ _ _ in copy_from_slice _ p) as [q| |]; cbn [bind] in *; try congruence; rewrite <- P; reflexivity.
        -- destruct (let* p := slice_get _ _ _ in copy_from_slice _ p) as [q| |]; cbn [bind] in *; try congruence; rewrite <- P; reflexivity.
      * specialize (Q H). destruct (locate _ _ _ _) as [r| |]; cbn [bind] in *; try congruence.
        destruct (from_bytes (ad_size (m_def m)) al r) as [p| |]; cbn [bind] in *; congruence.
    + exfalso. unfold hb_column in HC. destruct (hm_get _ _); discriminate.
    + split; reflexivity.
  - destruct (slice_mut_index s e i) as [k| |] eqn:E; cbn [bind].
    + destruct (IH C k) as (P & Q). split; intros H.
      * rewrite (P H). destruct (mb_get_attribute_unchecked b m k _) as [p| |]; reflexivity.
      * now rewrite (Q H).
    + exfalso. unfold slice_mut_index in E. destruct (Nat.ltb i e); discriminate.
    + split; reflexivity.
Qed.
Lemma attribute_at_mut_ok b a t al i g : mb_columnar b = true -> 0 < al -> Nat.divide al (dt_size t) -> (forall p, length p = dt_size t -> length (g p) = dt_size t) ->
  (Nat.divide al (pl_column pl a) ->
     attribute_view_at_mut pl b a t al i g = (let* v := attribute_view_at (Of b) a t i in attribute_view_set_at b a t i (g v)))
  /\ (~ Nat.divide al (pl_column pl a) -> attribute_view_at_mut pl b a t al i g = Panic).
Proof.
  intros C A D G. rewrite <- mb_is_columnar_eq in C. unfold attribute_view_at_mut, attribute_view_at, attribute_view_set_at. cbn [bf_layout bf_get_attribute_unchecked].
  destruct (attribute_view (mb_layout b) a t) as [m| |] eqn:V; cbn [bind].
  - destruct (view_member _ _ _ _ V) as (MA & MS). rewrite MS in *. rewrite <- MA. now apply mb_value_at_mut.
  - split; [reflexivity|]. unfold attribute_view in V. destruct (datatype_eqb t (ad_type a)); cbn [assert bind] in V; [|discriminate].
    destruct (get_attribute (mb_layout b) a); discriminate.
  - split; reflexivity.
Qed.

(* ------------------------------------------------------------------ all items in place *)
Lemma uniform_mapi sz g l : uniform sz l -> (forall k p, length p = sz -> length (g k p) = sz) -> uniform sz (mapi g l).
Proof.
  intros U G. apply uniform_intro. intros k r H. rewrite nth_error_mapi in H. destruct (nth_error l k) as [x|] eqn:E; [|discriminate].
  cbn in H. injection H as <-. apply G. exact (uniform_nth _ _ _ _ U E).
Qed.

Lemma set_all_points b new : mb_wf b -> mb_columnar b = false -> uniform (l_size (mb_layout b)) new -> length new = mb_len b ->
  in_place b (mb_set_point_range b 0 (mb_len b) (concat new)) new.
Proof.
  intros W C U L. pose proof (good_size _ (wf_good b W)) as Z0.
  destruct (bf_points_uniform (Of b) W) as (_ & UL). change (bf_points (Of b)) with (mb_points b) in UL. cbn [bf_len] in UL.
  destruct (mb_write b (OSetPointRange 0 (mb_len b) (concat new)) W) as (b' & pts' & E & W' & S & EL & EN & EO & ES & EP & RW & LL & OUT).
  { simpl. repeat split; try lia. rewrite (length_concat _ _ U). lia. }
  exists b'. split; [exact E|]. repeat split; auto. rewrite EP. cbn [spec_step] in ES.
  destruct (Nat.leb_spec (mb_len b) (length (mb_points b))); [|lia]. injection ES as <-.
  rewrite Nat.sub_0_r. rewrite <- L at 1. rewrite pieces_concat by auto.
  unfold stored. rewrite C. rewrite map_id. rewrite <- blit_set_range by lia. unfold blit. simpl. rewrite L, <- UL, skipn_all, app_nil_r. reflexivity.
Qed.
Lemma all_points_mut b al h : mb_wf b -> mb_columnar b = false -> 0 < al -> Nat.divide al (l_size (mb_layout b)) ->
  (forall l, uniform (l_size (mb_layout b)) l -> uniform (l_size (mb_layout b)) (h l) /\ length (h l) = length l) ->
  (Nat.divide al (pl_points pl) ->
     in_place b (mb_points_mut pl b 0 (mb_len b) (fun m => let* ps := cast_slice (l_size (mb_layout b)) al m in Ok (concat (h ps)))) (h (mb_points b)))
  /\ (~ Nat.divide al (pl_points pl) ->
     mb_points_mut pl b 0 (mb_len b) (fun m => let* ps := cast_slice (l_size (mb_layout b)) al m in Ok (concat (h ps))) = Panic).
Proof.
  intros W C A D H. pose proof (good_size _ (wf_good b W)) as Z0.
  destruct (bf_points_uniform (Of b) W) as (U & UL). change (bf_points (Of b)) with (mb_points b) in *. cbn [bf_len bf_layout] in *.
  destruct (mb_points_mut_located b 0 (mb_len b)) as (k & K). rewrite K. destruct (H _ U) as (HU & HL).
  destruct (cast_slice_at al (l_size (mb_layout b)) (pl_points pl) k (mb_points b) A Z0 D U) as (P & Q). split; intros N.
  - rewrite (modify_points b _ (concat (h (mb_points b))) 0 (mb_len b)); auto; try lia.
    + apply set_all_points; auto. lia.
    + rewrite sub_all by lia. now rewrite (P N).
    + rewrite (length_concat _ _ HU). lia.
  - apply modify_points_panics; auto; try lia. rewrite sub_all by lia. now rewrite (Q N).
Qed.
Lemma iter_mut_ok b al g : mb_wf b -> mb_columnar b = false -> 0 < al -> Nat.divide al (l_size (mb_layout b)) ->
  (forall k p, length p = l_size (mb_layout b) -> length (g k p) = l_size (mb_layout b)) ->
  (Nat.divide al (pl_points pl) -> in_place b (point_view_iter_mut pl b (mb_layout b) al g) (mapi g (mb_points b)))
  /\ (~ Nat.divide al (pl_points pl) -> point_view_iter_mut pl b (mb_layout b) al g = Panic).
Proof.
  intros W C A D G. unfold point_view_iter_mut. replace (layout_eqb (mb_layout b) (mb_layout b)) with true by (symmetry; now apply layout_eqb_eq). cbn [assert bind].
  rewrite <- each_mapi. apply all_points_mut; auto. intros l U. rewrite each_mapi. split; [now apply uniform_mapi|]. apply length_mapi.
Qed.
Lemma sort_by_at_ok b al cmp : mb_wf b -> mb_columnar b = false -> 0 < al -> Nat.divide al (l_size (mb_layout b)) ->
  (Nat.divide al (pl_points pl) -> in_place b (point_view_sort_by_at pl b (mb_layout b) al cmp) (stable_sort cmp (mb_points b)))
  /\ (~ Nat.divide al (pl_points pl) -> point_view_sort_by_at pl b (mb_layout b) al cmp = Panic).
Proof.
  intros W C A D. unfold point_view_sort_by_at. replace (layout_eqb (mb_layout b) (mb_layout b)) with true by (symmetry; now apply layout_eqb_eq). cbn [assert bind].
  apply all_points_mut; auto. intros l U. split; [eapply uniform_perm; [apply sort_perm|exact U]|].
  symmetry. apply Permutation_length, sort_perm.
Qed.

Lemma attribute_iter_mut_ok b m al g : mb_wf b -> mb_columnar b = true -> In m (l_attrs (mb_layout b)) -> 0 < al -> Nat.divide al (m_size m) ->
  (forall k p, length p = m_size m -> length (g k p) = m_size m) ->
  (Nat.divide al (pl_column pl (m_def m)) ->
     in_place b (attribute_view_iter_mut pl b (m_def m) (m_type m) al g) (mapi (fun k p => with_attr m (g k (attr_value m p)) p) (mb_points b)))
  /\ (~ Nat.divide al (pl_column pl (m_def m)) -> attribute_view_iter_mut pl b (m_def m) (m_type m) al g = Panic).
Proof.
  intros W C Hm A D H. pose proof (wf_good b W) as G. destruct (good_member _ _ G Hm) as (Z0 & ZS & ZE).
  destruct (bf_points_uniform (Of b) W) as (U & UL). change (bf_points (Of b)) with (mb_points b) in *. cbn [bf_len bf_layout] in *.
  pose proof (uniform_column _ m _ G Hm U) as UC.
  unfold attribute_view_iter_mut. rewrite (member_view _ _ G Hm), (member_type_size _ _ G Hm). cbn [bind].
  destruct (mb_column_mut_located b (m_def m) 0 (mb_len b)) as (k & K). rewrite K, (ad_size_member _ _ G Hm).
  destruct (cast_slice_at al (m_size m) (pl_column pl (m_def m)) k _ A Z0 D UC) as (P & Q). split; intros N.
  - set (new := mapi g (map (attr_value m) (mb_points b))).
    assert (NU : uniform (m_size m) new) by (apply uniform_mapi; auto).
    assert (NL : length new = mb_len b) by (unfold new; rewrite length_mapi, map_length; exact UL).
    rewrite (modify_column b m _ (concat new) 0 (mb_len b)); auto; try lia.
    + destruct (mb_write b (OSetAttributeRange (m_def m) 0 (mb_len b) (concat new)) W) as (b' & pts' & E & W' & S & EL & EN & EO & ES & EP & RW & LL & OUT).
      { simpl. repeat split; eauto; try lia. rewrite (length_concat _ _ NU), NL. change (dt_size (ad_type (m_def m))) with (dt_size (m_type m)).
        rewrite (member_type_size _ _ G Hm). lia. }
      exists b'. split; [exact E|]. repeat split; auto. rewrite EP. cbn [spec_step] in ES. rewrite (member_of_In _ _ G Hm) in ES.
      destruct (Nat.leb (mb_len b) (length (mb_points b))); [|discriminate]. injection ES as <-.
      rewrite map_mapi. rewrite <- (stored_points b W) at 2. rewrite mapi_map. apply mapi_ext. intros j r Hr.
      assert (Hj : j < mb_len b) by (rewrite <- UL; apply nth_error_Some; congruence).
      destruct (Nat.leb_spec 0 j); [|lia]. destruct (Nat.ltb_spec j (mb_len b)); [|lia]. cbn [andb].
      assert (SN : sub (concat new) (j * m_size m) (m_size m) = g j (attr_value m r)).
      { replace (sub (concat new) (j * m_size m) (m_size m)) with (sub (concat new) (j * m_size m) (1 * m_size m)) by (f_equal; lia).
        rewrite (ListLemmas.sub_concat (m_size m)) by auto. rewrite (sub_one _ j (g j (attr_value m r))); [simpl; apply app_nil_r|].
        unfold new. rewrite nth_error_mapi, nth_error_map, Hr. reflexivity. }
      pose proof (uniform_nth _ _ _ _ U Hr) as Lr. pose proof (uniform_nth _ _ _ _ UC (map_nth_error (attr_value m) j _ Hr)) as Lv.
      replace (j - 0) with j by lia. rewrite SN.
      assert (SR : stored b r = r). { pose proof (stored_points b W) as SP. apply (f_equal (fun l => nth_error l j)) in SP. rewrite nth_error_map, Hr in SP. cbn in SP. congruence. }
      rewrite SR. rewrite stored_with_attr; auto. now rewrite SR.
    + rewrite sub_all by lia. rewrite (P N). cbn [bind]. now rewrite each_mapi.
    + rewrite (length_concat _ _ NU). lia.
  - apply modify_column_panics; auto; try lia. rewrite sub_all by lia. now rewrite (Q N).
Qed.
End Place.

(* ------------------------------------------------------------------ the statements with the vocabulary of RefSpec *)
Lemma at_ref_typed pl b tl al i : bf_columnar b = false -> type_of_size (l_size tl) al ->
  (aligned (pl_points pl) al -> point_view_at_ref pl b tl al i = point_view_at b tl i)
  /\ (~ aligned (pl_points pl) al -> point_view_at_ref pl b tl al i = Panic).
Proof. intros C (A & D). now apply at_ref_ok. Qed.
Lemma attribute_at_ref_typed pl b a t al i : bf_columnar b = true -> type_of_size (dt_size t) al ->
  (aligned (pl_column pl a) al -> attribute_view_at_ref pl b a t al i = attribute_view_at b a t i)
  /\ (~ aligned (pl_column pl a) al -> attribute_view_at_ref pl b a t al i = Panic).
Proof. intros C (A & D). now apply attribute_at_ref_ok. Qed.
Lemma iter_typed pl b al : bf_wf b -> bf_columnar b = false -> type_of_size (l_size (bf_layout b)) al ->
  (aligned (pl_points pl) al -> point_view_iter pl b (bf_layout b) al = Ok (bf_points b))
  /\ (~ aligned (pl_points pl) al -> point_view_iter pl b (bf_layout b) al = Panic).
Proof. intros W C (A & D). now apply iter_ok. Qed.
Lemma attribute_iter_typed pl b m al : bf_wf b -> bf_columnar b = true -> In m (l_attrs (bf_layout b)) -> type_of_size (m_size m) al ->
  (aligned (pl_column pl (m_def m)) al -> attribute_view_iter pl b (m_def m) (m_type m) al = Ok (map (attr_value m) (bf_points b)))
  /\ (~ aligned (pl_column pl (m_def m)) al -> attribute_view_iter pl b (m_def m) (m_type m) al = Panic).
Proof. intros W C Hm (A & D). now apply attribute_iter_ok. Qed.
Lemma at_mut_typed pl b tl al i g : mb_columnar b = false -> type_of_size (l_size tl) al -> keeps (l_size tl) g ->
  (aligned (pl_points pl) al ->
     point_view_at_mut pl b tl al i g = (let* p := point_view_at (Of b) tl i in point_view_set_at b tl i (g p)))
  /\ (~ aligned (pl_points pl) al -> point_view_at_mut pl b tl al i g = Panic).
Proof. intros C (A & D) G. now apply at_mut_ok. Qed.
Lemma attribute_at_mut_typed pl b a t al i g : mb_columnar b = true -> type_of_size (dt_size t) al -> keeps (dt_size t) g ->
  (aligned (pl_column pl a) al ->
     attribute_view_at_mut pl b a t al i g = (let* v := attribute_view_at (Of b) a t i in attribute_view_set_at b a t i (g v)))
  /\ (~ aligned (pl_column pl a) al -> attribute_view_at_mut pl b a t al i g = Panic).
Proof. intros C (A & D) G. now apply attribute_at_mut_ok. Qed.
Lemma iter_mut_typed pl b al g : mb_wf b -> mb_columnar b = false -> type_of_size (l_size (mb_layout b)) al -> keeps_each (l_size (mb_layout b)) g ->
  (aligned (pl_points pl) al -> in_place b (point_view_iter_mut pl b (mb_layout b) al g) (mapi g (mb_points b)))
  /\ (~ aligned (pl_points pl) al -> point_view_iter_mut pl b (mb_layout b) al g = Panic).
Proof. intros W C (A & D) G. now apply iter_mut_ok. Qed.
Lemma attribute_iter_mut_typed pl b m al g :
  mb_wf b -> mb_columnar b = true -> In m (l_attrs (mb_layout b)) -> type_of_size (m_size m) al -> keeps_each (m_size m) g ->
  (aligned (pl_column pl (m_def m)) al ->
     in_place b (attribute_view_iter_mut pl b (m_def m) (m_type m) al g) (mapi (fun k p => with_attr m (g k (attr_value m p)) p) (mb_points b)))
  /\ (~ aligned (pl_column pl (m_def m)) al -> attribute_view_iter_mut pl b (m_def m) (m_type m) al g = Panic).
Proof. intros W C Hm (A & D) G. now apply attribute_iter_mut_ok. Qed.
Lemma sort_by_typed pl b al cmp : mb_wf b -> mb_columnar b = false -> type_of_size (l_size (mb_layout b)) al ->
  (aligned (pl_points pl) al -> in_place b (point_view_sort_by_at pl b (mb_layout b) al cmp) (stable_sort cmp (mb_points b)))
  /\ (~ aligned (pl_points pl) al -> point_view_sort_by_at pl b (mb_layout b) al cmp = Panic).
Proof. intros W C (A & D). now apply sort_by_at_ok. Qed.

Lemma not_aligned_1 al : 1 < al -> ~ aligned 1 al.
Proof. intros A (k & K). destruct k; nia. Qed.
Lemma vb_new_inv l : good_layout l -> vb_inv (vb_new l).
Proof. intros G. split; [exact G|]. reflexivity. Qed.
Lemma empty_panics l al : good_layout l -> type_of_size (l_size l) al -> 1 < al ->
  bf_len (Of (VecB (vb_new l))) = 0 /\ point_view_iter unallocated (Of (VecB (vb_new l))) l al = Panic.
Proof.
  intros G T A. split; [reflexivity|].
  apply (proj2 (iter_typed unallocated (Of (VecB (vb_new l))) al (vb_new_inv l G) eq_refl T)). now apply not_aligned_1.
Qed.
Lemma empty_columnar_panics l m al : good_layout l -> In m (l_attrs l) -> type_of_size (m_size m) al -> 1 < al ->
  bf_len (Of (MapB (hb_new l))) = 0 /\ attribute_view_iter unallocated (Of (MapB (hb_new l))) (m_def m) (m_type m) al = Panic.
Proof.
  intros G Hm T A. split; [reflexivity|].
  refine (proj2 (attribute_iter_typed unallocated (Of (MapB (hb_new l))) m al (hb_rep_inv _ _ _ G (hb_new_rep _ G)) eq_refl Hm T) _). now apply not_aligned_1.
Qed.
