(* Frame of writes, swap, transform_attribute, iterators and sorting. *)
From Coq Require Import String List ZArith Lia Bool Arith Permutation Sorted.
From Verif Require Import Base LayoutModel LayoutSpec LayoutProofs BufferModel BufferSpec ListLemmas BufferProofs
  BufferSteps BufferSteps2 BufferSteps3 BufferSteps4 TraitModel TraitSpec TraitProofs TraitProofs2.
Import ListNotations.

(* ------------------------------------------------------------------ frame *)

Lemma read_attr b pts m j r d : bf_reads_within (Of b) pts -> In m (l_attrs (mb_layout b)) -> nth_error pts j = Some r ->
  length d = m_size m -> mb_get_attribute b (m_def m) j d = Ok (attr_value m r).
Proof. intros (_ & _ & _ & RA & _) Hm Hr Hd. now apply (RA m j r d Hm Hr Hd). Qed.

(* the attributes after a write, given the points after it *)
Lemma write_attrs b o (new : nat -> member -> option (list Z)) : mb_wf b -> write_ok (mb_layout b) (mb_len b) o ->
  (forall pts', spec_step (mb_layout b) (mb_points b) o = Some pts' ->
     forall m j r, In m (l_attrs (mb_layout b)) -> nth_error (mb_points b) j = Some r -> length r = l_size (mb_layout b) ->
       exists r', nth_error pts' j = Some r' /\ attr_value m r' = match new j m with Some v => v | None => attr_value m r end) ->
  exists b', mb_step b o = Ok b' /\ mb_wf b' /\ mb_layout b' = mb_layout b /\ mb_len b' = mb_len b
    /\ forall m j d, In m (l_attrs (mb_layout b)) -> j < mb_len b -> length d = m_size m ->
         mb_get_attribute b' (m_def m) j d = match new j m with Some v => Ok v | None => mb_get_attribute b (m_def m) j d end.
Proof.
  intros W WO H. destruct (mb_write b o W WO) as (b' & pts' & E & W' & S & EL & EN & EO & ES & EP & RW & _).
  exists b'. repeat split; auto. intros m j d Hm Hj Hd.
  pose proof (mb_wf_reads b W) as R0. destruct (bf_points_uniform (Of b) W) as (U & UL).
  change (bf_points (Of b)) with (mb_points b) in U, UL. change (bf_layout (Of b)) with (mb_layout b) in U. simpl in UL.
  destruct (nth_error_get (mb_points b) j) as [r Hr]; [lia|].
  destruct (H pts' ES m j r Hm Hr (uniform_nth _ _ _ _ U Hr)) as (r' & Hr' & EV).
  rewrite (read_attr b' pts' m j r' d RW) by (auto; now rewrite EL). rewrite EV.
  rewrite (read_attr b _ m j r d R0) by auto. now destruct (new j m).
Qed.

Lemma frame_set_attribute b m i v : mb_wf b -> In m (l_attrs (mb_layout b)) -> i < mb_len b -> length v = m_size m ->
  exists b', mb_set_attribute b (m_def m) i v = Ok b' /\ mb_wf b' /\ mb_layout b' = mb_layout b /\ mb_len b' = mb_len b
    /\ forall m' j d, In m' (l_attrs (mb_layout b)) -> j < mb_len b -> length d = m_size m' ->
         mb_get_attribute b' (m_def m') j d =
         if Nat.eqb j i && attr_def_eqb (m_def m') (m_def m) then Ok v else mb_get_attribute b (m_def m') j d.
Proof.
  intros W Hm Hi Hv. pose proof (wf_good b W) as G. destruct (good_member _ _ G Hm) as (Z0 & ZS & ZE).
  destruct (write_attrs b (OSetAttribute (m_def m) i v)
             (fun j m' => if Nat.eqb j i && attr_def_eqb (m_def m') (m_def m) then Some v else None)) as (b' & E & W' & L & N & F); auto.
  - simpl. repeat split; eauto. congruence.
  - simpl. rewrite (member_of_In _ _ G Hm). intros pts'. destruct (Nat.ltb i (length (mb_points b))); [|discriminate].
    intros [= <-] m' j r Hm' Hr Lr. rewrite nth_error_mapi, Hr. simpl. eexists; split; [reflexivity|].
    destruct (Nat.eqb j i); simpl; auto. destruct (attr_def_eqb (m_def m') (m_def m)) eqn:EQ.
    + apply attr_def_eqb_eq in EQ. assert (m' = m) by (eapply good_def_inj; eauto). subst m'.
      now apply (attr_value_with_same (mb_layout b)).
    + apply (attr_value_with_other (mb_layout b)); auto. intros <-. rewrite attr_def_eqb_refl in EQ. discriminate.
  - exists b'. repeat split; auto. intros m' j d H1 H2 H3. rewrite F by auto.
    now destruct (Nat.eqb j i && attr_def_eqb (m_def m') (m_def m)).
Qed.

Lemma frame_set_attribute_range b m s e v : mb_wf b -> In m (l_attrs (mb_layout b)) -> s <= e -> e <= mb_len b ->
  length v = (e - s) * m_size m ->
  exists b', mb_set_attribute_range b (m_def m) s e v = Ok b' /\ mb_wf b' /\ mb_layout b' = mb_layout b /\ mb_len b' = mb_len b
    /\ forall m' j d, In m' (l_attrs (mb_layout b)) -> j < mb_len b -> length d = m_size m' ->
         mb_get_attribute b' (m_def m') j d =
         if (Nat.leb s j && Nat.ltb j e) && attr_def_eqb (m_def m') (m_def m) then Ok (sub v ((j - s) * m_size m) (m_size m))
         else mb_get_attribute b (m_def m') j d.
Proof.
  intros W Hm Hi He Hv. pose proof (wf_good b W) as G. destruct (good_member _ _ G Hm) as (Z0 & ZS & ZE).
  destruct (write_attrs b (OSetAttributeRange (m_def m) s e v)
             (fun j m' => if (Nat.leb s j && Nat.ltb j e) && attr_def_eqb (m_def m') (m_def m)
                          then Some (sub v ((j - s) * m_size m) (m_size m)) else None)) as (b' & E & W' & L & N & F); auto.
  - simpl. split; [eauto|]. repeat split; eauto. now rewrite <- ZS.
  - simpl. rewrite (member_of_In _ _ G Hm). intros pts'. destruct (Nat.leb e (length (mb_points b))); [|discriminate].
    intros [= <-] m' j r Hm' Hr Lr. rewrite nth_error_mapi, Hr. simpl. eexists; split; [reflexivity|].
    destruct (Nat.leb_spec s j), (Nat.ltb_spec j e); simpl; auto. destruct (attr_def_eqb (m_def m') (m_def m)) eqn:EQ.
    + apply attr_def_eqb_eq in EQ. assert (m' = m) by (eapply good_def_inj; eauto). subst m'.
      apply (attr_value_with_same (mb_layout b)); auto. rewrite length_sub; auto. nia.
    + apply (attr_value_with_other (mb_layout b)); auto; try (rewrite length_sub; nia).
      intros <-; rewrite attr_def_eqb_refl in EQ; discriminate.
  - exists b'. repeat split; auto. intros m' j d H1 H2 H3. rewrite F by auto.
    now destruct ((Nat.leb s j && Nat.ltb j e) && attr_def_eqb (m_def m') (m_def m)).
Qed.

Lemma frame_set_point b i p : mb_wf b -> i < mb_len b -> length p = l_size (mb_layout b) ->
  exists b', mb_set_point b i p = Ok b' /\ mb_wf b' /\ mb_layout b' = mb_layout b /\ mb_len b' = mb_len b
    /\ forall m j d, In m (l_attrs (mb_layout b)) -> j < mb_len b -> length d = m_size m ->
         mb_get_attribute b' (m_def m) j d =
         if Nat.eqb j i then Ok (attr_value m p) else mb_get_attribute b (m_def m) j d.
Proof.
  intros W Hi Hp. pose proof (wf_good b W) as G.
  destruct (write_attrs b (OSetPoint i p)
             (fun j m => if Nat.eqb j i then Some (attr_value m p) else None)) as (b' & E & W' & L & N & F); auto.
  - simpl. auto.
  - simpl. intros pts'. destruct (Nat.ltb i (length (mb_points b))); [|discriminate].
    intros [= <-] m j r Hm Hr Lr. unfold set_nth. rewrite nth_error_mapi, Hr. simpl. eexists; split; [reflexivity|].
    now destruct (Nat.eqb j i).
  - exists b'. repeat split; auto. intros m j d H1 H2 H3. rewrite F by auto. now destruct (Nat.eqb j i).
Qed.

Lemma frame_set_point_range b s e p : mb_wf b -> s <= e -> e <= mb_len b -> length p = (e - s) * l_size (mb_layout b) ->
  exists b', mb_set_point_range b s e p = Ok b' /\ mb_wf b' /\ mb_layout b' = mb_layout b /\ mb_len b' = mb_len b
    /\ forall m j d, In m (l_attrs (mb_layout b)) -> j < mb_len b -> length d = m_size m ->
         mb_get_attribute b' (m_def m) j d =
         if Nat.leb s j && Nat.ltb j e
         then Ok (attr_value m (sub p ((j - s) * l_size (mb_layout b)) (l_size (mb_layout b))))
         else mb_get_attribute b (m_def m) j d.
Proof.
  intros W Hs He Hp. pose proof (wf_good b W) as G.
  destruct (write_attrs b (OSetPointRange s e p)
             (fun j m => if Nat.leb s j && Nat.ltb j e
                         then Some (attr_value m (sub p ((j - s) * l_size (mb_layout b)) (l_size (mb_layout b)))) else None))
    as (b' & E & W' & L & N & F); auto.
  - simpl. auto.
  - simpl. intros pts'. destruct (Nat.leb e (length (mb_points b))); [|discriminate].
    intros [= <-] m j r Hm Hr Lr. unfold set_range. rewrite nth_error_mapi, Hr. simpl. eexists; split; [reflexivity|].
    rewrite length_pieces. replace (s + (e - s)) with e by lia.
    destruct (Nat.leb_spec s j), (Nat.ltb_spec j e); simpl; auto. erewrite nth_nth_error; [reflexivity|].
    rewrite nth_error_pieces. destruct (Nat.ltb_spec (j - s) (e - s)); [reflexivity|lia].
  - exists b'. repeat split; auto. intros m j d H1 H2 H3. rewrite F by auto. now destruct (Nat.leb s j && Nat.ltb j e).
Qed.

(* ------------------------------------------------------------------ swap *)

Lemma exchange_twice {A} i j (l : list A) : exchange i j (exchange i j l) = l.
Proof.
  destruct (Nat.ltb_spec i (length l)) as [Li|Li]; [destruct (Nat.ltb_spec j (length l)) as [Lj|Lj]|].
  - apply nth_error_ext. intros k. unfold exchange at 1. rewrite nth_error_mapi. 
    assert (X : forall q y, q < length l -> nth q (exchange i j l) y = nth (if Nat.eqb q i then j else if Nat.eqb q j then i else q) l y).
    { intros q y Hq. destruct (nth_error_get l q Hq) as [x Hx]. apply nth_nth_error. unfold exchange. rewrite nth_error_mapi, Hx. simpl.
      destruct (Nat.eqb_spec q i); [|destruct (Nat.eqb_spec q j)]; f_equal.
      - now apply nth_indep. - now apply nth_indep. - symmetry. now apply nth_nth_error. }
    destruct (nth_error l k) as [x|] eqn:Hk.
    + assert (Lk : k < length l) by now apply nth_error_lt in Hk.
      assert (E : nth_error (exchange i j l) k = Some (nth k (exchange i j l) x)).
      { apply nth_error_nth'. now rewrite length_exchange. }
      rewrite E. simpl. rewrite !X by auto.
      f_equal. destruct (Nat.eqb_spec k i); [subst|destruct (Nat.eqb_spec k j); [subst|]].
      * destruct (Nat.eqb_spec j i); [subst|rewrite Nat.eqb_refl]. rewrite (nth_indep _ _ x) by auto. now apply nth_nth_error.
        rewrite (nth_indep _ _ x) by auto. now apply nth_nth_error.
      * rewrite Nat.eqb_refl. rewrite (nth_indep _ _ x) by auto. now apply nth_nth_error.
      * now apply nth_nth_error.
    + rewrite nth_error_None_ge; auto. rewrite length_exchange. now apply nth_error_None.
  - f_equal. assert (N : forall (d : list A), length d = length l -> exchange i j d = mapi (fun k y => if Nat.eqb k i then y else y) d).
    { intros d Ld. unfold exchange. apply mapi_ext. intros k y Hk. pose proof (nth_error_lt _ _ _ Hk).
      destruct (Nat.eqb_spec k i). rewrite (nth_overflow d); auto; lia. destruct (Nat.eqb_spec k j); auto; lia. }
    rewrite (N (exchange i j l)) by apply length_exchange. rewrite mapi_id by (intros k a _; now destruct (Nat.eqb k i)).
    rewrite N by auto. apply mapi_id. intros k a _; now destruct (Nat.eqb k i).
  - assert (N : forall (d : list A), length d = length l -> exchange i j d = d).
    { intros d Ld. unfold exchange. apply mapi_id. intros k y Hk. pose proof (nth_error_lt _ _ _ Hk).
      destruct (Nat.eqb_spec k i); [lia|]. destruct (Nat.eqb_spec k j); auto. rewrite (nth_overflow d); auto; lia. }
    rewrite !N; auto. rewrite N; auto.
Qed.

Lemma swap_points b i j : mb_wf b -> i < mb_len b -> j < mb_len b ->
  exists b', mb_swap b i j = Ok b' /\ mb_wf b' /\ mb_layout b' = mb_layout b /\ mb_len b' = mb_len b
    /\ mb_points b' = exchange i j (mb_points b).
Proof.
  intros W Hi Hj. destruct (mb_write b (OSwap i j) W) as (b' & pts' & E & W' & S & EL & EN & EO & ES & EP & _).
  { simpl; auto. }
  exists b'. repeat split; auto. rewrite EP. cbn [spec_step] in ES.
  destruct (Nat.ltb i (length (mb_points b)) && Nat.ltb j (length (mb_points b))); [|discriminate].
  injection ES as <-. rewrite map_exchange. now rewrite stored_points.
Qed.

(* ------------------------------------------------------------------ transform_attribute *)

Lemma overlay_with_attr l m v r : good_layout l -> In m (l_attrs l) -> length r = l_size l -> length v = m_size m ->
  overlay l (with_attr m v r) (repeat 0%Z (l_size l)) = with_attr m v (overlay l r (repeat 0%Z (l_size l))).
Proof.
  intros G Hm Lr Lv. destruct (good_member _ _ G Hm) as (_ & _ & ZE).
  apply nth_error_ext. intros k. unfold with_attr, set_range. unfold overlay. rewrite !nth_error_mapi.
  destruct (Nat.ltb_spec k (l_size l)) as [Hk|Hk].
  2: { rewrite (nth_error_None_ge (repeat _ _)); auto. rewrite repeat_length; lia. }
  rewrite (nth_error_repeat _ Hk). cbn [option_map]. f_equal.
  destruct (existsb _ (l_attrs l)) eqn:EX.
  - destruct (nth_error_get r k) as [x Hx]; [lia|].
    erewrite (nth_nth_error (mapi _ r)). 2: rewrite nth_error_mapi, Hx; reflexivity.
    rewrite (nth_nth_error r k 0%Z x Hx). reflexivity.
  - destruct (Nat.leb_spec (m_offset m) k), (Nat.ltb_spec k (m_offset m + length v)); simpl; auto. exfalso.
    rewrite Lv in *. assert (Y : existsb (fun m => Nat.leb (m_offset m) k && Nat.ltb k (m_offset m + m_size m)) (l_attrs l) = true).
    { apply existsb_exists. exists m. split; auto. destruct (Nat.leb_spec (m_offset m) k), (Nat.ltb_spec k (m_offset m + m_size m)); auto; lia. }
    rewrite Y in EX. discriminate.
Qed.

Lemma stored_with_attr b m v r : mb_wf b -> In m (l_attrs (mb_layout b)) -> length r = l_size (mb_layout b) -> length v = m_size m ->
  stored b (with_attr m v r) = with_attr m v (stored b r).
Proof.
  intros W Hm Lr Lv. unfold stored. destruct (mb_columnar b); auto. apply overlay_with_attr; auto. now apply wf_good.
Qed.

Lemma set_attribute_points b m i v : mb_wf b -> In m (l_attrs (mb_layout b)) -> i < mb_len b -> length v = m_size m ->
  exists b', mb_set_attribute b (m_def m) i v = Ok b' /\ mb_wf b' /\ same_shape b b' /\ mb_layout b' = mb_layout b /\ mb_len b' = mb_len b
    /\ mb_points b' = mapi (fun k r => if Nat.eqb k i then with_attr m v r else r) (mb_points b)
    /\ mb_off b' = mb_off b /\ mb_len (mb_root b') = mb_len (mb_root b)
    /\ (forall q, q < mb_off b \/ mb_off b + mb_len b <= q ->
          nth_error (mb_points (mb_root b')) q = nth_error (mb_points (mb_root b)) q).
Proof.
  intros W Hm Hi Hv. pose proof (wf_good b W) as G. destruct (good_member _ _ G Hm) as (Z0 & ZS & ZE).
  destruct (mb_write b (OSetAttribute (m_def m) i v) W) as (b' & pts' & E & W' & S & EL & EN & EO & ES & EP & RW & LL & OUT).
  { simpl. repeat split; eauto. congruence. }
  exists b'. split; [exact E|]. repeat split; auto. rewrite EP. cbn [spec_step] in ES. rewrite (member_of_In _ _ G Hm) in ES.
  destruct (Nat.ltb i (length (mb_points b))); [|discriminate]. injection ES as <-. rewrite map_mapi.
  rewrite <- (stored_points b W) at 2. rewrite mapi_map. apply mapi_ext. intros k r Hr.
  destruct (Nat.eqb k i); auto. apply stored_with_attr; auto.
  destruct (bf_points_uniform (Of b) W) as (U & UL). exact (uniform_nth _ _ _ _ U Hr).
Qed.

Definition transformed (m : member) (f : nat -> list Z -> list Z) (n : nat) (pts : list (list Z)) : list (list Z) :=
  mapi (fun k r => if Nat.ltb k n then with_attr m (f k (attr_value m r)) r else r) pts.

Lemma transform_points b m f : mb_wf b -> In m (l_attrs (mb_layout b)) ->
  (forall i v, length v = m_size m -> length (f i v) = m_size m) ->
  exists b', transform_attribute b (m_def m) (m_type m) f = Ok b' /\ mb_wf b' /\ mb_layout b' = mb_layout b /\ mb_len b' = mb_len b
    /\ mb_points b' = mapi (fun k r => with_attr m (f k (attr_value m r)) r) (mb_points b)
    /\ mb_len (mb_root b') = mb_len (mb_root b)
    /\ (forall q, q < mb_off b \/ mb_off b + mb_len b <= q ->
          nth_error (mb_points (mb_root b')) q = nth_error (mb_points (mb_root b)) q).
Proof.
  intros W Hm Hf. pose proof (wf_good b W) as G. destruct (good_member _ _ G Hm) as (Z0 & ZS & ZE).
  destruct (bf_points_uniform (Of b) W) as (U & UL). change (bf_points (Of b)) with (mb_points b) in *.
  change (bf_layout (Of b)) with (mb_layout b) in U. simpl in UL.
  unfold transform_attribute, attribute_view.
  assert (DE : datatype_eqb (m_type m) (ad_type (m_def m)) = true) by now apply datatype_eqb_eq.
  rewrite DE. cbn [assert bind]. change (get_attribute (mb_layout b) (m_def m)) with (member_of (mb_layout b) (m_def m)).
  rewrite (member_of_In _ _ G Hm). cbn [unwrap bind].
  destruct (@foldM_range mbuf (fun n b' => mb_wf b' /\ mb_layout b' = mb_layout b /\ mb_len b' = mb_len b
      /\ mb_points b' = transformed m f n (mb_points b) /\ mb_off b' = mb_off b
      /\ mb_len (mb_root b') = mb_len (mb_root b)
      /\ (forall q, q < mb_off b \/ mb_off b + mb_len b <= q ->
          nth_error (mb_points (mb_root b')) q = nth_error (mb_points (mb_root b)) q))
    (fun b i => let* v := attribute_view_mut_at b m (m_type m) i in mb_set_attribute b (m_def m) i (f i v)) 0 (mb_len b) b)
    as (b' & E & W' & L' & N' & P' & O' & R' & OUT).
  - lia.
  - repeat split; auto. unfold transformed. symmetry. apply mapi_id. intros k a Hk. now destruct (Nat.ltb_spec k 0); [lia|].
  - intros i b1 Hi1 (W1 & L1 & N1 & P1 & O1 & R1 & OUT1).
    destruct (nth_error_get (mb_points b) i) as [r Hr]; [lia|].
    assert (Hr1 : nth_error (mb_points b1) i = Some r).
    { rewrite P1. unfold transformed. rewrite nth_error_mapi, Hr. simpl. now destruct (Nat.ltb_spec i i); [lia|]. }
    pose proof (mb_wf_reads b1 W1) as (_ & _ & _ & RA & _).
    assert (Hm1 : In m (l_attrs (mb_layout b1))) by now rewrite L1.
    destruct (RA m i r (repeat 0%Z (dt_size (m_type m))) Hm1 Hr1) as (_ & RU).
    { rewrite repeat_length. symmetry. exact ZS. }
    unfold attribute_view_mut_at. change (mb_get_attribute_unchecked b1 m i (repeat 0%Z (dt_size (m_type m)))) with
      (bf_get_attribute_unchecked (Of b1) m i (repeat 0%Z (dt_size (m_type m)))). rewrite RU. cbn [bind].
    assert (LV : length (f i (attr_value m r)) = m_size m).
    { apply Hf. apply (length_attr_value (mb_layout b)); auto. exact (uniform_nth _ _ _ _ U Hr). }
    destruct (set_attribute_points b1 m i (f i (attr_value m r)) W1 Hm1) as (b2 & E2 & W2 & S2 & L2 & N2 & P2 & O2 & R2 & OUT2); auto; try lia.
    exists b2. split; [exact E2|]. repeat split; auto; try congruence.
    + rewrite P2, P1. apply nth_error_ext. intros k. unfold transformed. rewrite !nth_error_mapi.
      destruct (nth_error (mb_points b) k) as [x|] eqn:Hk; auto. simpl. f_equal.
      destruct (Nat.eqb_spec k i).
      * subst. rewrite Hr in Hk. injection Hk as ->. destruct (Nat.ltb_spec i i); [lia|]. destruct (Nat.ltb_spec i (i + 1)); [auto|lia].
      * destruct (Nat.ltb_spec k i), (Nat.ltb_spec k (i + 1)); auto; lia.
    + intros q Q. rewrite OUT2 by lia. apply OUT1; lia.
  - exists b'. split; [exact E|]. repeat split; auto. rewrite P'. unfold transformed. apply mapi_ext. intros k r Hk.
    apply nth_error_lt in Hk. now destruct (Nat.ltb_spec k (mb_len b)); [|lia].
Qed.

(* ------------------------------------------------------------------ iterators *)

Lemma collect_all {T} len (item : nat -> res T) (x : nat -> T) : (forall i, i < len -> item i = Ok (x i)) ->
  forall fuel cur, cur <= len -> len - cur < fuel -> iter_collect fuel len item cur = Ok (map x (seq cur (len - cur))).
Proof.
  intros H. induction fuel; intros cur L F; [lia|]. simpl. unfold iter_next. destruct (Nat.eqb_spec cur len).
  - subst. cbn [bind]. now rewrite Nat.sub_diag.
  - rewrite H by lia. cbn [bind]. rewrite IHfuel by lia. cbn [bind]. replace (len - cur) with (S (len - (cur + 1))) by lia.
    simpl. now replace (S cur) with (cur + 1) by lia.
Qed.

Lemma nth_within {T} len (item : nat -> res T) (x : nat -> T) cur n : (forall i, i < len -> item i = Ok (x i)) ->
  cur + n <= len ->
  iter_nth len item cur n = Ok (if Nat.ltb (cur + n) len then (Some (x (cur + n)), cur + n + 1) else (None, cur + n)).
Proof.
  intros H L. unfold iter_nth, iter_next. destruct (Nat.eqb_spec (cur + n) len), (Nat.ltb_spec (cur + n) len); try lia; auto.
  now rewrite H.
Qed.

(* ------------------------------------------------------------------ sorting *)

Section Sort.
Context {T : Type} (cmp : T -> T -> comparison) (TP : total_preorder cmp).

Lemma insert_perm x l : Permutation (x :: l) (insert_by cmp x l).
Proof.
  induction l; simpl; auto. destruct (cmp x a); auto. etransitivity; [apply perm_swap|]. now constructor.
Qed.
Lemma sort_perm l : Permutation l (stable_sort cmp l).
Proof. induction l; simpl; auto. rewrite IHl at 1. apply insert_perm. Qed.

Lemma insert_sorted x l : StronglySorted (le_of cmp) l -> StronglySorted (le_of cmp) (insert_by cmp x l).
Proof.
  destruct TP as (TOT & TR & OPP). induction 1 as [|a l SS IH FA]; simpl.
  - repeat constructor.
  - destruct (cmp x a) eqn:E.
    + constructor. now constructor. constructor. unfold le_of; congruence. eapply Forall_impl; [|exact FA].
      intros y Hy. apply (TR x a y); auto. unfold le_of; congruence.
    + constructor. now constructor. constructor. unfold le_of; congruence. eapply Forall_impl; [|exact FA].
      intros y Hy. apply (TR x a y); auto. unfold le_of; congruence.
    + constructor; auto. rewrite <- (insert_perm x l). constructor; auto. unfold le_of. rewrite OPP, E. discriminate.
Qed.
Lemma sort_sorted l : StronglySorted (le_of cmp) (stable_sort cmp l).
Proof. induction l; simpl. constructor. now apply insert_sorted. Qed.

Lemma insert_filter x l z : filter (fun y => match cmp z y with Eq => true | _ => false end) (insert_by cmp x l)
  = filter (fun y => match cmp z y with Eq => true | _ => false end) (x :: l).
Proof.
  destruct TP as (TOT & TR & OPP). induction l as [|a l IH]; auto. simpl. destruct (cmp x a) eqn:E; auto.
  simpl. rewrite IH. simpl. destruct (cmp z x) eqn:E1; destruct (cmp z a) eqn:E2; auto. exfalso.
  (* x > a but both equal to z *)
  assert (le_of cmp x a). { apply (TR x z a). unfold le_of. rewrite OPP, E1. discriminate. unfold le_of. congruence. }
  contradiction.
Qed.
Lemma sort_stable l : stable_rearrangement cmp l (stable_sort cmp l).
Proof.
  intros z. induction l; auto. simpl stable_sort. rewrite insert_filter. simpl. now rewrite IHl.
Qed.

Lemma cmp_refl x : cmp x x = Eq.
Proof. destruct TP as (_ & _ & OPP). specialize (OPP x x). destruct (cmp x x); auto; discriminate. Qed.

Lemma sort_unique l1 : forall l2, StronglySorted (le_of cmp) l1 -> StronglySorted (le_of cmp) l2 -> Permutation l1 l2 ->
  stable_rearrangement cmp l1 l2 -> l1 = l2.
Proof.
  destruct TP as (TOT & TR & OPP). induction l1 as [|x l1 IH]; intros l2 S1 S2 P ST.
  - now apply Permutation_nil in P.
  - destruct l2 as [|y l2]. { symmetry in P. now apply Permutation_nil in P. }
    assert (x = y).
    { assert (XY : le_of cmp x y).
      { apply StronglySorted_inv in S1. destruct S1 as (_ & F). assert (I : In y (x :: l1)) by (rewrite P; now left).
        destruct I as [->|I]. unfold le_of. rewrite cmp_refl. discriminate. rewrite Forall_forall in F. auto. }
      assert (YX : le_of cmp y x).
      { apply StronglySorted_inv in S2. destruct S2 as (_ & F). assert (I : In x (y :: l2)) by (rewrite <- P; now left).
        destruct I as [->|I]. unfold le_of. rewrite cmp_refl. discriminate. rewrite Forall_forall in F. auto. }
      assert (C : cmp x y = Eq). { unfold le_of in *. rewrite OPP in YX. destruct (cmp x y); simpl in *; congruence. }
      specialize (ST x). simpl in ST. rewrite C, cmp_refl in ST. now injection ST. }
    subst y. f_equal. apply IH.
    + now apply StronglySorted_inv in S1.
    + now apply StronglySorted_inv in S2.
    + now apply Permutation_cons_inv in P.
    + intros z. specialize (ST z). simpl in ST. destruct (cmp z x); auto. now injection ST.
Qed.
End Sort.

Lemma uniform_perm sz a b : Permutation a b -> uniform sz a -> uniform sz b.
Proof. unfold uniform. intros P. now rewrite P. Qed.

Lemma as_points_concat sz recs : 0 < sz -> uniform sz recs -> as_points sz (concat recs) = recs.
Proof.
  intros Z U. unfold as_points. rewrite (length_concat _ _ U), Nat.div_mul by lia. now apply pieces_concat.
Qed.

(* get_point_range_mut + in-place update = set_point_range of the updated bytes *)
Lemma update_is_set l b f : good_layout l -> forall recs i j, root_rep l recs (mb_root b) -> window_ok b -> mb_columnar b = false ->
  i <= j -> j <= mb_len b ->
  (forall bytes, length bytes = (j - i) * l_size l -> length (f bytes) = length bytes) ->
  mb_update_point_range b i j f = mb_set_point_range b i j (f (concat (sub recs (mb_off b + i) (j - i)))).
Proof.
  intros G. induction b as [v|h|e|b IH s e]; intros recs i j R W NC L1 L2 Hf.
  - simpl in *. pose proof (vb_rep_storage _ _ _ R) as LS. destruct R as (HL & HS & U & HN).
    unfold vb_set_point_range. unfold slice_set. unfold vb_psize in *. rewrite HL in *.
    assert (i * l_size l <= j * l_size l) by nia. assert (j * l_size l <= length (vb_storage v)) by (rewrite LS; nia).
    rewrite !slice_get_ok by auto. cbn [bind].
    replace (j * l_size l - i * l_size l) with ((j - i) * l_size l) by nia.
    assert (X : sub (vb_storage v) (i * l_size l) ((j - i) * l_size l) = concat (sub recs i (j - i))).
    { rewrite HS. now apply sub_concat. }
    rewrite X. rewrite copy_ok; auto. symmetry. apply Hf. rewrite <- X. apply length_sub. nia.
  - discriminate.
  - simpl in *. pose proof (vb_rep_storage _ _ _ R) as LS. destruct R as (HL & HS & U & HN). simpl in *.
    unfold eb_set_point_range. unfold slice_set. unfold eb_psize in *. rewrite HL in *.
    assert (i * l_size l <= j * l_size l) by nia. assert (j * l_size l <= length (eb_mem e)) by (rewrite LS; nia).
    rewrite !slice_get_ok by auto. cbn [bind].
    replace (j * l_size l - i * l_size l) with ((j - i) * l_size l) by nia.
    assert (X : sub (eb_mem e) (i * l_size l) ((j - i) * l_size l) = concat (sub recs i (j - i))).
    { rewrite HS. now apply sub_concat. }
    rewrite X. rewrite copy_ok; auto. symmetry. apply Hf. rewrite <- X. apply length_sub. nia.
  - destruct W as (W & W1 & W2). cbn [mb_len] in L2. cbn [mb_root] in R. cbn [mb_update_point_range mb_set_point_range mb_off].
    unfold slice_mut_range. destruct (Nat.leb_spec j e); [|lia]. cbn [assert bind].
    destruct (Nat.leb_spec j i); cbn [bind fst snd].
    + replace j with i in * by lia. rewrite (IH recs e e) by (auto; try lia; rewrite Nat.sub_diag in *; auto). now rewrite !Nat.sub_diag.
    + rewrite (IH recs (i + s) (j + s)) by (auto; try lia; replace (j + s - (i + s)) with (j - i) by lia; auto). replace (j + s - (i + s)) with (j - i) by lia.
      now replace (mb_off b + (i + s)) with (mb_off b + s + i) by lia.
Qed.

Lemma length_sorted_bytes sz cmp bytes : 0 < sz -> length bytes mod sz = 0 ->
  length (concat (stable_sort cmp (as_points sz bytes))) = length bytes.
Proof.
  intros Z M. assert (E : length bytes = length bytes / sz * sz). { pose proof (Nat.div_mod (length bytes) sz). lia. }
  assert (U : uniform sz (as_points sz bytes)). { apply uniform_pieces. exact E. }
  rewrite (length_concat sz). 2: eapply uniform_perm; [apply sort_perm|exact U].
  rewrite <- (Permutation_length (sort_perm cmp (as_points sz bytes))). unfold as_points. now rewrite map_length, seq_length.
Qed.
