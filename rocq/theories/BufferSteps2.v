(* Writes of VectorBuffer and HashMapBuffer refine the list operations. *)
From Coq Require Import String List ZArith Lia Bool Arith.
From Verif Require Import Base LayoutModel LayoutSpec LayoutProofs BufferModel BufferSpec ListLemmas BufferProofs
  BufferSteps.
Import ListNotations.

(* ------------------------------------------------------------------ lists *)

Lemma uniform_set_nth sz i x recs : uniform sz recs -> length x = sz -> uniform sz (set_nth i x recs).
Proof.
  intros U L. apply uniform_intro. intros k r H. unfold set_nth in H. rewrite nth_error_mapi in H.
  destruct (nth_error recs k) as [y|] eqn:E; [|discriminate]. simpl in H. injection H as <-.
  destruct (k =? i); auto. eapply uniform_nth; eauto.
Qed.

Lemma uniform_mapi sz (f : nat -> list Z -> list Z) recs :
  (forall k r, nth_error recs k = Some r -> length (f k r) = sz) -> uniform sz (mapi f recs).
Proof.
  intros H. apply uniform_intro. intros k r E. rewrite nth_error_mapi in E.
  destruct (nth_error recs k) as [y|] eqn:F; [|discriminate]. simpl in E. injection E as <-. eauto.
Qed.

Lemma uniform_set_range sz s xs recs : uniform sz recs -> uniform sz xs -> uniform sz (set_range s xs recs).
Proof.
  intros U V. apply uniform_mapi. intros k r E.
  destruct (Nat.leb s k && Nat.ltb k (s + length xs)) eqn:B; [|exact (uniform_nth _ _ _ _ U E)].
  apply andb_prop in B. destruct B as [B1 B2]. apply Nat.leb_le in B1. apply Nat.ltb_lt in B2.
  destruct (nth_error_get xs (k - s)) as [x Hx]; [lia|]. rewrite (nth_nth_error _ _ _ _ Hx).
  exact (uniform_nth _ _ _ _ V Hx).
Qed.

Lemma uniform_exchange sz i j recs : uniform sz recs -> uniform sz (exchange i j recs).
Proof.
  intros U. apply uniform_mapi. intros k r E.
  assert (N : forall j, length (nth j recs r) = sz).
  { intros x. destruct (nth_error recs x) as [y|] eqn:F.
    - rewrite (nth_nth_error _ _ _ _ F). eapply uniform_nth; eauto.
    - apply nth_error_None in F. rewrite nth_overflow by assumption. eapply uniform_nth; eauto. }
  destruct (k =? i); auto. destruct (k =? j); auto. eapply uniform_nth; eauto.
Qed.

Lemma map_mapi {A B C} (g : B -> C) (f : nat -> A -> B) l : map g (mapi f l) = mapi (fun k a => g (f k a)) l.
Proof.
  apply nth_error_ext. intros k. rewrite nth_error_map, !nth_error_mapi. now destruct (nth_error l k).
Qed.

Lemma mapi_ext {A B} (f g : nat -> A -> B) l : (forall k a, nth_error l k = Some a -> f k a = g k a) -> mapi f l = mapi g l.
Proof.
  intros H. apply nth_error_ext. intros k. rewrite !nth_error_mapi. destruct (nth_error l k) eqn:E; auto. simpl.
  f_equal. auto.
Qed.

Lemma mapi_map {A B C} (g : A -> B) (f : nat -> B -> C) l : mapi f (map g l) = mapi (fun k a => f k (g a)) l.
Proof.
  apply nth_error_ext. intros k. rewrite !nth_error_mapi, nth_error_map. now destruct (nth_error l k).
Qed.

Lemma mapi_id {A} (f : nat -> A -> A) l : (forall k a, nth_error l k = Some a -> f k a = a) -> mapi f l = l.
Proof.
  intros H. apply nth_error_ext. intros k. rewrite nth_error_mapi. destruct (nth_error l k) eqn:E; auto. simpl.
  f_equal. auto.
Qed.

Lemma map_set_nth {A B} (g : A -> B) i x l : map g (set_nth i x l) = set_nth i (g x) (map g l).
Proof. unfold set_nth. rewrite map_mapi, mapi_map. apply mapi_ext. intros. now destruct (k =? i). Qed.

Lemma map_set_range {A B} (g : A -> B) s xs l : map g (set_range s xs l) = set_range s (map g xs) (map g l).
Proof.
  unfold set_range. rewrite map_mapi, mapi_map. apply mapi_ext. intros k a E. rewrite map_length.
  destruct (Nat.leb s k && Nat.ltb k (s + length xs)); auto. now rewrite map_nth.
Qed.

Lemma map_exchange {A B} (g : A -> B) i j l : map g (exchange i j l) = exchange i j (map g l).
Proof.
  unfold exchange. rewrite map_mapi, mapi_map. apply mapi_ext. intros k a E.
  destruct (k =? i); [now rewrite map_nth|]. destruct (k =? j); [now rewrite map_nth|reflexivity].
Qed.

Lemma length_set_nth {A} i (x : A) l : length (set_nth i x l) = length l.
Proof. apply length_mapi. Qed.
Lemma length_set_range {A} s (xs : list A) l : length (set_range s xs l) = length l.
Proof. apply length_mapi. Qed.
Lemma length_exchange {A} i j (l : list A) : length (exchange i j l) = length l.
Proof. apply length_mapi. Qed.

Lemma exchange_same {A} i (l : list A) : exchange i i l = l.
Proof.
  apply mapi_id. intros k a E. destruct (Nat.eqb_spec k i); auto. subst. now apply nth_nth_error.
Qed.

Lemma exchange_set_nth {A} i j (l : list A) x y : nth_error l i = Some x -> nth_error l j = Some y ->
  exchange i j l = set_nth j x (set_nth i y l).
Proof.
  intros Hi Hj. apply nth_error_ext. intros k. unfold exchange, set_nth. rewrite !nth_error_mapi.
  destruct (nth_error l k) as [a|] eqn:E; auto. simpl. f_equal.
  rewrite (nth_nth_error _ _ _ _ Hi), (nth_nth_error _ _ _ _ Hj).
  destruct (Nat.eqb_spec k i), (Nat.eqb_spec k j); auto. subst. subst. congruence.
Qed.

Lemma swap_bytes_ok sz recs i j x y : uniform sz recs -> i <> j ->
  nth_error recs i = Some x -> nth_error recs j = Some y ->
  swap_bytes (concat recs) (i * sz) (j * sz) sz = Ok (concat (exchange i j recs)).
Proof.
  intros U N Hi Hj. pose proof (nth_error_lt _ _ _ Hi). pose proof (nth_error_lt _ _ _ Hj).
  unfold swap_bytes. rewrite (length_concat sz) by assumption.
  assert (E1 : Nat.leb (i * sz + sz) (length recs * sz) = true) by (apply Nat.leb_le; nia).
  assert (E2 : Nat.leb (j * sz + sz) (length recs * sz) = true) by (apply Nat.leb_le; nia).
  assert (E3 : Nat.leb (i * sz + sz) (j * sz) || Nat.leb (j * sz + sz) (i * sz) = true).
  { apply orb_true_iff. rewrite !Nat.leb_le. destruct (Nat.lt_gt_cases i j) as [D _]. destruct (D N); [left|right]; nia. }
  rewrite E1, E2, E3. simpl. f_equal.
  rewrite (sub_concat_one sz recs i x), (sub_concat_one sz recs j y) by assumption.
  pose proof (uniform_nth _ _ _ _ U Hi). pose proof (uniform_nth _ _ _ _ U Hj).
  rewrite blit_concat_one by auto.
  rewrite blit_concat_one; auto using uniform_set_nth. 2: now rewrite length_set_nth.
  now rewrite (exchange_set_nth i j recs x y).
Qed.

Lemma vec_resize_concat sz recs n : uniform sz recs ->
  vec_resize (concat recs) (n * sz) = concat (firstn n recs ++ repeat (repeat 0%Z sz) (n - length recs)).
Proof.
  intros U. unfold vec_resize. rewrite firstn_concat by assumption. rewrite concat_app. f_equal.
  rewrite (length_concat sz) by assumption. rewrite <- Nat.mul_sub_distr_r. generalize (n - length recs) as k.
  induction k as [|k IH]; simpl; auto. rewrite repeat_app. now rewrite IH.
Qed.

Lemma uniform_repeat sz k : uniform sz (repeat (repeat 0%Z sz) k).
Proof. apply Forall_forall. intros r H. apply repeat_spec in H. subst. apply repeat_length. Qed.

Lemma blit_set_range_concat sz recs s n data : uniform sz recs -> length data = n * sz -> s + n <= length recs ->
  blit (concat recs) (s * sz) data = concat (set_range s (pieces sz n data) recs).
Proof.
  intros U L B. rewrite <- (concat_pieces sz n data L) at 1.
  rewrite blit_concat by (auto using uniform_pieces). rewrite blit_set_range; auto. now rewrite length_pieces.
Qed.

(* ------------------------------------------------------------------ loops writing one piece per point *)

(* for i in s..e { st[i*sz + off ..][..len] = v i } *)
Lemma write_loop sz recs off (v : nat -> list Z) n s e (f : list Z -> nat -> res (list Z)) :
  uniform sz recs -> (forall i, s <= i < e -> length (v i) = n) -> off + n <= sz -> s <= e -> e <= length recs ->
  (forall st i, s <= i < e -> length st = length recs * sz -> f st i = Ok (blit st (i * sz + off) (v i))) ->
  foldM f (range s e) (concat recs)
  = Ok (concat (mapi (fun k r => if Nat.leb s k && Nat.ltb k e then blit r off (v k) else r) recs)).
Proof.
  intros U LV B L1 L2 HF.
  edestruct (foldM_range (fun i st => st = concat (mapi (fun k r => if Nat.leb s k && Nat.ltb k i then blit r off (v k) else r) recs)))
    as [st' [E1 E2]]; [exact L1| | |rewrite E1, E2; reflexivity].
  - rewrite mapi_id; auto. intros k a _. leb_cases; auto; lia.
  - intros i st Hi ->.
    assert (UM : uniform sz (mapi (fun k r => if Nat.leb s k && Nat.ltb k i then blit r off (v k) else r) recs)).
    { apply uniform_mapi. intros k r Hr. pose proof (uniform_nth _ _ _ _ U Hr). leb_cases; simpl; auto.
      rewrite length_blit; auto. rewrite LV by lia. lia. }
    rewrite HF. 2: lia. 2: { rewrite (length_concat sz) by assumption. now rewrite length_mapi. }
    eexists. split; [reflexivity|].
    destruct (nth_error_get recs i) as [r Hr]; [lia|].
    rewrite (blit_concat_in sz _ i r).
    + f_equal. apply nth_error_ext. intros k. unfold set_nth. rewrite !nth_error_mapi.
      destruct (nth_error recs k) as [x|] eqn:Ek; auto. simpl. f_equal.
      destruct (Nat.eqb_spec k i).
      * subst. leb_cases; simpl; try lia. congruence.
      * leb_cases; simpl; auto; lia.
    + assumption.
    + rewrite nth_error_mapi, Hr. simpl. leb_cases; simpl; auto; lia.
    + rewrite LV by lia. assumption.
Qed.

(* ------------------------------------------------------------------ VectorBuffer writes *)

Lemma vb_write_rep l recs recs' b : vb_rep l recs b -> uniform (l_size l) recs' -> length recs' = length recs ->
  vb_rep l recs' (vb_with_storage b (concat recs')).
Proof.
  intros (Hl & Hs & U & Hn) U' L. unfold vb_rep, vb_with_storage. simpl. rewrite L. auto.
Qed.

Definition outcome {B} (rep : list rec -> B -> Prop) (r : res B) (o : option (list rec)) : Prop :=
  match o with Some recs' => exists b', r = Ok b' /\ rep recs' b' | None => r = Panic end.

Section V.
Variables (l : layout) (G : good_layout l) (recs : list rec) (b : vbuf) (H : vb_rep l recs b).

Lemma vb_facts : vb_layout b = l /\ vb_storage b = concat recs /\ uniform (l_size l) recs /\ vb_len b = length recs
  /\ length (concat recs) = length recs * l_size l /\ 0 < l_size l.
Proof.
  pose proof H as (Hl & Hs & U & Hn). repeat split; auto. now apply length_concat. now apply good_size.
Qed.

Lemma vb_push_ok bytes : outcome (vb_rep l) (vb_push_points b bytes) (spec_step l recs (OPush bytes)).
Proof.
  destruct vb_facts as (Hl & Hs & U & Hn & LC & PS). unfold outcome, vb_push_points, vb_psize. cbn [spec_step]. rewrite Hl.
  destruct (Nat.eqb_spec (l_size l) 0); [lia|].
  destruct (Nat.eqb_spec (length bytes mod l_size l) 0) as [E|E]; simpl; auto.
  assert (LB : length bytes = length bytes / l_size l * l_size l).
  { pose proof (Nat.div_mod (length bytes) (l_size l) n). lia. }
  eexists. split; [reflexivity|]. unfold vb_rep. simpl. split; [|split; [|split]]; auto.
  - rewrite Hs, concat_app. f_equal. symmetry. now apply concat_pieces.
  - apply uniform_app; auto. now apply uniform_pieces.
  - rewrite app_length, length_pieces. lia.
Qed.

Lemma vb_resize_rep n : vb_rep l (firstn n recs ++ repeat (repeat 0%Z (l_size l)) (n - length recs)) (vb_resize b n).
Proof.
  destruct vb_facts as (Hl & Hs & U & Hn & LC & PS). unfold vb_rep, vb_resize, vb_psize. simpl.
  split; [|split; [|split]]; auto.
  - rewrite Hl, Hs. now apply vec_resize_concat.
  - apply uniform_app; [now apply uniform_firstn|apply uniform_repeat].
  - rewrite app_length, firstn_length, repeat_length. lia.
Qed.

Lemma vb_clear_rep : vb_rep l [] (vb_clear b).
Proof. destruct vb_facts as (Hl & _). unfold vb_rep. simpl. repeat split; auto. constructor. Qed.

Lemma vb_set_point_ok i data : length data = l_size l ->
  outcome (vb_rep l) (vb_set_point b i data) (spec_step l recs (OSetPoint i data)).
Proof.
  intros D. destruct vb_facts as (Hl & Hs & U & Hn & LC & PS). unfold outcome, vb_set_point, vb_psize. cbn [spec_step].
  rewrite Hl, Hs. destruct (Nat.ltb_spec i (length recs)).
  - rewrite slice_set_ok by nia. simpl. eexists. split; [reflexivity|].
    rewrite blit_concat_one by auto. apply vb_write_rep with (recs := recs); auto.
    now apply uniform_set_nth. apply length_set_nth.
  - rewrite slice_set_panic; auto. right. nia.
Qed.

Lemma vb_set_point_range_ok s e data : range_ok (length recs) s e -> length data = (e - s) * l_size l ->
  outcome (vb_rep l) (vb_set_point_range b s e data) (spec_step l recs (OSetPointRange s e data)).
Proof.
  intros R D. destruct vb_facts as (Hl & Hs & U & Hn & LC & PS). unfold outcome, vb_set_point_range, vb_psize.
  cbn [spec_step]. rewrite Hl, Hs. destruct (Nat.leb_spec e (length recs)).
  - assert (s <= e) by (destruct R; lia). rewrite slice_set_ok by nia. simpl. eexists. split; [reflexivity|].
    rewrite (blit_set_range_concat (l_size l) recs s (e - s)) by (auto; lia).
    apply vb_write_rep with (recs := recs); auto.
    apply uniform_set_range; auto using uniform_pieces. apply length_set_range.
  - rewrite slice_set_panic; auto. right. nia.
Qed.

Lemma vb_set_attribute_ok a i data : length data = dt_size (ad_type a) ->
  outcome (vb_rep l) (vb_set_attribute b a i data) (spec_step l recs (OSetAttribute a i data)).
Proof.
  intros D. destruct vb_facts as (Hl & Hs & U & Hn & LC & PS). unfold outcome, vb_set_attribute, vb_attr_start, vb_psize.
  cbn [spec_step]. rewrite Hl, Hs. change (get_attribute l a) with (member_of l a). destruct (member_of l a) as [m|] eqn:M; auto. simpl.
  apply member_of_spec in M; auto. destruct M as [Hm <-]. destruct (good_member l m G Hm) as (P & SZ & B).
  destruct (Nat.ltb_spec i (length recs)).
  - rewrite slice_set_ok by nia. simpl. eexists. split; [reflexivity|].
    destruct (nth_error_get recs i) as [r Hr]; auto.
    rewrite (blit_concat_in (l_size l) recs i r) by (auto; lia).
    assert (Lr : length r = l_size l) by (eapply uniform_nth; eauto).
    replace (mapi _ recs) with (set_nth i (blit r (m_offset m) data) recs).
    + apply vb_write_rep with (recs := recs); auto. apply uniform_set_nth; auto. rewrite length_blit; lia.
      apply length_set_nth.
    + apply mapi_ext. intros k x Hx. destruct (Nat.eqb_spec k i); auto. subst. replace x with r by congruence.
      unfold with_attr. apply blit_set_range. lia.
  - rewrite slice_set_panic; auto. right. nia.
Qed.

Lemma vb_set_attribute_range_ok a s e data : range_ok (length recs) s e -> length data = (e - s) * dt_size (ad_type a) ->
  outcome (vb_rep l) (vb_set_attribute_range b a s e data) (spec_step l recs (OSetAttributeRange a s e data)).
Proof.
  intros R D. destruct vb_facts as (Hl & Hs & U & Hn & LC & PS). unfold outcome, vb_set_attribute_range, vb_attr_start, vb_psize.
  cbn [spec_step]. rewrite Hl, Hs. change (get_attribute l a) with (member_of l a). destruct (member_of l a) as [m|] eqn:M; auto. cbn [unwrap bind].
  apply member_of_spec in M; auto. destruct M as [Hm <-]. destruct (good_member l m G Hm) as (P & SZ & B).
  rewrite <- SZ in D.
  assert (LV : forall i, s <= i < e -> length (sub data ((i - s) * m_size m) (m_size m)) = m_size m).
  { intros. apply length_sub. nia. }
  destruct (Nat.leb_spec e (length recs)).
  - rewrite (write_loop (l_size l) recs (m_offset m) (fun i => sub data ((i - s) * m_size m) (m_size m)) (m_size m));
      auto; try (destruct R; lia).
    + cbn [bind]. eexists. split; [reflexivity|].
      replace (mapi (fun k r => if (s <=? k) && (k <? e) then blit r (m_offset m) (sub data ((k - s) * m_size m) (m_size m)) else r) recs)
        with (mapi (fun k r => if (s <=? k) && (k <? e) then with_attr m (sub data ((k - s) * m_size m) (m_size m)) r else r) recs).
      * apply vb_write_rep with (recs := recs); auto.
        -- apply uniform_mapi. intros k r Hr. pose proof (uniform_nth _ _ _ _ U Hr).
           destruct ((s <=? k) && (k <? e)); auto. now rewrite length_with_attr.
        -- apply length_mapi.
      * apply mapi_ext. intros k r Hr. pose proof (uniform_nth _ _ _ _ U Hr).
        leb_cases; simpl; auto. unfold with_attr. symmetry. apply blit_set_range. rewrite LV by lia. lia.
    + intros st i Hi Ls. rewrite slice_get_ok by nia. cbn [bind].
      replace ((i - s + 1) * m_size m - (i - s) * m_size m) with (m_size m) by lia.
      pose proof (LV i Hi). apply slice_set_ok; try nia.
  - rewrite (foldM_range_panic (fun i st => length st = length recs * l_size l)) with (i0 := Nat.max s (length recs)); auto.
    + destruct R; lia.
    + intros i st Hi Ls. rewrite slice_get_ok by nia. cbn [bind].
      replace ((i - s + 1) * m_size m - (i - s) * m_size m) with (m_size m) by lia.
      assert (LI : length (sub data ((i - s) * m_size m) (m_size m)) = m_size m) by (apply LV; lia).
      rewrite slice_set_ok by nia. eexists. split; [reflexivity|]. rewrite length_blit; nia.
    + intros st Ls. rewrite slice_get_ok by (destruct R; nia). cbn [bind]. apply slice_set_panic. right. nia.
Qed.

Lemma vb_swap_ok i j : outcome (vb_rep l) (vb_swap b i j) (spec_step l recs (OSwap i j)).
Proof.
  destruct vb_facts as (Hl & Hs & U & Hn & LC & PS). unfold outcome, vb_swap, vb_psize. cbn [spec_step].
  rewrite Hl, Hs, Hn. destruct (Nat.ltb_spec i (length recs)); simpl; auto.
  destruct (Nat.ltb_spec j (length recs)); simpl; auto.
  destruct (Nat.eqb_spec i j).
  - subst. eexists. split; [reflexivity|]. now rewrite exchange_same.
  - destruct (nth_error_get recs i) as [x Hx]; auto. destruct (nth_error_get recs j) as [y Hy]; auto.
    rewrite (swap_bytes_ok (l_size l) recs i j x y) by assumption. simpl.
    eexists. split; [reflexivity|]. apply vb_write_rep with (recs := recs); auto.
    now apply uniform_exchange. apply length_exchange.
Qed.
End V.
