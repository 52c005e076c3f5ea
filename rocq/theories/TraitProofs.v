(* Lemmas about buffers behind the traits. *)
From Coq Require Import String List ZArith Lia Bool Arith Permutation Sorted.
From Verif Require Import Base LayoutModel LayoutSpec LayoutProofs BufferModel BufferSpec ListLemmas BufferProofs
  BufferSteps BufferSteps2 BufferSteps3 BufferSteps4 TraitModel TraitSpec.
Import ListNotations.

(* ------------------------------------------------------------------ representation *)

Definition root_rep (l : layout) (recs : list rec) (b : mbuf) : Prop :=
  match b with
  | VecB v => vb_rep l recs v
  | MapB h => hb_rep l recs h
  | ExtB e => vb_rep l recs (as_vector e)
  | SliceMutB _ _ _ => False
  end.
Fixpoint window_ok (b : mbuf) : Prop :=
  match b with SliceMutB b s e => window_ok b /\ s <= e /\ e <= mb_len b | _ => True end.

Lemma mb_layout_root b : mb_layout b = mb_layout (mb_root b).
Proof. induction b; auto. Qed.

Lemma root_rep_uniform l recs b : root_rep l recs b -> uniform (l_size l) recs /\ mb_len b = length recs /\ mb_layout b = l.
Proof.
  destruct b; simpl.
  - intros (Hl & _ & U & Hn). auto.
  - intros (Hl & Hn & U & _). auto.
  - intros (Hl & _ & U & Hn). auto.
  - tauto.
Qed.

Lemma window_len b : window_ok b -> mb_off b + mb_len b <= mb_len (mb_root b).
Proof.
  induction b; simpl; auto. intros (W & L1 & L2). specialize (IHb W). lia.
Qed.

(* the points visible through b, when its root holds recs *)
Definition window (b : mbuf) (recs : list rec) : list rec := sub recs (mb_off b) (mb_len b).

Lemma hb_unchecked b m i data : hb_get_attribute_unchecked b m i data = hb_get_attribute b (m_def m) i data.
Proof. reflexivity. Qed.

Lemma root_reads l recs b : good_layout l -> root_rep l recs b -> bf_reads_as (Of b) recs
  /\ (forall m i data, In m (l_attrs l) -> length data = m_size m ->
       mb_get_attribute_unchecked b m i data = mb_get_attribute b (m_def m) i data).
Proof.
  intros G R. destruct b as [v|h|e|b s e]; simpl in R; [| | |contradiction].
  - split.
    + pose proof (vb_reads l recs v G R) as V. exact V.
    + intros m i data Hm Ld. simpl. unfold vb_get_attribute. destruct R as (Hl & _). rewrite Hl.
      pose proof (member_of_In l m G Hm) as E. rewrite member_of_get in E. rewrite E. reflexivity.
  - split.
    + pose proof (hb_reads l recs h G R) as V. exact V.
    + intros m i data Hm Ld. reflexivity.
  - split.
    + pose proof (vb_reads l recs (as_vector e) G R) as V. exact V.
    + intros m i data Hm Ld. simpl. unfold eb_get_attribute. destruct R as (Hl & _). cbn [as_vector vb_layout] in Hl. rewrite Hl.
      pose proof (member_of_In l m G Hm) as E. rewrite member_of_get in E. rewrite E. reflexivity.
Qed.

Lemma reads_as_within l recs b : good_layout l -> bf_layout b = l -> bf_reads_as b recs ->
  (forall m i data, In m (l_attrs l) -> length data = m_size m ->
       bf_get_attribute_unchecked b m i data = bf_get_attribute b (m_def m) i data) ->
  bf_reads_within b recs.
Proof.
  intros G Hl (RL & RP & RPR & RA & RAR) UC. unfold bf_reads_within. rewrite Hl in *.
  split; [|split; [|split; [|split]]]; auto.
  - intros i r data Ld E. rewrite RP by assumption. now rewrite E.
  - intros i j data L1 L2 Ld. rewrite RPR; auto.
    + destruct (Nat.leb_spec j (length recs)); [reflexivity|lia].
    + unfold range_ok. lia.
  - intros m i r data Hm E Ld. rewrite UC by assumption.
    destruct (good_member l m G Hm) as (P & S & _).
    rewrite RA by (congruence). rewrite (member_of_In l m G Hm), E. auto.
  - intros m i j data Hm L1 L2 Ld. destruct (good_member l m G Hm) as (P & S & _).
    rewrite RAR. rewrite (member_of_In l m G Hm). destruct (Nat.leb_spec j (length recs)); [reflexivity|lia].
    unfold range_ok; lia. congruence.
Qed.

Lemma nth_error_window {A} (l : list A) o n k : k < n -> nth_error (sub l o n) k = nth_error l (o + k).
Proof. intros. rewrite nth_error_sub. destruct (Nat.ltb_spec k n); [reflexivity|lia]. Qed.

Lemma nth_window (l : list rec) o n k d : k < n -> nth k (sub l o n) d = nth (o + k) l d.
Proof.
  intros. destruct (nth_error l (o + k)) eqn:E.
  - rewrite (nth_nth_error l _ _ _ E). apply nth_nth_error. now rewrite nth_error_window.
  - rewrite !nth_overflow; auto. now apply nth_error_None. apply nth_error_None. now rewrite nth_error_window.
Qed.

(* default get_attribute_range on top of in-range unchecked reads *)
Lemma default_range l pts gu m i j data : good_layout l -> uniform (l_size l) pts -> In m (l_attrs l) ->
  (forall k r d, nth_error pts k = Some r -> length d = m_size m -> gu m k d = Ok (attr_value m r)) ->
  i <= j -> j <= length pts -> length data = (j - i) * m_size m ->
  get_attribute_range_default gu l (m_def m) i j data
  = Ok (concat (map (fun k => attr_value m (nth (i + k) pts [])) (seq 0 (j - i)))).
Proof. intros. eapply get_attr_range_default_ok; eauto. now apply member_of_In. Qed.

(* a slice of a buffer that reads pts reads the window of pts *)
Lemma slice_within (l : layout) pts (b c : buffer) s n (idx : nat -> res nat) (rng : nat -> nat -> res (nat * nat)) :
  good_layout l -> bf_layout b = l -> bf_layout c = l -> bf_columnar c = bf_columnar b -> bf_len c = n -> uniform (l_size l) pts ->
  s + n <= length pts ->
  (forall i, i < n -> idx i = Ok (i + s)) ->
  (forall i j, i < j -> j <= n -> rng i j = Ok (i + s, j + s)) ->
  (forall i, i <= n -> exists k, rng i i = Ok (k, k) /\ k <= length pts) ->
  (forall i data, bf_get_point c i data = let* g := idx i in bf_get_point b g data) ->
  (forall i j data, bf_get_point_range c i j data = let* g := rng i j in bf_get_point_range b (fst g) (snd g) data) ->
  (forall a i data, bf_get_attribute c a i data = let* g := idx i in bf_get_attribute b a g data) ->
  (forall m i data, bf_get_attribute_unchecked c m i data = let* g := idx i in bf_get_attribute_unchecked b m g data) ->
  (forall a i j data, bf_get_attribute_range c a i j data
                      = get_attribute_range_default (bf_get_attribute_unchecked c) (bf_layout c) a i j data) ->
  bf_reads_within b pts -> bf_reads_within c (sub pts s n).
Proof.
  intros G Hl Hlc CC HN U L HI HR HE EP EPR EA EU EAR (RL & RP & RPR & RA & RAR).
  assert (LW : length (sub pts s n) = n) by (apply length_sub; lia).
  assert (UW : uniform (l_size l) (sub pts s n)) by now apply uniform_sub.
  assert (INTO : forall r d, into c r d = into b r d). { intros. unfold into. now rewrite CC, Hl, Hlc. }
  assert (UCH : forall m i r data, In m (l_attrs l) -> nth_error (sub pts s n) i = Some r -> length data = m_size m ->
        bf_get_attribute_unchecked c m i data = Ok (attr_value m r)).
  { intros m i r data Hm E Ld. pose proof (nth_error_lt _ _ _ E). rewrite EU, HI by lia. cbn [bind].
    rewrite nth_error_window in E by lia. rewrite Nat.add_comm in E. rewrite Hl in RA. now apply (RA m (i + s) r data). }
  unfold bf_reads_within. rewrite Hlc, LW. rewrite Hl in *. split; [|split; [|split; [|split]]]; auto.
  - intros i r data Ld E. pose proof (nth_error_lt _ _ _ E). rewrite EP, HI by lia. cbn [bind].
    rewrite nth_error_window in E by lia. rewrite Nat.add_comm in E. rewrite INTO. now apply RP.
  - intros i j data L1 L2 Ld. rewrite EPR. destruct (Nat.eq_dec i j) as [->|N].
    + destruct (HE j L2) as (k & -> & Lk). cbn [bind fst snd]. rewrite RPR by lia. rewrite !Nat.sub_diag. reflexivity.
    + rewrite HR by lia. cbn [bind fst snd]. rewrite RPR by lia. f_equal. f_equal.
      replace (j + s - (i + s)) with (j - i) by lia.
      apply map_ext_in. intros k Hk. apply in_seq in Hk. rewrite INTO. rewrite nth_window by lia. do 2 f_equal. lia.
  - intros m i r data Hm E Ld. split; [|now apply UCH]. pose proof (nth_error_lt _ _ _ E). rewrite EA, HI by lia. cbn [bind].
    rewrite nth_error_window in E by lia. rewrite Nat.add_comm in E. now apply (RA m (i + s) r data).
  - intros m i j data Hm L1 L2 Ld. rewrite EAR, Hlc. apply default_range; auto; try lia.
Qed.

Lemma mb_reads l recs b : good_layout l -> root_rep l recs (mb_root b) -> window_ok b -> bf_reads_within (Of b) (window b recs).
Proof.
  intros G. induction b as [v|h|e|b IH s e]; intros R W.
  - pose proof (root_rep_uniform _ _ _ R) as (U & L & Hl). unfold window. simpl mb_off.
    replace (sub recs 0 (mb_len (VecB v))) with recs by (unfold sub; simpl; rewrite firstn_all_ge; auto; simpl in L; lia).
    destruct (root_reads _ _ _ G R). eapply reads_as_within; eauto.
  - pose proof (root_rep_uniform _ _ _ R) as (U & L & Hl). unfold window. simpl mb_off.
    replace (sub recs 0 (mb_len (MapB h))) with recs by (unfold sub; simpl; rewrite firstn_all_ge; auto; simpl in L; lia).
    destruct (root_reads _ _ _ G R). eapply reads_as_within; eauto.
  - pose proof (root_rep_uniform _ _ _ R) as (U & L & Hl). unfold window. simpl mb_off.
    replace (sub recs 0 (mb_len (ExtB e))) with recs by (unfold sub; simpl; rewrite firstn_all_ge; auto; simpl in L; lia).
    destruct (root_reads _ _ _ G R). eapply reads_as_within; eauto.
  - destruct W as (W & L1 & L2). cbn [mb_root] in R. specialize (IH R W).
    pose proof (root_rep_uniform _ _ _ R) as (U & L & Hl).
    assert (Hlb : bf_layout (Of b) = l). { simpl. rewrite mb_layout_root. exact Hl. }
    pose proof (window_len b W) as WL.
    assert (LW : length (window b recs) = mb_len b) by (unfold window; apply length_sub; lia).
    replace (window (SliceMutB b s e) recs) with (sub (window b recs) s (e - s)).
    2: { unfold window. simpl mb_off. simpl (mb_len (SliceMutB b s e)). apply sub_sub. lia. }
    apply (slice_within l (window b recs) (Of b) (Of (SliceMutB b s e)) s (e - s) (slice_mut_index s e) (slice_mut_range s e)); auto.
    + unfold window. now apply uniform_sub.
    + lia.
    + intros i Hi. unfold slice_mut_index. destruct (Nat.ltb_spec i e); [reflexivity|lia].
    + intros i j Hi Hj. unfold slice_mut_range. destruct (Nat.leb_spec j e); [|lia]. destruct (Nat.leb_spec j i); [lia|reflexivity].
    + intros i Hi. exists e. unfold slice_mut_range. destruct (Nat.leb_spec i e); [|lia].
      destruct (Nat.leb_spec i i); [|lia]. split; [reflexivity|lia].
Qed.

Fixpoint bf_window (b : buffer) (recs : list rec) : list rec :=
  match b with Of m => window m recs | SliceB b s e => sub (bf_window b recs) s (e - s) end.
Fixpoint bf_root (b : buffer) : mbuf := match b with Of m => mb_root m | SliceB b _ _ => bf_root b end.
Fixpoint bf_window_ok (b : buffer) : Prop :=
  match b with Of m => window_ok m | SliceB b s e => bf_window_ok b /\ s <= e /\ e <= bf_len b end.

Lemma bf_layout_root b : bf_layout b = mb_layout (bf_root b).
Proof. induction b; simpl; auto. apply mb_layout_root. Qed.

Lemma bf_reads l recs b : good_layout l -> root_rep l recs (bf_root b) -> bf_window_ok b ->
  bf_reads_within b (bf_window b recs) /\ uniform (l_size l) (bf_window b recs).
Proof.
  intros G. induction b as [m|b IH s e]; intros R W.
  - split; [now apply (mb_reads l)|]. simpl. unfold window. apply uniform_sub. now destruct (root_rep_uniform _ _ _ R).
  - destruct W as (W & L1 & L2). cbn [bf_root] in R. destruct (IH R W) as [RW UW]. cbn [bf_window].
    split; [|now apply uniform_sub].
    assert (Hlb : bf_layout b = l). { rewrite bf_layout_root. now destruct (root_rep_uniform _ _ _ R) as (_ & _ & ?). }
    pose proof RW as (LW & _).
    apply (slice_within l (bf_window b recs) b (SliceB b s e) s (e - s) (slice_index s e) (slice_range s e)); auto.
    + lia.
    + intros i Hi. unfold slice_index. destruct (Nat.ltb_spec i (e - s)); [reflexivity|lia].
    + intros i j Hi Hj. unfold slice_range. destruct (Nat.leb_spec j (e - s)); [|lia]. destruct (Nat.leb_spec j i); [lia|reflexivity].
    + intros i Hi. exists e. unfold slice_range. destruct (Nat.leb_spec i (e - s)); [|lia].
      destruct (Nat.leb_spec i i); [|lia]. split; [reflexivity|lia].
Qed.

(* ---- without mutable slices, reads out of range panic *)

Lemma default_range_panic l gu a m i j data n : good_layout l -> member_of l a = Some m ->
  (forall k d, k < n -> length d = m_size m -> exists v, gu m k d = Ok v /\ length v = m_size m) ->
  (forall k d, n <= k -> length d = m_size m -> gu m k d = Panic) ->
  i < j -> n < j -> length data = (j - i) * m_size m ->
  get_attribute_range_default gu l a i j data = Panic.
Proof.
  intros G E OK PA L1 L2 LD. unfold get_attribute_range_default. rewrite member_of_get in E. rewrite E. cbn [unwrap bind].
  apply foldM_range_panic with (P := fun _ d => length d = (j - i) * m_size m) (i0 := max i n).
  - lia.
  - assumption.
  - intros k d Hk Ld. rewrite slice_get_ok by nia. cbn [bind].
    destruct (OK k (sub d ((k - i) * m_size m) ((k - i + 1) * m_size m - (k - i) * m_size m))) as (v & -> & Lv).
    + lia.
    + rewrite length_sub; nia.
    + cbn [bind]. eexists. split; [reflexivity|]. rewrite length_blit; nia.
  - intros d Ld. rewrite slice_get_ok by nia. cbn [bind]. rewrite PA; auto. lia. rewrite length_sub; nia.
Qed.

Lemma bf_reads_frozen l recs b : good_layout l -> root_rep l recs (bf_root b) -> bf_window_ok b -> bf_frozen b ->
  bf_reads_as b (bf_window b recs)
  /\ (forall m i data, In m (l_attrs l) -> length data = m_size m ->
       bf_get_attribute_unchecked b m i data = bf_get_attribute b (m_def m) i data).
Proof.
  intros G. induction b as [m|b IH s e]; intros R W F.
  - assert (E : mb_root m = m) by (destruct m; auto; contradiction). cbn [bf_root] in R. rewrite E in R.
    destruct (root_reads l recs m G R) as [RA RU]. split; auto.
    assert (EW : bf_window (Of m) recs = recs).
    { simpl. unfold window. pose proof (root_rep_uniform _ _ _ R) as (_ & L & _).
      assert (O : mb_off m = 0) by (destruct m; auto; contradiction). rewrite O, L. unfold sub. simpl. now apply firstn_all_ge. }
    now rewrite EW.
  - destruct W as (W & L1 & L2). cbn [bf_root] in R. destruct (IH R W F) as [RA RU].
    destruct (bf_reads l recs (SliceB b s e) G R (conj W (conj L1 L2))) as [(SL & SP & SPR & SA & SAR) US].
    assert (Hlb : bf_layout b = l). { rewrite bf_layout_root. now destruct (root_rep_uniform _ _ _ R) as (_ & _ & ?). }
    cbn [bf_window] in *. set (pts := sub (bf_window b recs) s (e - s)) in *.
    assert (LP : length pts = e - s) by (symmetry; exact SL).
    assert (UNCH : forall m i data, In m (l_attrs l) -> length data = m_size m ->
       bf_get_attribute_unchecked (SliceB b s e) m i data = bf_get_attribute (SliceB b s e) (m_def m) i data).
    { intros m i data Hm Ld. cbn [bf_get_attribute_unchecked bf_get_attribute]. unfold slice_index.
      destruct (Nat.ltb i (e - s)); [|reflexivity]. cbn [assert bind]. now apply RU. }
    assert (MISS : forall a, member_of l a = None -> forall i data, length data = dt_size (ad_type a) ->
               bf_get_attribute (SliceB b s e) a i data = Panic).
    { intros a Ea i data Ld. cbn [bf_get_attribute]. unfold slice_index. destruct (Nat.ltb i (e - s)); [|reflexivity]. cbn [assert bind].
      destruct RA as (_ & _ & _ & RA & _). rewrite Hlb in RA. rewrite RA by assumption. now rewrite Ea. }
    split; auto. unfold bf_reads_as, reads_as. cbn [bf_layout] in *. rewrite Hlb in *.
    assert (IX : forall i, length pts <= i -> slice_index s e i = Panic).
    { intros i Hi. unfold slice_index. destruct (Nat.ltb_spec i (e - s)); [lia|reflexivity]. }
    split; [|split; [|split; [|split]]]; auto.
    + intros i data Ld. destruct (nth_error pts i) eqn:E; [now apply SP|].
      apply nth_error_None in E. cbn [bf_get_point]. now rewrite IX.
    + intros i j data RO Ld. destruct (Nat.leb_spec j (length pts)).
      * apply SPR; auto. unfold range_ok in RO; lia.
      * cbn [bf_get_point_range]. unfold slice_range. destruct (Nat.leb_spec j (e - s)); [lia|reflexivity].
    + intros a i data Ld. destruct (member_of l a) as [m|] eqn:Ea; [|now apply MISS].
      apply member_of_spec in Ea; auto. destruct Ea as [Hm <-]. destruct (good_member l m G Hm) as (P & S & _).
      rewrite <- S in Ld.
      destruct (nth_error pts i) eqn:E; [now apply SA|].
      apply nth_error_None in E. cbn [bf_get_attribute]. now rewrite IX.
    + intros a i j data RO Ld. destruct (member_of l a) as [m|] eqn:Ea.
      * pose proof Ea as Ea'. apply member_of_spec in Ea'; auto. destruct Ea' as [Hm <-].
        destruct (good_member l m G Hm) as (P & S & _). rewrite <- S in Ld.
        destruct (Nat.leb_spec j (length pts)).
        -- apply SAR; auto. unfold range_ok in RO; lia.
        -- cbn [bf_get_attribute_range bf_layout]. rewrite Hlb. apply default_range_panic with (m := m) (n := length pts); auto.
           ++ intros k d Hk Lk. destruct (nth_error_get pts k Hk) as [r Hr].
              destruct (SA m k r d Hm Hr Lk) as [_ ->]. eexists. split; [reflexivity|].
              eapply length_attr_value; eauto. exact (uniform_nth _ _ _ _ US Hr).
           ++ intros k d Hk Lk. cbn [bf_get_attribute_unchecked]. now rewrite IX.
           ++ unfold range_ok in RO. lia.
      * cbn [bf_get_attribute_range]. unfold get_attribute_range_default. cbn [bf_layout]. rewrite Hlb.
        rewrite member_of_get in Ea. now rewrite Ea.
Qed.
