(* Writes through mutable buffers and slices, views, iterators, sorting. *)
From Coq Require Import String List ZArith Lia Bool Arith Permutation Sorted.
From Verif Require Import Base LayoutModel LayoutSpec LayoutProofs BufferModel BufferSpec ListLemmas BufferProofs
  BufferSteps BufferSteps2 BufferSteps3 BufferSteps4 TraitModel TraitSpec TraitProofs.
Import ListNotations.

(* ------------------------------------------------------------------ well-formed buffers are represented *)

Lemma wf_good b : mb_wf b -> good_layout (mb_layout b).
Proof.
  induction b; simpl; try (now intros [? _]). intros (W & _). auto.
Qed.

Lemma root_rep_points b : mb_wf b -> mb_base b -> root_rep (mb_layout b) (mb_points b) b.
Proof.
  destruct b as [v|h|e|]; simpl; intros W B; [| | |contradiction].
  - pose proof (vb_inv_rep v W) as R. destruct W as [G _]. change (mb_points (VecB v)) with (points_of (BV v)).
    rewrite (points_of_v _ _ v G R). exact R.
  - change (mb_points (MapB h)) with (points_of (BH h)). now apply hb_inv_rep.
  - assert (I : vb_inv (as_vector e)) by exact W.
    pose proof (vb_inv_rep _ I) as R. destruct I as [G _].
    change (mb_points (ExtB e)) with (points_of (BV (as_vector e))).
    rewrite (points_of_v _ _ _ G R). exact R.
Qed.

Lemma mb_wf_root b : mb_wf b -> mb_wf (mb_root b) /\ mb_base (mb_root b) /\ window_ok b.
Proof.
  induction b as [| | |b IH s e]; simpl; auto. intros (W & L1 & L2). destruct (IH W) as (A & B & C). auto.
Qed.

Lemma mb_root_wf b : mb_wf (mb_root b) -> window_ok b -> mb_wf b.
Proof. induction b; simpl; auto. intros A (B & L1 & L2). auto. Qed.

Lemma root_rep_wf l recs b : good_layout l -> root_rep l recs b -> mb_wf b.
Proof.
  intros G. destruct b; simpl; intros R.
  - eapply vb_rep_inv; eauto.
  - eapply hb_rep_inv; eauto.
  - exact (vb_rep_inv _ _ _ G R).
  - contradiction.
Qed.

Lemma within_points b pts : bf_reads_within b pts -> bf_points b = map (fun r => into b r (repeat 0%Z (l_size (bf_layout b)))) pts.
Proof.
  intros (RL & RP & _). unfold bf_points. apply nth_error_ext. intros i.
  rewrite !nth_error_map, nth_error_seq. rewrite RL. destruct (Nat.ltb_spec i (length pts)).
  - destruct (nth_error_get pts i) as [r Hr]; auto. rewrite Hr. simpl. rewrite (RP i r); auto. apply repeat_length.
  - now rewrite nth_error_None_ge.
Qed.

Lemma mb_points_window l recs b : good_layout l -> root_rep l recs (mb_root b) -> window_ok b ->
  mb_points b = map (stored b) (window b recs).
Proof.
  intros G R W. unfold mb_points. rewrite (within_points _ _ (mb_reads l recs b G R W)). reflexivity.
Qed.

Lemma mb_points_root b : mb_wf b -> mb_points b = window b (mb_points (mb_root b)).
Proof.
  intros W. destruct (mb_wf_root b W) as (A & B & C). pose proof (root_rep_points _ A B) as R.
  pose proof (wf_good _ W) as G. rewrite <- mb_layout_root in R.
  rewrite (mb_points_window _ _ b G R C).
  assert (S : mb_points (mb_root b) = map (stored (mb_root b)) (mb_points (mb_root b))).
  { assert (RR : mb_root (mb_root b) = mb_root b) by (destruct (mb_root b); auto; contradiction).
    rewrite (mb_points_window (mb_layout b) (mb_points (mb_root b)) (mb_root b) G) at 1.
    - f_equal. unfold window. assert (O : mb_off (mb_root b) = 0) by (destruct (mb_root b); auto; contradiction). rewrite O.
      unfold sub. simpl. apply firstn_all_ge. unfold mb_points, bf_points. rewrite map_length, seq_length. simpl. lia.
    - now rewrite RR.
    - destruct (mb_root b); simpl; auto; contradiction. }
  rewrite S at 2. unfold window. unfold sub. rewrite skipn_map, firstn_map.
  apply map_ext. intros r. unfold stored, mb_columnar.
  assert (RR : mb_root (mb_root b) = mb_root b) by (destruct (mb_root b); auto; contradiction).
  now rewrite RR, <- mb_layout_root.
Qed.

Lemma stored_points b : mb_wf b -> map (stored b) (mb_points b) = mb_points b.
Proof.
  intros W. destruct (mb_wf_root b W) as (A & B & C). pose proof (root_rep_points _ A B) as R.
  pose proof (wf_good _ W) as G. rewrite <- mb_layout_root in R.
  rewrite (mb_points_root b W) at 1. symmetry. now apply (mb_points_window (mb_layout b)).
Qed.

(* ------------------------------------------------------------------ writes *)

Lemma write_ok_op l n o : write_ok l n o -> op_ok l n o.
Proof.
  destruct o; simpl; unfold range_ok; try tauto.
  - intros (A & B & C). split; auto. lia.
  - intros (A & B & C & D). split; auto. lia.
Qed.

Lemma write_some l recs o : good_layout l -> write_ok l (length recs) o -> exists recs', spec_step l recs o = Some recs' /\ length recs' = length recs.
Proof.
  intros G. destruct o; simpl; try tauto.
  - intros (A & B). destruct (Nat.ltb_spec i (length recs)); [|lia]. eexists; split; eauto. apply length_set_nth.
  - intros (A & B & C). destruct (Nat.leb_spec e (length recs)); [|lia]. eexists; split; eauto. apply length_set_range.
  - intros ((m & Hm & <-) & A & B). rewrite (member_of_In l m G Hm). destruct (Nat.ltb_spec i (length recs)); [|lia].
    eexists; split; eauto. apply length_mapi.
  - intros ((m & Hm & <-) & A & B & C). rewrite (member_of_In l m G Hm). destruct (Nat.leb_spec e (length recs)); [|lia].
    eexists; split; eauto. apply length_mapi.
  - intros (A & B). destruct (Nat.ltb_spec i (length recs)), (Nat.ltb_spec j (length recs)); try lia. simpl.
    eexists; split; eauto. apply length_exchange.
Qed.

Lemma same_effect_outcome l r r' o : same_effect r r' -> outcome (vb_rep l) r' o ->
  outcome (fun recs e => vb_rep l recs (as_vector e)) r o.
Proof.
  unfold outcome, same_effect. intros S O. destruct o as [recs'|].
  - destruct O as (b' & -> & R). destruct r as [e| |]; try contradiction. exists e. now rewrite S.
  - rewrite O in S. destruct r; auto; contradiction.
Qed.

Lemma root_step l recs b o : good_layout l -> root_rep l recs b -> write_ok l (length recs) o ->
  exists b' recs', mb_step b o = Ok b' /\ spec_step l recs o = Some recs' /\ root_rep l recs' b' /\ mb_base b'
                   /\ length recs' = length recs.
Proof.
  intros G R WO. destruct (write_some l recs o G WO) as (recs' & ES & EL). pose proof (write_ok_op _ _ _ WO) as OK.
  destruct b as [v|h|e|]; simpl in R; [| | |contradiction].
  - pose proof (vb_step_ok l recs v o G R OK) as O. rewrite ES in O. destruct O as (v' & E & R').
    exists (VecB v'), recs'. split; [|split; [auto|split; [exact R'|split; simpl; auto]]].
    destruct o; simpl in *; try contradiction; now rewrite E.
  - pose proof (hb_step_ok l recs h o G R OK) as O. rewrite ES in O. destruct O as (v' & E & R').
    exists (MapB v'), recs'. split; [|split; [auto|split; [exact R'|split; simpl; auto]]].
    destruct o; simpl in *; try contradiction; now rewrite E.
  - pose proof (vb_step_ok l recs (as_vector e) o G R OK) as O. rewrite ES in O.
    destruct (external_writes e) as (W1 & W2 & W3 & W4 & W5).
    assert (X : exists e', mb_step (ExtB e) o = Ok (ExtB e') /\ vb_rep l recs' (as_vector e')).
    { destruct o; simpl in WO; try contradiction; cbn [mb_step mb_set_point mb_set_point_range mb_set_attribute mb_set_attribute_range mb_swap].
      - destruct (same_effect_outcome l _ _ _ (W1 i data) O) as (e' & -> & R'). exists e'. now split.
      - destruct (same_effect_outcome l _ _ _ (W2 s e0 data) O) as (e' & -> & R'). exists e'. now split.
      - destruct (same_effect_outcome l _ _ _ (W3 a i data) O) as (e' & -> & R'). exists e'. now split.
      - destruct (same_effect_outcome l _ _ _ (W4 a s e0 data) O) as (e' & -> & R'). exists e'. now split.
      - destruct (same_effect_outcome l _ _ _ (W5 i j) O) as (e' & -> & R'). exists e'. now split. }
    destruct X as (e' & E & R'). exists (ExtB e'), recs'. split; [auto|split; [auto|split; [exact R'|split; simpl; auto]]].
Qed.

(* same slices around *)
Fixpoint same_shape (b b' : mbuf) : Prop :=
  match b, b' with
  | VecB _, VecB _ | MapB _, MapB _ | ExtB _, ExtB _ => True
  | SliceMutB b s e, SliceMutB b' s' e' => s = s' /\ e = e' /\ same_shape b b'
  | _, _ => False
  end.

Lemma same_shape_facts b : forall b', same_shape b b' -> mb_len (mb_root b') = mb_len (mb_root b) ->
  mb_off b' = mb_off b /\ mb_len b' = mb_len b /\ mb_columnar b' = mb_columnar b /\ (window_ok b -> window_ok b').
Proof.
  induction b; intros b'; destruct b'; simpl; try tauto; intros S L; auto.
  destruct S as (-> & -> & S). destruct (IHb _ S L) as (A & B & C & D). unfold mb_columnar in *. cbn [mb_root].
  split; [now rewrite A|]. split; [reflexivity|]. split; [exact C|]. intros (W & L1 & L2). rewrite B. auto.
Qed.

Lemma shift_shift a b o : shift_op a (shift_op b o) = shift_op (a + b) o.
Proof. destruct o; simpl; auto; f_equal; lia. Qed.

Lemma write_ok_mono l n n' o : write_ok l n o -> n <= n' -> write_ok l n' o.
Proof. destruct o; simpl; intuition lia. Qed.

Lemma set_range_nil {A} s (l : list A) : set_range s [] l = l.
Proof. unfold set_range. apply mapi_id. intros k a _. simpl. destruct (Nat.leb_spec s k), (Nat.ltb_spec k (s + 0)); simpl; auto; lia. Qed.

Lemma mb_step_ok l b : good_layout l -> forall recs o, root_rep l recs (mb_root b) -> window_ok b -> write_ok l (mb_len b) o ->
  exists b' recs', mb_step b o = Ok b' /\ spec_step l recs (shift_op (mb_off b) o) = Some recs'
     /\ root_rep l recs' (mb_root b') /\ same_shape b b' /\ length recs' = length recs.
Proof.
  intros G. induction b as [v|h|e|b IH s e]; intros recs o R W WO.
  1-3: pose proof (root_rep_uniform _ _ _ R) as (_ & L & _); cbn [mb_root] in L; rewrite L in WO;
    destruct (root_step l recs _ o G R WO) as (b' & recs' & E & ES & R' & B & EL);
    assert (EO : shift_op 0 o = o) by (destruct o; reflexivity);
    exists b', recs'; cbn [mb_off]; rewrite EO;
    assert (RB : mb_root b' = b') by (destruct b'; auto; contradiction); rewrite RB;
    repeat split; auto;
    destruct b'; simpl; auto; try contradiction;
    destruct o; simpl in E; try discriminate;
    match type of E with (let* _ := ?x in _) = _ => destruct x; discriminate end.
  destruct W as (W & L1 & L2). cbn [mb_root mb_len] in *. cbn [mb_off].
  (* non-empty target: the parent performs the shifted write *)
  assert (STEP : forall o', write_ok l (mb_len b) o' ->
            mb_step (SliceMutB b s e) o = (let* b' := mb_step b o' in Ok (SliceMutB b' s e)) ->
            spec_step l recs (shift_op (mb_off b) o') = spec_step l recs (shift_op (mb_off b + s) o) ->
            exists b' recs', mb_step (SliceMutB b s e) o = Ok b' /\ spec_step l recs (shift_op (mb_off b + s) o) = Some recs'
     /\ root_rep l recs' (mb_root b') /\ same_shape (SliceMutB b s e) b' /\ length recs' = length recs).
  { intros o' WO' E ES. destruct (IH recs o' R W WO') as (b' & recs' & E' & ES' & R' & S' & EL).
    exists (SliceMutB b' s e), recs'. rewrite E, E', <- ES. cbn [bind]. simpl. split; [reflexivity|]. repeat split; auto; congruence. }
  pose proof (root_rep_uniform _ _ _ R) as (_ & LR & _). pose proof (window_len b W) as WL.
  destruct o; simpl in WO; try contradiction.
  - apply (STEP (OSetPoint (s + i) data)).
    + simpl. intuition lia.
    + simpl. unfold slice_mut_index. destruct (Nat.ltb_spec i e); [|lia]. cbn [assert bind]. now rewrite (Nat.add_comm i s).
    + simpl. now rewrite Nat.add_assoc.
  - destruct WO as (A & B & C). destruct (Nat.eq_dec s0 e0) as [->|N].
    + apply (STEP (OSetPointRange e e data)).
      * simpl. repeat split; try lia.
      * simpl. unfold slice_mut_range. destruct (Nat.leb_spec e0 e); [|lia]. destruct (Nat.leb_spec e0 e0); [|lia]. reflexivity.
      * simpl. destruct (Nat.leb_spec (mb_off b + e) (length recs)); [|lia].
        destruct (Nat.leb_spec (mb_off b + s + e0) (length recs)); [|lia]. rewrite !Nat.sub_diag. unfold pieces. simpl.
        now rewrite !set_range_nil.
    + apply (STEP (OSetPointRange (s + s0) (s + e0) data)).
      * simpl. replace (s + e0 - (s + s0)) with (e0 - s0) by lia. repeat split; try lia.
      * simpl. unfold slice_mut_range. destruct (Nat.leb_spec e0 e); [|lia]. destruct (Nat.leb_spec e0 s0); [lia|].
        cbn [assert bind fst snd]. now rewrite (Nat.add_comm s0 s), (Nat.add_comm e0 s).
      * simpl. now rewrite !Nat.add_assoc.
  - apply (STEP (OSetAttribute a (s + i) data)).
    + simpl. intuition lia.
    + simpl. unfold slice_mut_index. destruct (Nat.ltb_spec i e); [|lia]. cbn [assert bind]. now rewrite (Nat.add_comm i s).
    + simpl. now rewrite Nat.add_assoc.
  - destruct WO as (X & A & B & C). destruct (Nat.eq_dec s0 e0) as [->|N].
    + apply (STEP (OSetAttributeRange a e e data)).
      * simpl. rewrite Nat.sub_diag in *. repeat split; auto.
      * simpl. unfold slice_mut_range. destruct (Nat.leb_spec e0 e); [|lia]. destruct (Nat.leb_spec e0 e0); [|lia]. reflexivity.
      * simpl. destruct (member_of l a); auto. destruct (Nat.leb_spec (mb_off b + e) (length recs)); [|lia].
        destruct (Nat.leb_spec (mb_off b + s + e0) (length recs)); [|lia]. f_equal.
        rewrite !mapi_id; auto; intros k r _.
        destruct (Nat.leb_spec (mb_off b + s + e0) k), (Nat.ltb_spec k (mb_off b + s + e0)); simpl; auto; lia.
        destruct (Nat.leb_spec (mb_off b + e) k), (Nat.ltb_spec k (mb_off b + e)); simpl; auto; lia.
    + apply (STEP (OSetAttributeRange a (s + s0) (s + e0) data)).
      * simpl. replace (s + e0 - (s + s0)) with (e0 - s0) by lia. repeat split; auto; try lia.
      * simpl. unfold slice_mut_range. destruct (Nat.leb_spec e0 e); [|lia]. destruct (Nat.leb_spec e0 s0); [lia|].
        cbn [assert bind fst snd]. now rewrite (Nat.add_comm s0 s), (Nat.add_comm e0 s).
      * simpl. now rewrite !Nat.add_assoc.
  - apply (STEP (OSwap (s + i) (s + j))).
    + simpl. intuition lia.
    + simpl. unfold slice_mut_index. destruct (Nat.ltb_spec i e); [|lia]. destruct (Nat.ltb_spec j e); [|lia].
      cbn [assert bind]. now rewrite (Nat.add_comm i s), (Nat.add_comm j s).
    + simpl. now rewrite !Nat.add_assoc.
Qed.

(* ---- effect of a shifted write on the window and outside of it *)

Lemma write_outside l recs recs' n k o : good_layout l -> write_ok l n o -> k + n <= length recs ->
  spec_step l recs (shift_op k o) = Some recs' ->
  forall q, q < k \/ k + n <= q -> nth_error recs' q = nth_error recs q.
Proof.
  intros G WO L E q Q. destruct o; simpl in WO; try contradiction; simpl in E.
  - destruct (Nat.ltb (k + i) (length recs)); [|discriminate]. injection E as <-. unfold set_nth. rewrite nth_error_mapi.
    destruct (nth_error recs q); auto. simpl. destruct (Nat.eqb_spec q (k + i)); [lia|auto].
  - destruct (Nat.leb (k + e) (length recs)); [|discriminate]. injection E as <-. unfold set_range. rewrite nth_error_mapi.
    destruct (nth_error recs q); auto. simpl. rewrite length_pieces.
    destruct (Nat.leb_spec (k + s) q), (Nat.ltb_spec q (k + s + (k + e - (k + s)))); simpl; auto; lia.
  - destruct (member_of l a); [|discriminate]. destruct (Nat.ltb (k + i) (length recs)); [|discriminate]. injection E as <-.
    rewrite nth_error_mapi. destruct (nth_error recs q); auto. simpl. destruct (Nat.eqb_spec q (k + i)); [lia|auto].
  - destruct (member_of l a); [|discriminate]. destruct (Nat.leb (k + e) (length recs)); [|discriminate]. injection E as <-.
    rewrite nth_error_mapi. destruct (nth_error recs q); auto. simpl.
    destruct (Nat.leb_spec (k + s) q), (Nat.ltb_spec q (k + e)); simpl; auto; lia.
  - destruct (Nat.ltb (k + i) (length recs) && Nat.ltb (k + j) (length recs)); [|discriminate]. injection E as <-.
    unfold exchange. rewrite nth_error_mapi. destruct (nth_error recs q); auto. simpl.
    destruct (Nat.eqb_spec q (k + i)); [lia|]. destruct (Nat.eqb_spec q (k + j)); [lia|auto].
Qed.

Lemma write_window l recs recs' n k o : good_layout l -> write_ok l n o -> k + n <= length recs ->
  spec_step l recs (shift_op k o) = Some recs' ->
  spec_step l (sub recs k n) o = Some (sub recs' k n).
Proof.
  intros G WO L E.
  assert (LS : length (sub recs k n) = n) by now apply length_sub.
  destruct o; simpl in WO; try contradiction; simpl in *; rewrite LS.
  - destruct (Nat.ltb (k + i) (length recs)); [|discriminate]. injection E as <-. destruct (Nat.ltb_spec i n); [|lia]. f_equal.
    apply nth_error_ext. intros q. unfold set_nth. rewrite nth_error_mapi, !nth_error_sub, nth_error_mapi.
    destruct (Nat.ltb_spec q n); auto. destruct (nth_error recs (k + q)); auto. simpl.
    destruct (Nat.eqb_spec q i), (Nat.eqb_spec (k + q) (k + i)); auto; lia.
  - destruct (Nat.leb (k + e) (length recs)); [|discriminate]. injection E as <-. destruct (Nat.leb_spec e n); [|lia]. f_equal.
    apply nth_error_ext. intros q. unfold set_range. rewrite nth_error_mapi, !nth_error_sub, nth_error_mapi.
    destruct (Nat.ltb_spec q n); auto. destruct (nth_error recs (k + q)); auto. simpl. rewrite !length_pieces.
    replace (k + e - (k + s)) with (e - s) by lia. replace (k + q - (k + s)) with (q - s) by lia.
    destruct (Nat.leb_spec s q), (Nat.ltb_spec q (s + (e - s))), (Nat.leb_spec (k + s) (k + q)), (Nat.ltb_spec (k + q) (k + s + (e - s)));
      simpl; auto; lia.
  - destruct (member_of l a); [|discriminate]. destruct (Nat.ltb (k + i) (length recs)); [|discriminate]. injection E as <-.
    destruct (Nat.ltb_spec i n); [|lia]. f_equal.
    apply nth_error_ext. intros q. rewrite nth_error_mapi, !nth_error_sub, nth_error_mapi.
    destruct (Nat.ltb_spec q n); auto. destruct (nth_error recs (k + q)); auto. simpl.
    destruct (Nat.eqb_spec q i), (Nat.eqb_spec (k + q) (k + i)); auto; lia.
  - destruct (member_of l a); [|discriminate]. destruct (Nat.leb (k + e) (length recs)); [|discriminate]. injection E as <-.
    destruct (Nat.leb_spec e n); [|lia]. f_equal.
    apply nth_error_ext. intros q. rewrite nth_error_mapi, !nth_error_sub, nth_error_mapi.
    destruct (Nat.ltb_spec q n); auto. destruct (nth_error recs (k + q)); auto. simpl.
    replace (k + q - (k + s)) with (q - s) by lia.
    destruct (Nat.leb_spec s q), (Nat.ltb_spec q e), (Nat.leb_spec (k + s) (k + q)), (Nat.ltb_spec (k + q) (k + e));
      simpl; auto; lia.
  - destruct (Nat.ltb (k + i) (length recs) && Nat.ltb (k + j) (length recs)); [|discriminate]. injection E as <-.
    destruct (Nat.ltb_spec i n), (Nat.ltb_spec j n); try lia. simpl. f_equal.
    apply nth_error_ext. intros q. unfold exchange. rewrite nth_error_mapi, !nth_error_sub, nth_error_mapi.
    destruct (Nat.ltb_spec q n); auto. destruct (nth_error recs (k + q)); auto. simpl.
    rewrite !nth_window by lia.
    destruct (Nat.eqb_spec q i), (Nat.eqb_spec (k + q) (k + i)), (Nat.eqb_spec q j), (Nat.eqb_spec (k + q) (k + j)); auto; lia.
Qed.

(* the main write lemma on observable points *)
Lemma mb_write b o : mb_wf b -> write_ok (mb_layout b) (mb_len b) o ->
  exists b' pts', mb_step b o = Ok b' /\ mb_wf b' /\ same_shape b b' /\ mb_layout b' = mb_layout b
    /\ mb_len b' = mb_len b /\ mb_off b' = mb_off b
    /\ spec_step (mb_layout b) (mb_points b) o = Some pts'
    /\ mb_points b' = map (stored b) pts'
    /\ bf_reads_within (Of b') pts'
    /\ mb_len (mb_root b') = mb_len (mb_root b)
    /\ (forall q, q < mb_off b \/ mb_off b + mb_len b <= q ->
          nth_error (mb_points (mb_root b')) q = nth_error (mb_points (mb_root b)) q).
Proof.
  intros W WO. destruct (mb_wf_root b W) as (A & B & C). pose proof (root_rep_points _ A B) as R.
  pose proof (wf_good _ W) as G. rewrite <- mb_layout_root in R. set (l := mb_layout b) in *.
  destruct (mb_step_ok l b G (mb_points (mb_root b)) o R C WO) as (b' & recs' & E & ES & R' & S & EL).
  pose proof (root_rep_uniform _ _ _ R) as (U & LR & _). pose proof (root_rep_uniform _ _ _ R') as (U' & LR' & Hl').
  assert (LL : mb_len (mb_root b') = mb_len (mb_root b)) by congruence.
  destruct (same_shape_facts b b' S LL) as (EO & EN & EC & EW).
  pose proof (window_len b C) as WL. rewrite LR in WL.
  assert (W' : mb_wf b'). { apply mb_root_wf; auto. eapply root_rep_wf; eauto. }
  assert (Hlb : mb_layout b' = l). { rewrite mb_layout_root. exact Hl'. }
  exists b', (window b' recs'). split; [exact E|]. split; [exact W'|]. split; [exact S|]. split; [exact Hlb|].
  split; [exact EN|]. split; [exact EO|]. split.
  { rewrite (mb_points_root b W). unfold window. rewrite EO, EN. eapply write_window; eauto. }
  split. { rewrite (mb_points_window l recs' b' G R' (EW C)). apply map_ext. intros r. unfold stored. now rewrite EC, Hlb. }
  split. { apply (mb_reads l); auto. }
  split; [exact LL|].
  intros q Q. assert (RR' : mb_base (mb_root b')). { now destruct (mb_wf_root b' W') as (_ & ? & _). }
  assert (RR : mb_root (mb_root b') = mb_root b') by (destruct (mb_root b'); auto; contradiction).
  rewrite (mb_points_window l recs' (mb_root b') G).
  2: now rewrite RR. 2: destruct (mb_root b'); simpl; auto; contradiction.
  rewrite nth_error_map. unfold window. assert (O : mb_off (mb_root b') = 0) by (destruct (mb_root b'); auto; contradiction).
  rewrite O. unfold sub. simpl skipn. rewrite firstn_all_ge by lia.
  rewrite (write_outside l _ _ _ _ _ G WO WL ES q Q).
  pose proof (stored_points _ A) as SP. rewrite <- SP at 2. rewrite nth_error_map.
  destruct (nth_error (mb_points (mb_root b)) q); auto. simpl. f_equal. unfold stored.
  assert (RRb : mb_root (mb_root b) = mb_root b) by (destruct (mb_root b); auto; contradiction).
  assert (CC : mb_columnar (mb_root b') = mb_columnar (mb_root b)). { unfold mb_columnar in *. now rewrite RR, RRb. }
  now rewrite CC, Hl', <- mb_layout_root.
Qed.

Lemma mb_wf_reads b : mb_wf b -> bf_reads_within (Of b) (mb_points b).
Proof.
  intros W. destruct (mb_wf_root b W) as (A & B & C). pose proof (root_rep_points _ A B) as R.
  pose proof (wf_good _ W) as G. rewrite <- mb_layout_root in R. rewrite (mb_points_root b W). now apply (mb_reads (mb_layout b)).
Qed.

Lemma bf_wf_root b : bf_wf b -> mb_wf (bf_root b) /\ mb_base (bf_root b) /\ bf_window_ok b /\ good_layout (bf_layout b).
Proof.
  induction b; simpl.
  - intros W. destruct (mb_wf_root m W) as (A & B & C). pose proof (wf_good _ W). auto.
  - intros (W & L1 & L2). destruct (IHb W) as (A & B & C & D). tauto.
Qed.

Lemma slice_points b s e : bf_wf b -> s <= e -> e <= bf_len b -> bf_points (SliceB b s e) = sub (bf_points b) s (e - s).
Proof.
  intros W L1 L2. unfold bf_points. cbn [bf_len bf_layout]. apply nth_error_ext. intros i.
  rewrite nth_error_sub, !nth_error_map, !nth_error_seq. destruct (Nat.ltb_spec i (e - s)); auto.
  destruct (Nat.ltb_spec (s + i) (bf_len b)); [|lia]. simpl. unfold slice_index.
  destruct (Nat.ltb_spec i (e - s)); [|lia]. cbn [assert bind]. now rewrite (Nat.add_comm i s).
Qed.

Lemma bf_points_window b : bf_wf b -> bf_points b = bf_window b (mb_points (bf_root b)).
Proof.
  induction b; intros W.
  - change (bf_points (Of m)) with (mb_points m). simpl. now apply mb_points_root.
  - destruct W as (W & L1 & L2). rewrite slice_points by assumption. simpl. now rewrite IHb.
Qed.

Lemma bf_wf_reads b : bf_wf b -> bf_reads_within b (bf_points b).
Proof.
  intros W. destruct (bf_wf_root b W) as (A & B & C & G). pose proof (root_rep_points _ A B) as R.
  rewrite <- bf_layout_root in R. rewrite (bf_points_window b W). now apply (bf_reads (bf_layout b)).
Qed.

Lemma bf_wf_reads_all b : bf_wf b -> bf_frozen b -> bf_reads_as b (bf_points b).
Proof.
  intros W F. destruct (bf_wf_root b W) as (A & B & C & G). pose proof (root_rep_points _ A B) as R.
  rewrite <- bf_layout_root in R. rewrite (bf_points_window b W). now apply (bf_reads_frozen (bf_layout b)).
Qed.

Lemma bf_points_uniform b : bf_wf b -> uniform (l_size (bf_layout b)) (bf_points b) /\ length (bf_points b) = bf_len b.
Proof.
  intros W. destruct (bf_wf_root b W) as (A & B & C & G). pose proof (root_rep_points _ A B) as R.
  rewrite <- bf_layout_root in R. split.
  - rewrite (bf_points_window b W). now apply (bf_reads (bf_layout b)).
  - unfold bf_points. now rewrite map_length, seq_length.
Qed.
