(* Lemmas about buffers in terms of their observable points, used by the property theorems C09 - C24. *)
From Coq Require Import String List ZArith Lia Bool Arith Permutation Sorted.
From Verif Require Import Base LayoutModel LayoutSpec LayoutProofs BufferModel BufferSpec ListLemmas BufferProofs
  BufferSteps BufferSteps2 BufferSteps3 BufferSteps4 TraitModel TraitSpec TraitProofs TraitProofs2 TraitProofs3.
Import ListNotations.

Lemma sort_points b cmp : mb_wf b -> mb_columnar b = false ->
  exists b', point_view_sort_by b (mb_layout b) cmp = Ok b' /\ mb_wf b' /\ mb_layout b' = mb_layout b /\ mb_len b' = mb_len b
    /\ mb_points b' = stable_sort cmp (mb_points b)
    /\ mb_len (mb_root b') = mb_len (mb_root b)
    /\ (forall q, q < mb_off b \/ mb_off b + mb_len b <= q ->
          nth_error (mb_points (mb_root b')) q = nth_error (mb_points (mb_root b)) q).
Proof.
  intros W NC. pose proof (wf_good b W) as G. pose proof (good_size _ G) as Z0.
  destruct (bf_points_uniform (Of b) W) as (U & UL). change (bf_points (Of b)) with (mb_points b) in *.
  change (bf_layout (Of b)) with (mb_layout b) in U. simpl in UL.
  destruct (mb_wf_root b W) as (A & B & C). pose proof (root_rep_points _ A B) as R. rewrite <- mb_layout_root in R.
  unfold point_view_sort_by. assert (LE : layout_eqb (mb_layout b) (mb_layout b) = true) by now apply layout_eqb_eq.
  rewrite LE. cbn [assert bind].
  rewrite (update_is_set (mb_layout b) b _ G (mb_points (mb_root b)) 0 (mb_len b)); auto; try lia.
  2: { intros bytes HB. apply length_sorted_bytes; auto. rewrite HB, Nat.sub_0_r. now apply Nat.mod_mul; lia. }
  rewrite Nat.add_0_r, Nat.sub_0_r. change (sub (mb_points (mb_root b)) (mb_off b) (mb_len b)) with (window b (mb_points (mb_root b))).
  rewrite <- (mb_points_root b W). rewrite as_points_concat by auto.
  set (sorted := stable_sort cmp (mb_points b)).
  assert (US : uniform (l_size (mb_layout b)) sorted) by (eapply uniform_perm; [apply sort_perm|exact U]).
  assert (LS : length sorted = mb_len b). { unfold sorted. rewrite <- (Permutation_length (sort_perm cmp (mb_points b))). exact UL. }
  destruct (mb_write b (OSetPointRange 0 (mb_len b) (concat sorted)) W) as (b' & pts' & E & W' & S & EL & EN & EO & ES & EP & RW & LL & OUT).
  { simpl. repeat split; try lia. rewrite (length_concat _ _ US). lia. }
  exists b'. split; [exact E|]. repeat split; auto. rewrite EP. cbn [spec_step] in ES.
  destruct (Nat.leb_spec (mb_len b) (length (mb_points b))); [|lia]. injection ES as <-.
  rewrite Nat.sub_0_r. rewrite <- LS at 1. rewrite pieces_concat by auto.
  unfold stored. rewrite NC. rewrite map_id.
  apply nth_error_ext. intros k. unfold set_range. rewrite nth_error_mapi.
  destruct (nth_error (mb_points b) k) as [x|] eqn:Hk.
  - apply nth_error_lt in Hk. destruct (nth_error_get sorted k) as [y Hy]; [lia|]. simpl.
    destruct (Nat.ltb_spec k (length sorted)); [|lia]. simpl. rewrite Nat.sub_0_r, Hy. f_equal. now apply nth_nth_error.
  - apply nth_error_None in Hk. symmetry. apply nth_error_None. lia.
Qed.

(* ------------------------------------------------------------------ points of owning buffers *)

Definition norm (l : layout) (r : list Z) : list Z := overlay l r (repeat 0%Z (l_size l)).

Lemma points_of_columnar l recs h : good_layout l -> hb_rep l recs h -> points_of (BH h) = map (norm l) recs.
Proof. exact (points_of_h l recs h). Qed.

Lemma norm_zero l : norm l (repeat 0%Z (l_size l)) = repeat 0%Z (l_size l).
Proof.
  unfold norm, overlay. apply mapi_id. intros k a Hk. destruct (existsb _ _); auto.
  now apply nth_nth_error.
Qed.

Lemma norm_points h : hb_inv h -> map (norm (hb_layout h)) (points_of (BH h)) = points_of (BH h).
Proof. intros I. symmetry. apply points_of_columnar. now destruct I. now apply hb_inv_rep. Qed.

Lemma vb_rep_points v : vb_inv v -> vb_rep (vb_layout v) (points_of (BV v)) v.
Proof. intros I. pose proof (vb_inv_rep v I) as R. rewrite (points_of_v _ _ v (proj1 I) R). exact R. Qed.

Lemma points_len o : length (points_of o) = any_len o.
Proof. unfold points_of. now rewrite map_length, seq_length. Qed.

Definition resized (l : layout) (n : nat) (pts : list (list Z)) : list (list Z) :=
  firstn n pts ++ repeat (repeat 0%Z (l_size l)) (n - length pts).

Lemma vb_resize_points v n : vb_inv v ->
  vb_inv (vb_resize v n) /\ vb_layout (vb_resize v n) = vb_layout v /\ vb_len (vb_resize v n) = n
  /\ points_of (BV (vb_resize v n)) = resized (vb_layout v) n (points_of (BV v)).
Proof.
  intros I. pose proof (proj1 I) as G. pose proof (vb_rep_points v I) as R. pose proof (vb_resize_rep _ G _ v R n) as R'.
  split; [now apply (vb_rep_inv _ _ _ G R')|]. split; [reflexivity|]. split; [reflexivity|].
  exact (points_of_v _ _ _ G R').
Qed.

Lemma hb_resize_points v n : hb_inv v ->
  hb_inv (hb_resize v n) /\ hb_layout (hb_resize v n) = hb_layout v /\ hb_len (hb_resize v n) = n
  /\ points_of (BH (hb_resize v n)) = resized (hb_layout v) n (points_of (BH v)).
Proof.
  intros I. pose proof (proj1 I) as G. pose proof (hb_inv_rep v I) as R. pose proof (hb_resize_rep _ G _ v R n) as R'.
  split; [now apply (hb_rep_inv _ _ _ G R')|]. split; [reflexivity|]. split; [reflexivity|].
  rewrite (points_of_columnar _ _ _ G R'). unfold resized. rewrite map_app, map_repeat, norm_zero, <- firstn_map, norm_points; auto.
Qed.

Lemma clear_points v h : vb_inv v -> hb_inv h ->
  vb_inv (vb_clear v) /\ vb_layout (vb_clear v) = vb_layout v /\ vb_len (vb_clear v) = 0 /\ points_of (BV (vb_clear v)) = []
  /\ hb_inv (hb_clear h) /\ hb_layout (hb_clear h) = hb_layout h /\ hb_len (hb_clear h) = 0 /\ points_of (BH (hb_clear h)) = [].
Proof.
  intros I J. pose proof (proj1 I) as G. pose proof (proj1 J) as G'.
  pose proof (vb_clear_rep _ G _ _ (vb_rep_points v I)) as R. pose proof (hb_clear_rep _ G' _ _ (hb_inv_rep h J)) as R'.
  split; [now apply (vb_rep_inv _ _ _ G R)|]. split; [reflexivity|]. split; [reflexivity|]. split; [reflexivity|].
  split; [now apply (hb_rep_inv _ _ _ G' R')|]. auto.
Qed.

(* append *)
Definition appended_v (v : vbuf) (o : anybuf) (r : res vbuf) : Prop :=
  if layout_eqb (vb_layout v) (any_layout o)
  then exists v', r = Ok v' /\ vb_inv v' /\ vb_layout v' = vb_layout v /\ points_of (BV v') = points_of (BV v) ++ points_of o
  else r = Panic.
Definition appended_h (h : hbuf) (o : anybuf) (r : res hbuf) : Prop :=
  if layout_eqb (hb_layout h) (any_layout o)
  then exists h', r = Ok h' /\ hb_inv h' /\ hb_layout h' = hb_layout h /\ points_of (BH h') = points_of (BH h) ++ map (norm (hb_layout h)) (points_of o)
  else r = Panic.

Lemma outcome_v v o r : vb_inv v -> outcome (vb_rep (vb_layout v)) r (spec_append (vb_layout v) (points_of (BV v)) o) -> appended_v v o r.
Proof.
  intros I. unfold appended_v, spec_append, outcome. destruct (layout_eqb (vb_layout v) (any_layout o)); auto.
  intros (v' & E & R). pose proof (proj1 I) as G. exists v'. split; [exact E|].
  split; [now apply (vb_rep_inv _ _ _ G R)|]. split; [apply R|]. exact (points_of_v _ _ _ G R).
Qed.
Lemma outcome_h v o r : hb_inv v -> outcome (hb_rep (hb_layout v)) r (spec_append (hb_layout v) (points_of (BH v)) o) -> appended_h v o r.
Proof.
  intros I. unfold appended_h, spec_append, outcome. destruct (layout_eqb (hb_layout v) (any_layout o)); auto.
  intros (v' & E & R). pose proof (proj1 I) as G. exists v'. split; [exact E|].
  split; [now apply (hb_rep_inv _ _ _ G R)|]. split; [apply R|]. rewrite (points_of_columnar _ _ _ G R), map_app.
  now rewrite norm_points.
Qed.

Lemma append_points : 
  (forall v o, vb_inv v -> any_inv o -> appended_v v o (vb_append v o))
  /\ (forall v w, vb_inv v -> vb_inv w -> appended_v v (BV w) (vb_append_interleaved v w))
  /\ (forall v h, vb_inv v -> hb_inv h -> appended_v v (BH h) (vb_append_columnar v h))
  /\ (forall h o, hb_inv h -> any_inv o -> appended_h h o (hb_append h o))
  /\ (forall h v, hb_inv h -> vb_inv v -> appended_h h (BV v) (hb_append_interleaved h v))
  /\ (forall h g, hb_inv h -> hb_inv g -> appended_h h (BH g) (hb_append_columnar h g)).
Proof.
  repeat split; intros a o I J.
  - apply outcome_v; auto. apply vb_append_ok; auto. now destruct I. now apply vb_rep_points.
  - apply outcome_v; auto. apply vb_append_interleaved_ok; auto. now destruct I. now apply vb_rep_points.
  - apply outcome_v; auto. apply vb_append_columnar_ok; auto. now destruct I. now apply vb_rep_points.
  - apply outcome_h; auto. apply hb_append_ok; auto. now destruct I. now apply hb_inv_rep.
  - apply outcome_h; auto. apply hb_append_interleaved_ok; auto. now destruct I. now apply hb_inv_rep.
  - apply outcome_h; auto. apply hb_append_columnar_ok; auto. now destruct I. now apply hb_inv_rep.
Qed.

(* filter *)
Lemma matching_seq n p : matching n p = filter p (seq 0 n).
Proof. unfold matching, range. now rewrite Nat.sub_0_r. Qed.

Lemma filter_columnar h p : hb_inv h ->
  exists f, hb_filter_columnar h p = Ok f /\ hb_inv f /\ hb_layout f = hb_layout h
    /\ points_of (BH f) = map (fun i => nth i (points_of (BH h)) []) (filter p (seq 0 (hb_len h))).
Proof.
  intros I. pose proof (proj1 I) as G. pose proof (hb_inv_rep h I) as R. pose proof (points_len (BH h)) as PL. simpl in PL.
  unfold hb_filter_columnar.
  pose proof (hb_filter_columnar_into _ _ h _ _ p (Some (length (matching (hb_len h) p))) G R
     (hb_resize_rep _ G _ _ (hb_new_rep _ G) (length (matching (hb_len h) p)))) as F.
  rewrite PL in F. cbn [length] in F. rewrite firstn_nil, Nat.sub_0_r in F. cbn [app] in F. rewrite repeat_length in F.
  rewrite Nat.leb_refl in F. destruct F as (f & E & RF). now right.
  exists f. split; [exact E|]. split; [now apply (hb_rep_inv _ _ _ G RF)|]. split; [apply RF|].
  rewrite (points_of_columnar _ _ _ G RF), map_app. rewrite skipn_all2 by (rewrite repeat_length; lia).
  unfold kept. rewrite map_map, app_nil_r, PL, <- matching_seq. apply map_ext_in. intros i Hi. apply matching_In in Hi.
  rewrite <- (norm_points h I) at 2. destruct (nth_error_get (points_of (BH h)) i) as [r Hr]; [lia|].
  rewrite (nth_nth_error _ _ _ _ Hr). symmetry. apply nth_nth_error. now rewrite nth_error_map, Hr.
Qed.

Lemma mapi_repeat {A B} (f : nat -> A -> B) x n : mapi f (repeat x n) = map (fun k => f k x) (seq 0 n).
Proof.
  apply nth_error_ext. intros k. rewrite nth_error_mapi, nth_error_map, nth_error_seq.
  destruct (Nat.ltb_spec k n). now rewrite nth_error_repeat. rewrite nth_error_None_ge; auto. now rewrite repeat_length.
Qed.

Lemma filter_interleaved h p : hb_inv h ->
  exists f, hb_filter_interleaved h p = Ok f /\ vb_inv f /\ vb_layout f = hb_layout h
    /\ points_of (BV f) = map (fun i => nth i (points_of (BH h)) []) (filter p (seq 0 (hb_len h))).
Proof.
  intros I. pose proof (proj1 I) as G. pose proof (hb_inv_rep h I) as R. pose proof (points_len (BH h)) as PL. simpl in PL.
  unfold hb_filter_interleaved.
  pose proof (hb_filter_interleaved_into _ _ h _ _ p (Some (length (matching (hb_len h) p))) G R
     (vb_resize_rep _ G _ _ (vb_new_rep _) (length (matching (hb_len h) p)))) as F.
  rewrite PL in F. cbn [length] in F. rewrite firstn_nil, Nat.sub_0_r in F. cbn [app] in F. rewrite repeat_length in F.
  rewrite Nat.leb_refl in F. destruct F as (f & E & RF). now right.
  exists f. split; [exact E|]. split; [now apply (vb_rep_inv _ _ _ G RF)|]. split; [apply RF|].
  rewrite (points_of_v _ _ _ G RF). rewrite mapi_repeat. rewrite <- matching_seq.
  apply nth_error_ext. intros k. rewrite !nth_error_map, nth_error_seq.
  destruct (Nat.ltb_spec k (length (matching (hb_len h) p))).
  - cbn [option_map Nat.add]. destruct (nth_error_get (matching (hb_len h) p) k) as [i Hi]; auto. rewrite Hi. cbn [option_map]. f_equal.
    pose proof (nth_error_In _ _ Hi) as IN. apply matching_In in IN.
    rewrite <- (norm_points h I) at 2. destruct (nth_error_get (points_of (BH h)) i) as [r Hr]; [lia|].
    rewrite (nth_nth_error _ _ _ _ Hr). symmetry. apply nth_nth_error. now rewrite nth_error_map, Hr.
  - now rewrite nth_error_None_ge.
Qed.

Lemma filter_into_columnar h t p hint : hb_inv h -> hb_inv t ->
  (hint = None \/ hint = Some (length (filter p (seq 0 (hb_len h))))) ->
  let matches := filter p (seq 0 (hb_len h)) in
  if layout_eqb (hb_layout t) (hb_layout h) && Nat.leb (length matches) (hb_len t)
  then exists t', hb_filter_into_columnar h t p hint = Ok t' /\ hb_inv t' /\ hb_layout t' = hb_layout t /\ hb_len t' = hb_len t
         /\ points_of (BH t') = map (fun i => nth i (points_of (BH h)) []) matches ++ skipn (length matches) (points_of (BH t))
  else hb_filter_into_columnar h t p hint = Panic.
Proof.
  intros I J HH. pose proof (proj1 I) as G. pose proof (hb_inv_rep h I) as R. pose proof (hb_inv_rep t J) as RT.
  pose proof (points_len (BH h)) as PL. pose proof (points_len (BH t)) as PLT. simpl in PL, PLT. cbv zeta.
  rewrite <- !matching_seq in *.
  destruct (layout_eqb (hb_layout t) (hb_layout h)) eqn:EL.
  2: { unfold hb_filter_into_columnar. rewrite EL. reflexivity. }
  apply layout_eqb_eq in EL. rewrite EL in RT.
  pose proof (hb_filter_columnar_into _ _ h _ _ p hint G R RT) as F. rewrite PL, PLT in F. specialize (F HH). cbn [andb].
  destruct (Nat.leb_spec (length (matching (hb_len h) p)) (hb_len t)); auto.
  destruct F as (t' & E & RF). exists t'. split; [exact E|]. split; [now apply (hb_rep_inv _ _ _ G RF)|].
  pose proof RF as (H1 & H2 & _). split; [congruence|]. split.
  { rewrite H2, app_length, skipn_length. unfold kept. rewrite map_length, PL, PLT. lia. }
  rewrite (points_of_columnar _ _ _ G RF), map_app. f_equal.
  - unfold kept. rewrite map_map, PL. apply map_ext_in. intros i Hi. apply matching_In in Hi.
    rewrite <- (norm_points h I) at 2. destruct (nth_error_get (points_of (BH h)) i) as [r Hr]; [lia|].
    rewrite (nth_nth_error _ _ _ _ Hr). symmetry. apply nth_nth_error. now rewrite nth_error_map, Hr.
  - rewrite <- skipn_map. rewrite <- EL. now rewrite norm_points.
Qed.

Lemma filter_into_interleaved h t p hint : hb_inv h -> vb_inv t ->
  (hint = None \/ hint = Some (length (filter p (seq 0 (hb_len h))))) ->
  let matches := filter p (seq 0 (hb_len h)) in
  if layout_eqb (vb_layout t) (hb_layout h) && Nat.leb (length matches) (vb_len t)
  then exists t', hb_filter_into_interleaved h t p hint = Ok t' /\ vb_inv t' /\ vb_layout t' = vb_layout t /\ vb_len t' = vb_len t
         /\ points_of (BV t') = mapi (fun k r => match nth_error matches k with
                                                 | Some i => overlay (hb_layout h) (nth i (points_of (BH h)) []) r
                                                 | None => r end) (points_of (BV t))
  else hb_filter_into_interleaved h t p hint = Panic.
Proof.
  intros I J HH. pose proof (proj1 I) as G. pose proof (hb_inv_rep h I) as R. pose proof (vb_rep_points t J) as RT.
  pose proof (points_len (BH h)) as PL. pose proof (points_len (BV t)) as PLT. simpl in PL, PLT. cbv zeta.
  rewrite <- !matching_seq in *.
  destruct (layout_eqb (vb_layout t) (hb_layout h)) eqn:EL.
  2: { unfold hb_filter_into_interleaved. rewrite EL. reflexivity. }
  apply layout_eqb_eq in EL. rewrite EL in RT.
  pose proof (hb_filter_interleaved_into _ _ h _ _ p hint G R RT) as F. rewrite PL, PLT in F. specialize (F HH). cbn [andb].
  destruct (Nat.leb_spec (length (matching (hb_len h) p)) (vb_len t)); auto.
  destruct F as (t' & E & RF). exists t'. split; [exact E|]. split; [now apply (vb_rep_inv _ _ _ G RF)|].
  pose proof RF as (H1 & H2 & H3 & H4). split; [congruence|]. split.
  { rewrite H4, length_mapi, PLT. reflexivity. }
  exact (points_of_v _ _ _ G RF).
Qed.

(* collect *)
Lemma vb_collect l pts : good_layout l -> uniform (l_size l) pts ->
  (exists b, vb_from_iter l None pts = Ok b /\ vb_layout b = l /\ vb_inv b /\ points_of (BV b) = pts)
  /\ forall n, length pts <= n ->
     exists b, vb_from_iter l (Some n) pts = Ok b /\ vb_layout b = l /\ vb_inv b
               /\ points_of (BV b) = pts ++ repeat (repeat 0%Z (l_size l)) (n - length pts).
Proof.
  intros G U. split.
  - destruct (vb_push_all l pts G U [] (mk_vbuf [] l 0) (vb_new_rep l)) as (b & E & R). exists b. split; [exact E|].
    split; [apply R|]. split; [now apply (vb_rep_inv _ _ _ G R)|]. exact (points_of_v _ _ _ G R).
  - intros n L. destruct (vb_from_iter_known l pts n G U L) as (b & E & R). exists b. split; [exact E|].
    split; [apply R|]. split; [now apply (vb_rep_inv _ _ _ G R)|]. exact (points_of_v _ _ _ G R).
Qed.

Lemma vb_collect_exact l pts : good_layout l -> uniform (l_size l) pts ->
  forall hint, hint = None \/ hint = Some (length pts) ->
  exists b, vb_from_iter l hint pts = Ok b /\ vb_layout b = l /\ vb_inv b /\ points_of (BV b) = pts.
Proof.
  intros G U hint [->| ->]; destruct (vb_collect l pts G U) as (A & B); auto.
  destruct (B (length pts)) as (b & E & L & I & P); auto. exists b. rewrite Nat.sub_diag, app_nil_r in P. auto.
Qed.

Lemma hb_collect l pts : good_layout l -> uniform (l_size l) pts ->
  exists b, hb_from_iter l pts = Ok b /\ hb_layout b = l /\ hb_inv b /\ points_of (BH b) = map (norm l) pts.
Proof.
  intros G U. destruct (hb_push_all l pts G U [] (hb_new l) (hb_new_rep l G)) as (b & E & R). exists b. split; [exact E|].
  split; [apply R|]. split; [now apply (hb_rep_inv _ _ _ G R)|]. exact (points_of_columnar _ _ _ G R).
Qed.

(* ------------------------------------------------------------------ panics *)

Lemma root_panic l recs b o : good_layout l -> root_rep l recs b -> op_ok l (length recs) o ->
  match o with OSetPoint _ _ | OSetPointRange _ _ _ | OSetAttribute _ _ _ | OSetAttributeRange _ _ _ _ | OSwap _ _ => True | _ => False end ->
  spec_step l recs o = None -> mb_step b o = Panic.
Proof.
  intros G R OK K ES. destruct b as [v|h|e|]; simpl in R; [| | |contradiction].
  - pose proof (vb_step_ok l recs v o G R OK) as O. rewrite ES in O. unfold outcome in O.
    destruct o; simpl in *; try contradiction; now rewrite O.
  - pose proof (hb_step_ok l recs h o G R OK) as O. rewrite ES in O. unfold outcome in O.
    destruct o; simpl in *; try contradiction; now rewrite O.
  - pose proof (vb_step_ok l recs (as_vector e) o G R OK) as O. rewrite ES in O.
    destruct (external_writes e) as (W1 & W2 & W3 & W4 & W5).
    destruct o; simpl in K; try contradiction; cbn [mb_step mb_set_point mb_set_point_range mb_set_attribute mb_set_attribute_range mb_swap].
    + now rewrite (same_effect_outcome l _ _ _ (W1 i data) O).
    + now rewrite (same_effect_outcome l _ _ _ (W2 s e0 data) O).
    + now rewrite (same_effect_outcome l _ _ _ (W3 a i data) O).
    + now rewrite (same_effect_outcome l _ _ _ (W4 a s e0 data) O).
    + now rewrite (same_effect_outcome l _ _ _ (W5 i j) O).
Qed.

Lemma base_facts b : mb_base b -> mb_wf b -> good_layout (mb_layout b) /\ root_rep (mb_layout b) (mb_points b) b
  /\ length (mb_points b) = mb_len b.
Proof.
  intros B W. split; [now apply wf_good|]. split; [now apply root_rep_points|]. unfold mb_points, bf_points.
  rewrite map_length, seq_length. reflexivity.
Qed.

Lemma out_of_range_panics b : mb_base b -> mb_wf b ->
  let l := mb_layout b in let n := mb_len b in
  (forall i d, n <= i -> length d = l_size l -> mb_get_point b i d = Panic /\ mb_set_point b i d = Panic)
  /\ (forall s e d, s < e -> n < e -> length d = (e - s) * l_size l ->
        mb_get_point_range b s e d = Panic /\ mb_set_point_range b s e d = Panic)
  /\ (forall a i d, n <= i \/ member_of l a = None -> length d = dt_size (ad_type a) ->
        mb_get_attribute b a i d = Panic /\ mb_set_attribute b a i d = Panic)
  /\ (forall a s e d, s < e -> n < e \/ member_of l a = None -> length d = (e - s) * dt_size (ad_type a) ->
        mb_get_attribute_range b a s e d = Panic /\ mb_set_attribute_range b a s e d = Panic)
  /\ (forall i j, n <= i \/ n <= j -> mb_swap b i j = Panic).
Proof.
  intros B W. cbv zeta. destruct (base_facts b B W) as (G & R & PL).
  pose proof (bf_wf_reads_all (Of b) W B) as (_ & RP & RR & RA & RX). change (bf_points (Of b)) with (mb_points b) in *.
  change (bf_layout (Of b)) with (mb_layout b) in *. rewrite PL in *.
  pose proof (fun o => root_panic _ _ b o G R) as P. rewrite PL in P. rewrite <- !PL.
  split; [|split; [|split; [|split]]].
  - intros i d L Ld. split.
    + specialize (RP i d Ld). rewrite nth_error_None_ge in RP by lia. exact RP.
    + apply (P (OSetPoint i d)); simpl; auto. now destruct (Nat.ltb_spec i (length (mb_points b))); [lia|].
  - intros s e d L1 L2 Ld. rewrite PL in L2. split.
    + specialize (RR s e d). rewrite (proj2 (Nat.leb_gt _ _) L2) in RR. apply RR; auto. now left.
    + apply (P (OSetPointRange s e d)); simpl; auto. split; auto. now left. rewrite PL. now rewrite (proj2 (Nat.leb_gt _ _) L2).
  - intros a i d L Ld. split.
    + specialize (RA a i d Ld). destruct (member_of (mb_layout b) a); auto. destruct L; [|discriminate].
      rewrite nth_error_None_ge in RA by lia. exact RA.
    + apply (P (OSetAttribute a i d)); simpl; auto. destruct (member_of (mb_layout b) a); auto. destruct L; [|discriminate].
      now destruct (Nat.ltb_spec i (length (mb_points b))); [lia|].
  - intros a s e d L0 L Ld. rewrite PL in L. split.
    + specialize (RX a s e d). destruct (member_of (mb_layout b) a); [|apply RX; auto; now left]. destruct L as [L|]; [|discriminate].
      rewrite (proj2 (Nat.leb_gt _ _) L) in RX. apply RX; auto. now left.
    + apply (P (OSetAttributeRange a s e d)); simpl; auto. split; auto. now left.
      destruct (member_of (mb_layout b) a); auto. destruct L as [L|]; [|discriminate]. rewrite PL. now rewrite (proj2 (Nat.leb_gt _ _) L).
  - intros i j L. apply (P (OSwap i j)); simpl; auto.
    destruct (Nat.ltb_spec i (length (mb_points b))), (Nat.ltb_spec j (length (mb_points b))); auto; lia.
Qed.

(* the loop with states agrees with the loop *)
Lemma foldM_state_spec {A S} (f : S -> A -> res S) l : forall s,
  match foldM f l s with Ok s' => foldM_state f l s = (true, s') | _ => fst (foldM_state f l s) = false end.
Proof.
  induction l as [|a l IH]; intros s; simpl; auto. destruct (f s a) as [s'| |]; simpl; auto. apply IH.
Qed.
Lemma vb_set_attribute_range_state_spec b a m s e data : member_of (vb_layout b) a = Some m ->
  match vb_set_attribute_range b a s e data with
  | Ok b' => vb_set_attribute_range_state b m s e data = (true, b')
  | _ => fst (vb_set_attribute_range_state b m s e data) = false
  end.
Proof.
  intros Hm. unfold vb_set_attribute_range, vb_set_attribute_range_state.
  change (get_attribute (vb_layout b) a) with (member_of (vb_layout b) a). rewrite Hm. cbn [unwrap bind].
  match goal with |- context [foldM ?f ?l ?s] => pose proof (foldM_state_spec f l s) as F; destruct (foldM f l s) end; cbn [bind].
  - now rewrite F. - exact F. - exact F.
Qed.

(* ------------------------------------------------------------------ swap, slices, views *)

Lemma swap_involution b i j : mb_wf b -> i < mb_len b -> j < mb_len b ->
  exists b' b'', mb_swap b i j = Ok b' /\ mb_swap b' i j = Ok b'' /\ mb_points b'' = mb_points b.
Proof.
  intros W Hi Hj. destruct (swap_points b i j W Hi Hj) as (b' & E & W' & L & N & P).
  destruct (swap_points b' i j W') as (b'' & E' & W'' & L' & N' & P'); try lia.
  exists b', b''. split; [exact E|]. split; [exact E'|]. rewrite P', P. apply exchange_twice.
Qed.
Lemma swap_same b i : mb_wf b -> i < mb_len b -> exists b', mb_swap b i i = Ok b' /\ mb_points b' = mb_points b.
Proof.
  intros W Hi. destruct (swap_points b i i W Hi Hi) as (b' & E & W' & L & N & P). exists b'. split; auto. rewrite P. apply exchange_same.
Qed.

Lemma sub_slice_ok s e i j : i <= j -> j < e - s -> sub_slice_range s e i j = Ok (s + i, s + j).
Proof.
  intros L1 L2. unfold sub_slice_range. destruct (Nat.ltb_spec i (e - s)); [|lia]. destruct (Nat.ltb_spec j (e - s)); [|lia].
  cbn [assert bind]. now destruct (Nat.ltb_spec j i); [lia|].
Qed.

Lemma slice_mut_points b s e : mb_wf b -> s <= e -> e <= mb_len b -> mb_points (SliceMutB b s e) = sub (mb_points b) s (e - s).
Proof.
  intros W L1 L2. assert (W' : mb_wf (SliceMutB b s e)) by (simpl; auto).
  rewrite (mb_points_root _ W'), (mb_points_root b W). unfold window. cbn [mb_root mb_off mb_len].
  symmetry. rewrite sub_sub by lia. reflexivity.
Qed.

Lemma slice_of b i j : bf_wf b -> i <= j -> j < bf_len b \/ (exists m, b = Of m /\ mb_base m) /\ j <= bf_len b ->
  exists c, bf_slice b i j = Ok c /\ bf_wf c /\ bf_len c = j - i /\ bf_points c = sub (bf_points b) i (j - i).
Proof.
  intros W L H. destruct b as [m|b s e].
  - assert (BASE : mb_base m -> j <= mb_len m -> exists c, bf_slice (Of m) i j = Ok c /\ bf_wf c /\ bf_len c = j - i
        /\ bf_points c = sub (bf_points (Of m)) i (j - i)).
    { intros B L2. exists (SliceB (Of m) i j). split. { destruct m; auto; contradiction. } split; [simpl; auto|]. split; [reflexivity|].
      now apply slice_points. }
    simpl in H. assert (LE : j <= mb_len m) by (destruct H as [|[_ H]]; lia).
    destruct m as [v|h|e|m s e]; try (now apply BASE; simpl; auto).
    destruct H as [H|[(m' & [= <-] & []) _]]. unfold bf_slice. cbn [mb_len] in H. rewrite sub_slice_ok by auto. cbn [bind fst snd].
    destruct W as (W & W1 & W2). exists (SliceB (Of m) (s + i) (s + j)). split; [reflexivity|].
    split; [simpl; repeat split; auto; lia|]. split; [simpl; lia|].
    rewrite slice_points by (simpl; auto; lia). change (bf_points (Of (SliceMutB m s e))) with (mb_points (SliceMutB m s e)).
    rewrite slice_mut_points by auto. rewrite sub_sub by lia. now replace (s + j - (s + i)) with (j - i) by lia.
  - destruct H as [H|[(m' & [=] & _) _]]. unfold bf_slice. cbn [bf_len] in H. rewrite sub_slice_ok by auto. cbn [bind fst snd].
    destruct W as (W & W1 & W2). exists (SliceB b (s + i) (s + j)). split; [reflexivity|].
    split; [simpl; repeat split; auto; lia|]. split; [simpl; lia|].
    rewrite !slice_points by (auto; lia). rewrite sub_sub by lia. now replace (s + j - (s + i)) with (j - i) by lia.
Qed.

Lemma slice_mut_of b i j : mb_wf b -> i <= j -> j < mb_len b \/ mb_base b /\ j <= mb_len b ->
  exists c, mb_slice_mut b i j = Ok c /\ mb_wf c /\ mb_len c = j - i /\ mb_root c = mb_root b /\ mb_off c = mb_off b + i
            /\ mb_points c = sub (mb_points b) i (j - i).
Proof.
  intros W L H.
  assert (BASE : mb_base b -> exists c, mb_slice_mut b i j = Ok c /\ mb_wf c /\ mb_len c = j - i /\ mb_root c = mb_root b
            /\ mb_off c = mb_off b + i /\ mb_points c = sub (mb_points b) i (j - i)).
  { intros B. assert (LE : j <= mb_len b) by (destruct H as [|[_ H]]; lia). exists (SliceMutB b i j).
    split; [destruct b; auto; contradiction|]. split; [simpl; auto|]. split; [reflexivity|]. split; [reflexivity|].
    split; [reflexivity|]. now apply slice_mut_points. }
  destruct b as [v|h|e|b s e].
  4: { simpl in H. destruct H as [H|[[] _]]. unfold mb_slice_mut. rewrite sub_slice_ok by auto. cbn [bind fst snd].
    destruct W as (W & W1 & W2). exists (SliceMutB b (s + i) (s + j)). split; [reflexivity|].
    split; [simpl; repeat split; auto; lia|]. split; [simpl; lia|]. split; [reflexivity|]. split; [simpl; lia|].
    rewrite !slice_mut_points by (auto; lia). rewrite sub_sub by lia. now replace (s + j - (s + i)) with (j - i) by lia. }
  1-3: apply BASE; simpl; auto.
Qed.

Lemma bf_attr b m i r d : bf_wf b -> In m (l_attrs (bf_layout b)) -> nth_error (bf_points b) i = Some r -> length d = m_size m ->
  bf_get_attribute b (m_def m) i d = Ok (attr_value m r) /\ bf_get_attribute_unchecked b m i d = Ok (attr_value m r).
Proof. intros W Hm Hr Hd. destruct (bf_wf_reads b W) as (_ & _ & _ & RA & _). now apply RA. Qed.

Lemma view_at b m i : bf_wf b -> In m (l_attrs (bf_layout b)) -> i < bf_len b ->
  attribute_view_at b (m_def m) (m_type m) i = bf_get_attribute b (m_def m) i (repeat 0%Z (m_size m))
  /\ attribute_view_at b (m_def m) (m_type m) i = Ok (attr_value m (nth i (bf_points b) [])).
Proof.
  intros W Hm Hi. destruct (bf_wf_root b W) as (_ & _ & _ & G). destruct (good_member _ _ G Hm) as (Z0 & ZS & _).
  destruct (bf_points_uniform b W) as (U & UL).
  destruct (nth_error_get (bf_points b) i) as [r Hr]; [lia|].
  unfold attribute_view_at, attribute_view.
  assert (DE : datatype_eqb (m_type m) (ad_type (m_def m)) = true) by now apply datatype_eqb_eq.
  rewrite DE. cbn [assert bind]. change (get_attribute (bf_layout b) (m_def m)) with (member_of (bf_layout b) (m_def m)).
  rewrite (member_of_In _ _ G Hm). cbn [unwrap bind].
  change (dt_size (m_type m)) with (dt_size (ad_type (m_def m))). rewrite <- ZS.
  destruct (bf_attr b m i r (repeat 0%Z (m_size m)) W Hm Hr) as (E1 & E2). { now rewrite repeat_length. }
  rewrite E1, E2. rewrite (nth_nth_error _ _ _ _ Hr). auto.
Qed.

Lemma view_panics b a t i : bf_wf b -> t <> ad_type a \/ member_of (bf_layout b) a = None -> attribute_view_at b a t i = Panic.
Proof.
  intros W H. unfold attribute_view_at, attribute_view. destruct (datatype_eqb t (ad_type a)) eqn:E; auto. cbn [assert bind].
  apply datatype_eqb_eq in E. change (get_attribute (bf_layout b) a) with (member_of (bf_layout b) a).
  destruct H as [H|H]; [contradiction|]. now rewrite H.
Qed.

Lemma view_set_at b m i v : mb_wf b -> In m (l_attrs (mb_layout b)) -> i < mb_len b -> length v = m_size m ->
  exists b', attribute_view_set_at b (m_def m) (m_type m) i v = Ok b' /\ mb_wf b' /\ mb_layout b' = mb_layout b /\ mb_len b' = mb_len b
    /\ attribute_view_at (Of b') (m_def m) (m_type m) i = Ok v
    /\ forall m' j, In m' (l_attrs (mb_layout b)) -> j < mb_len b -> m' <> m \/ j <> i ->
         attribute_view_at (Of b') (m_def m') (m_type m') j = attribute_view_at (Of b) (m_def m') (m_type m') j.
Proof.
  intros W Hm Hi Hv. pose proof (wf_good b W) as G. 
  destruct (frame_set_attribute b m i v W Hm Hi Hv) as (b' & E & W' & L & N & F).
  exists b'. unfold attribute_view_set_at, attribute_view.
  assert (DE : datatype_eqb (m_type m) (ad_type (m_def m)) = true) by now apply datatype_eqb_eq.
  rewrite DE. cbn [assert bind]. change (get_attribute (mb_layout b) (m_def m)) with (member_of (mb_layout b) (m_def m)).
  rewrite (member_of_In _ _ G Hm). cbn [unwrap bind]. split; [exact E|]. split; [auto|]. split; [auto|]. split; [auto|]. split.
  - destruct (view_at (Of b') m i) as (V & _); simpl; auto; try congruence. rewrite V. simpl.
    rewrite F by (auto; now rewrite repeat_length). now rewrite Nat.eqb_refl, attr_def_eqb_refl.
  - intros m' j Hm' Hj D. destruct (view_at (Of b') m' j) as (V & _); simpl; auto; try congruence. rewrite V.
    destruct (view_at (Of b) m' j) as (V' & _); simpl; auto. rewrite V'. simpl.
    rewrite F by (auto; now rewrite repeat_length).
    destruct (Nat.eqb_spec j i); auto. destruct (attr_def_eqb (m_def m') (m_def m)) eqn:EQ; auto.
    apply attr_def_eqb_eq in EQ. destruct D; [|contradiction]. exfalso. eapply H. eapply good_def_inj; eauto.
Qed.

Lemma map_seq_nth {A} (l : list A) d : map (fun i => nth i l d) (seq 0 (length l)) = l.
Proof.
  apply nth_error_ext. intros k. rewrite nth_error_map, nth_error_seq. destruct (Nat.ltb_spec k (length l)).
  - simpl. symmetry. now apply nth_error_nth'.
  - now rewrite nth_error_None_ge.
Qed.

Lemma view_iterates b m : bf_wf b -> In m (l_attrs (bf_layout b)) ->
  iter_collect (S (bf_len b)) (bf_len b) (attribute_view_at b (m_def m) (m_type m)) 0 = Ok (map (attr_value m) (bf_points b)).
Proof.
  intros W Hm. rewrite (collect_all (bf_len b) _ (fun i => attr_value m (nth i (bf_points b) []))); try lia.
  - rewrite Nat.sub_0_r. rewrite <- (map_map (fun i => nth i (bf_points b) []) (attr_value m)).
    destruct (bf_points_uniform b W) as (_ & <-). now rewrite map_seq_nth.
  - intros i Hi. now apply view_at.
Qed.

Lemma point_view_facts b : bf_wf b ->
  (forall i, i < bf_len b -> point_view_at b (bf_layout b) i = Ok (nth i (bf_points b) []))
  /\ iter_collect (S (bf_len b)) (bf_len b) (point_view_at b (bf_layout b)) 0 = Ok (bf_points b)
  /\ (forall tl i, tl <> bf_layout b -> point_view_at b tl i = Panic).
Proof.
  intros W. assert (P : forall i, i < bf_len b -> point_view_at b (bf_layout b) i = Ok (nth i (bf_points b) [])).
  { intros i Hi. unfold point_view_at. assert (LE : layout_eqb (bf_layout b) (bf_layout b) = true) by now apply layout_eqb_eq.
    rewrite LE. cbn [assert bind]. unfold bf_points.
    destruct (bf_wf_reads b W) as (RL & RP & _). destruct (nth_error_get (bf_points b) i) as [r Hr]; [lia|].
    rewrite (RP i r _ (repeat_length _ _) Hr). f_equal. symmetry. apply nth_nth_error. rewrite nth_error_map, nth_error_seq.
    destruct (Nat.ltb_spec i (bf_len b)); [|lia]. simpl. now rewrite (RP i r _ (repeat_length _ _) Hr). }
  split; [exact P|]. split.
  - rewrite (collect_all (bf_len b) _ (fun i => nth i (bf_points b) [])); try lia; auto.
    rewrite Nat.sub_0_r. destruct (bf_points_uniform b W) as (_ & <-). now rewrite map_seq_nth.
  - intros tl i H. unfold point_view_at. destruct (layout_eqb tl (bf_layout b)) eqn:E; auto. apply layout_eqb_eq in E. contradiction.
Qed.

Lemma point_view_set b i v : mb_wf b -> i < mb_len b -> length v = l_size (mb_layout b) ->
  exists b', point_view_set_at b (mb_layout b) i v = Ok b' /\ mb_wf b' /\ mb_layout b' = mb_layout b
             /\ mb_points b' = set_nth i (stored b v) (mb_points b).
Proof.
  intros W Hi Hv. destruct (mb_write b (OSetPoint i v) W) as (b' & pts' & E & W' & S & EL & EN & EO & ES & EP & _).
  { simpl; auto. }
  exists b'. unfold point_view_set_at. assert (LE : layout_eqb (mb_layout b) (mb_layout b) = true) by now apply layout_eqb_eq.
  rewrite LE. cbn [assert bind]. split; [exact E|]. split; [auto|]. split; [auto|]. rewrite EP. cbn [spec_step] in ES.
  destruct (Nat.ltb i (length (mb_points b))); [|discriminate]. injection ES as <-. rewrite map_set_nth. now rewrite stored_points.
Qed.

(* iterating by reference and by mutable reference *)
Lemma iter_ref {T} (items : list T) :
  iter_collect (S (length items)) (length items) (item_ref items) 0 = Ok items
  /\ forall cur n, cur + n <= length items ->
       iter_nth (length items) (item_ref items) cur n
       = Ok (nth_error items (cur + n), if Nat.ltb (cur + n) (length items) then cur + n + 1 else cur + n).
Proof.
  split.
  - destruct items as [|x0 items]; auto. set (it := x0 :: items).
    rewrite (collect_all (length it) _ (fun i => nth i it x0)); try lia.
    + rewrite Nat.sub_0_r. now rewrite map_seq_nth.
    + intros i Hi. unfold item_ref. now rewrite (nth_error_nth' it x0 Hi).
  - intros cur n L. unfold iter_nth, iter_next. destruct (Nat.eqb_spec (cur + n) (length items)).
    + rewrite nth_error_None_ge by lia. now destruct (Nat.ltb_spec (cur + n) (length items)); [lia|].
    + destruct (Nat.ltb_spec (cur + n) (length items)); [|lia]. unfold item_ref.
      destruct (nth_error_get items (cur + n)) as [x Hx]; auto. now rewrite Hx.
Qed.

Lemma sorted_result b cmp : mb_wf b -> mb_columnar b = false -> total_preorder cmp ->
  exists b', point_view_sort_by b (mb_layout b) cmp = Ok b' /\ mb_wf b' /\ mb_layout b' = mb_layout b
    /\ Permutation (mb_points b) (mb_points b') /\ StronglySorted (le_of cmp) (mb_points b')
    /\ stable_rearrangement cmp (mb_points b) (mb_points b')
    /\ mb_len (mb_root b') = mb_len (mb_root b)
    /\ (forall q, q < mb_off b \/ mb_off b + mb_len b <= q ->
          nth_error (mb_points (mb_root b')) q = nth_error (mb_points (mb_root b)) q).
Proof.
  intros W NC TP. destruct (sort_points b cmp W NC) as (b' & E & W' & L & N & P & LL & OUT).
  exists b'. split; [exact E|]. split; [auto|]. split; [auto|]. rewrite P.
  split; [apply sort_perm|]. split; [now apply sort_sorted|]. split; [now apply sort_stable|]. auto.
Qed.

(* ------------------------------------------------------------------ both buffers *)

Lemma interchangeable l ops : good_layout l -> history_ok l [] ops ->
  (foldM vb_step ops (vb_new l) = Panic /\ foldM hb_step ops (hb_new l) = Panic)
  \/ exists v h, foldM vb_step ops (vb_new l) = Ok v /\ foldM hb_step ops (hb_new l) = Ok h
       /\ vb_layout v = hb_layout h /\ vb_len v = hb_len h
       /\ (forall a i d, length d = dt_size (ad_type a) -> vb_get_attribute v a i d = hb_get_attribute h a i d)
       /\ (forall a s e d, range_ok (vb_len v) s e -> length d = (e - s) * dt_size (ad_type a) ->
             vb_get_attribute_range v a s e d = hb_get_attribute_range h a s e d).
Proof.
  intros G HO. pose proof (vb_history l ops G HO) as V. pose proof (hb_history l ops G HO) as H.
  destruct (spec_run l [] ops) as [recs|]; [right|left; auto].
  destruct V as (v & EV & LV & (NV & _ & _ & AV & XV)). destruct H as (h & EH & LH & (NH & _ & _ & AH & XH) & _).
  exists v, h. split; [exact EV|]. split; [exact EH|]. split; [congruence|]. split; [congruence|]. split.
  - intros a i d Hd. rewrite AV, AH by auto. now rewrite LV, LH.
  - intros a s e d R Hd. rewrite XV, XH by (auto; congruence). now rewrite LV, LH.
Qed.

Lemma external_spec mem l : good_layout l ->
  (length mem mod l_size l <> 0 -> eb_new mem l = Panic)
  /\ (length mem mod l_size l = 0 -> exists e, eb_new mem l = Ok e /\ eb_len e * l_size l = length mem
        /\ eb_layout e = l /\ eb_mem e = mem /\ vb_inv (as_vector e)).
Proof.
  intros G. pose proof (eb_new_spec mem l G) as E. pose proof (good_size l G) as Z0. split; intros M.
  - unfold eb_new. destruct (Nat.eqb_spec (l_size l) 0); [lia|]. destruct (Nat.eqb_spec (length mem mod l_size l) 0); [lia|]. reflexivity.
  - destruct (eb_new mem l) as [e| |]; try contradiction. destruct E as (_ & E). exists e. auto.
Qed.

Lemma external_writes_sym e :
  let like (r : res ebuf) (r' : res vbuf) :=
    match r, r' with
    | Ok e', Ok v' => v' = mk_vbuf (eb_mem e') (eb_layout e') (eb_len e')
    | Err, Err | Panic, Panic => True
    | _, _ => False
    end in
  (forall i d, like (eb_set_point e i d) (vb_set_point (as_vector e) i d))
  /\ (forall s t d, like (eb_set_point_range e s t d) (vb_set_point_range (as_vector e) s t d))
  /\ (forall a i d, like (eb_set_attribute e a i d) (vb_set_attribute (as_vector e) a i d))
  /\ (forall a s t d, like (eb_set_attribute_range e a s t d) (vb_set_attribute_range (as_vector e) a s t d))
  /\ (forall i j, like (eb_swap e i j) (vb_swap (as_vector e) i j)).
Proof.
  cbv zeta. destruct (external_writes e) as (A & B & C & D & E).
  assert (X : forall r r', same_effect r r' -> match r, r' with
    | Ok e', Ok v' => v' = mk_vbuf (eb_mem e') (eb_layout e') (eb_len e')
    | Err, Err | Panic, Panic => True | _, _ => False end).
  { intros r r'. unfold same_effect. destruct r, r'; auto. }
  repeat split; intros; apply X; auto.
Qed.
