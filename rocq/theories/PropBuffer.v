(* Property theorems about point buffers: C09 - C17, C20, C21. *)
From Coq Require Import String List ZArith Lia Bool Arith.
From Verif Require Import Base LayoutModel LayoutSpec BufferModel BufferSpec ListLemmas BufferSteps4 TraitModel TraitSpec
  TraitProofs2 TraitProofs3 BufferFacts BufferExamples.
Import ListNotations.

(* ---- C09 ---- *)
(* Every history on a new VectorBuffer ends in a buffer that reads as the list of points the specification of the
   operations yields, and panics exactly if the specification does. *)
Theorem C09_vector_buffer_is_a_list_of_points :
  forall (l : layout) (ops : list op), good_layout l -> history_ok l [] ops ->
  match spec_run l [] ops with
  | Some pts => exists b, foldM vb_step ops (vb_new l) = Ok b /\ vb_layout b = l /\ vb_reads_as b pts
  | None => foldM vb_step ops (vb_new l) = Panic
  end.
Proof. exact vb_history. Qed.
Print Assumptions C09_vector_buffer_is_a_list_of_points.

Definition ex_history : list op :=
  [OPush (firstn 72 ex_bytes); OResize 5; OSwap 0 4; OSetAttribute GPS_TIME 1 [9;9;9;9;9;9;9;9]%Z;
   OAppend (BH ex_map); OAppendColumnar ex_map; OAppendInterleaved ex_vec; OSetPoint 3 (firstn 24 ex_bytes);
   OSetPointRange 0 2 (firstn 48 ex_bytes); OSetAttributeRange INTENSITY 1 3 [7;8;7;8]%Z].
Example C09_nonvacuous : good_layout ex_layout /\ history_ok ex_layout [] ex_history
  /\ exists pts, spec_run ex_layout [] ex_history = Some pts /\ length pts = 20 /\ nth 2 pts [] <> repeat 0%Z 24.
Proof.
  split; [exact ex_layout_good|]. split.
  - unfold ex_history. cbn [history_ok]. repeat (split; [first [exact ex_map_inv | exact ex_vec_inv | exact I |
      (vm_compute; try split; try reflexivity; try (left; lia))]|]; match goal with |- match ?x with _ => _ end =>
      let v := eval vm_compute in x in change x with v; cbv iota end). exact I.
  - eexists. split; [vm_compute; reflexivity|]. split; [reflexivity|]. vm_compute. discriminate.
Qed.
(* a history that panics *)
Example C09_panics : history_ok ex_layout [] [OPush (firstn 24 ex_bytes); OSwap 0 1]
  /\ spec_run ex_layout [] [OPush (firstn 24 ex_bytes); OSwap 0 1] = None.
Proof. split; [simpl|]; vm_compute; auto. Qed.

(* ---- C10 ---- *)
Theorem C10_columnar_buffer_is_a_list_of_points :
  forall (l : layout) (ops : list op), good_layout l -> history_ok l [] ops ->
  match spec_run l [] ops with
  | Some pts => exists b, foldM hb_step ops (hb_new l) = Ok b /\ hb_layout b = l /\ hb_reads_as b pts
                  /\ (forall a column, In (a, column) (hb_map b) -> length column = hb_len b * dt_size (ad_type a))
  | None => foldM hb_step ops (hb_new l) = Panic
  end.
Proof. exact hb_history. Qed.
Print Assumptions C10_columnar_buffer_is_a_list_of_points.

(* hypotheses: C09_nonvacuous; the concrete run *)
Example C10_nonvacuous : exists b, foldM hb_step ex_history (hb_new ex_layout) = Ok b /\ hb_len b = 20.
Proof. eexists. split; vm_compute; reflexivity. Qed.

(* ---- C11 ---- *)
Theorem C11_same_history_same_attributes :
  forall (l : layout) (ops : list op), good_layout l -> history_ok l [] ops ->
  (foldM vb_step ops (vb_new l) = Panic /\ foldM hb_step ops (hb_new l) = Panic)
  \/ exists v h, foldM vb_step ops (vb_new l) = Ok v /\ foldM hb_step ops (hb_new l) = Ok h
       /\ vb_layout v = hb_layout h /\ vb_len v = hb_len h
       /\ (forall a i d, length d = dt_size (ad_type a) -> vb_get_attribute v a i d = hb_get_attribute h a i d)
       /\ (forall a s e d, range_ok (vb_len v) s e -> length d = (e - s) * dt_size (ad_type a) ->
             vb_get_attribute_range v a s e d = hb_get_attribute_range h a s e d).
Proof. exact interchangeable. Qed.
Print Assumptions C11_same_history_same_attributes.

Example C11_nonvacuous : exists v h, foldM vb_step ex_history (vb_new ex_layout) = Ok v
  /\ foldM hb_step ex_history (hb_new ex_layout) = Ok h
  /\ vb_get_attribute v GPS_TIME 1 (repeat 0%Z 8) = Ok [33;34;35;36;37;38;39;40]%Z
  /\ hb_get_attribute h GPS_TIME 1 (repeat 0%Z 8) = Ok [33;34;35;36;37;38;39;40]%Z.
Proof.
  eexists. eexists. split; [vm_compute; reflexivity|]. split; [vm_compute; reflexivity|]. split; vm_compute; reflexivity.
Qed.

(* ---- C12 ---- *)
(* For VectorBuffer, HashMapBuffer, ExternalMemoryBuffer and mutable slices of any of them. *)
Theorem C12_set_attribute_frame :
  forall (b : mbuf) (m : member) (i : nat) (v : list Z),
  mb_wf b -> In m (l_attrs (mb_layout b)) -> i < mb_len b -> length v = m_size m ->
  exists b', mb_set_attribute b (m_def m) i v = Ok b' /\ mb_wf b' /\ mb_layout b' = mb_layout b /\ mb_len b' = mb_len b
    /\ forall m' j d, In m' (l_attrs (mb_layout b)) -> j < mb_len b -> length d = m_size m' ->
         mb_get_attribute b' (m_def m') j d =
         if Nat.eqb j i && attr_def_eqb (m_def m') (m_def m) then Ok v else mb_get_attribute b (m_def m') j d.
Proof. exact frame_set_attribute. Qed.
Print Assumptions C12_set_attribute_frame.

Theorem C12_set_attribute_range_frame :
  forall (b : mbuf) (m : member) (s e : nat) (v : list Z),
  mb_wf b -> In m (l_attrs (mb_layout b)) -> s <= e -> e <= mb_len b -> length v = (e - s) * m_size m ->
  exists b', mb_set_attribute_range b (m_def m) s e v = Ok b' /\ mb_wf b' /\ mb_layout b' = mb_layout b /\ mb_len b' = mb_len b
    /\ forall m' j d, In m' (l_attrs (mb_layout b)) -> j < mb_len b -> length d = m_size m' ->
         mb_get_attribute b' (m_def m') j d =
         if (Nat.leb s j && Nat.ltb j e) && attr_def_eqb (m_def m') (m_def m) then Ok (sub v ((j - s) * m_size m) (m_size m))
         else mb_get_attribute b (m_def m') j d.
Proof. exact frame_set_attribute_range. Qed.
Print Assumptions C12_set_attribute_range_frame.

Theorem C12_set_point_frame :
  forall (b : mbuf) (i : nat) (p : list Z),
  mb_wf b -> i < mb_len b -> length p = l_size (mb_layout b) ->
  exists b', mb_set_point b i p = Ok b' /\ mb_wf b' /\ mb_layout b' = mb_layout b /\ mb_len b' = mb_len b
    /\ forall m j d, In m (l_attrs (mb_layout b)) -> j < mb_len b -> length d = m_size m ->
         mb_get_attribute b' (m_def m) j d =
         if Nat.eqb j i then Ok (attr_value m p) else mb_get_attribute b (m_def m) j d.
Proof. exact frame_set_point. Qed.
Print Assumptions C12_set_point_frame.

Theorem C12_set_point_range_frame :
  forall (b : mbuf) (s e : nat) (p : list Z),
  mb_wf b -> s <= e -> e <= mb_len b -> length p = (e - s) * l_size (mb_layout b) ->
  exists b', mb_set_point_range b s e p = Ok b' /\ mb_wf b' /\ mb_layout b' = mb_layout b /\ mb_len b' = mb_len b
    /\ forall m j d, In m (l_attrs (mb_layout b)) -> j < mb_len b -> length d = m_size m ->
         mb_get_attribute b' (m_def m) j d =
         if Nat.leb s j && Nat.ltb j e
         then Ok (attr_value m (sub p ((j - s) * l_size (mb_layout b)) (l_size (mb_layout b))))
         else mb_get_attribute b (m_def m) j d.
Proof. exact frame_set_point_range. Qed.
Print Assumptions C12_set_point_range_frame.

Example C12_nonvacuous : mb_wf (VecB ex_vec) /\ mb_wf (MapB ex_map) /\ mb_wf (ExtB ex_ext) /\ mb_wf ex_slice
  /\ In m_gps (l_attrs (mb_layout ex_slice)) /\ mb_len ex_slice = 2
  /\ exists b, mb_set_attribute ex_slice GPS_TIME 1 [9;9;9;9;9;9;9;9]%Z = Ok b
       /\ mb_get_attribute b GPS_TIME 1 (repeat 0%Z 8) = Ok [9;9;9;9;9;9;9;9]%Z
       /\ mb_get_attribute b GPS_TIME 0 (repeat 0%Z 8) = mb_get_attribute (VecB ex_vec) GPS_TIME 2 (repeat 0%Z 8).
Proof.
  split; [exact ex_vec_inv|]. split; [exact ex_map_inv|]. split; [exact ex_vec_inv|]. split; [exact ex_slice_wf|].
  split; [exact ex_gps|]. split; [reflexivity|]. eexists. split; [vm_compute; reflexivity|]. split; vm_compute; reflexivity.
Qed.

(* ---- C13 ---- *)
Theorem C13_swap_exchanges_two_points :
  forall (b : mbuf) (i j : nat), mb_wf b -> i < mb_len b -> j < mb_len b ->
  exists b', mb_swap b i j = Ok b' /\ mb_wf b' /\ mb_layout b' = mb_layout b /\ mb_len b' = mb_len b
    /\ mb_points b' = exchange i j (mb_points b).
Proof. exact swap_points. Qed.
Print Assumptions C13_swap_exchanges_two_points.

Theorem C13_swap_is_its_own_inverse :
  forall (b : mbuf) (i j : nat), mb_wf b -> i < mb_len b -> j < mb_len b ->
  exists b' b'', mb_swap b i j = Ok b' /\ mb_swap b' i j = Ok b'' /\ mb_points b'' = mb_points b.
Proof. exact swap_involution. Qed.
Print Assumptions C13_swap_is_its_own_inverse.

Theorem C13_swap_with_itself :
  forall (b : mbuf) (i : nat), mb_wf b -> i < mb_len b -> exists b', mb_swap b i i = Ok b' /\ mb_points b' = mb_points b.
Proof. exact swap_same. Qed.
Print Assumptions C13_swap_with_itself.

Theorem C13_swap_out_of_range_panics :
  forall (b : mbuf) (i j : nat), mb_base b -> mb_wf b -> mb_len b <= i \/ mb_len b <= j -> mb_swap b i j = Panic.
Proof. exact (fun b i j B W => proj2 (proj2 (proj2 (proj2 (out_of_range_panics b B W)))) i j). Qed.
Print Assumptions C13_swap_out_of_range_panics.

Example C13_nonvacuous : mb_wf (MapB ex_map) /\ mb_wf ex_slice
  /\ exists b, mb_swap (MapB ex_map) 0 4 = Ok b /\ nth 0 (mb_points b) [] = nth 4 (mb_points (MapB ex_map)) []
  /\ nth 0 (mb_points b) [] <> nth 0 (mb_points (MapB ex_map)) [].
Proof.
  split; [exact ex_map_inv|]. split; [exact ex_slice_wf|]. eexists. split; [vm_compute; reflexivity|].
  split; vm_compute; [reflexivity|discriminate].
Qed.

(* ---- C14 ---- *)
Theorem C14_vector_resize :
  forall (v : vbuf) (n : nat), vb_inv v ->
  vb_inv (vb_resize v n) /\ vb_layout (vb_resize v n) = vb_layout v /\ vb_len (vb_resize v n) = n
  /\ points_of (BV (vb_resize v n))
     = firstn n (points_of (BV v)) ++ repeat (repeat 0%Z (l_size (vb_layout v))) (n - length (points_of (BV v))).
Proof. exact vb_resize_points. Qed.
Print Assumptions C14_vector_resize.

Theorem C14_columnar_resize :
  forall (h : hbuf) (n : nat), hb_inv h ->
  hb_inv (hb_resize h n) /\ hb_layout (hb_resize h n) = hb_layout h /\ hb_len (hb_resize h n) = n
  /\ points_of (BH (hb_resize h n))
     = firstn n (points_of (BH h)) ++ repeat (repeat 0%Z (l_size (hb_layout h))) (n - length (points_of (BH h))).
Proof. exact hb_resize_points. Qed.
Print Assumptions C14_columnar_resize.

Theorem C14_clear :
  forall (v : vbuf) (h : hbuf), vb_inv v -> hb_inv h ->
  vb_inv (vb_clear v) /\ vb_layout (vb_clear v) = vb_layout v /\ vb_len (vb_clear v) = 0 /\ points_of (BV (vb_clear v)) = []
  /\ hb_inv (hb_clear h) /\ hb_layout (hb_clear h) = hb_layout h /\ hb_len (hb_clear h) = 0 /\ points_of (BH (hb_clear h)) = [].
Proof. exact clear_points. Qed.
Print Assumptions C14_clear.

Example C14_nonvacuous : vb_inv ex_vec /\ hb_inv ex_map /\ vb_len (vb_resize ex_vec 7) = 7
  /\ nth 4 (points_of (BV (vb_resize ex_vec 7))) [] = skipn 96 ex_bytes
  /\ nth 6 (points_of (BV (vb_resize ex_vec 7))) [] = repeat 0%Z 24.
Proof. split; [exact ex_vec_inv|]. split; [exact ex_map_inv|]. split; [|split]; vm_compute; reflexivity. Qed.

(* ---- C15 ---- *)
(* A columnar target does not store the padding bytes between attributes; they read as zero. *)
Theorem C15_append_to_interleaved :
  forall (v : vbuf), vb_inv v ->
  let appended (o : anybuf) (r : res vbuf) :=
    if layout_eqb (vb_layout v) (any_layout o)
    then exists v', r = Ok v' /\ vb_inv v' /\ vb_layout v' = vb_layout v
           /\ points_of (BV v') = points_of (BV v) ++ points_of o
    else r = Panic in
  (forall o, any_inv o -> appended o (vb_append v o))
  /\ (forall w, vb_inv w -> appended (BV w) (vb_append_interleaved v w))
  /\ (forall h, hb_inv h -> appended (BH h) (vb_append_columnar v h)).
Proof.
  exact (fun v I => conj (fun o J => proj1 append_points v o I J)
                   (conj (fun w J => proj1 (proj2 append_points) v w I J)
                         (fun h J => proj1 (proj2 (proj2 append_points)) v h I J))).
Qed.
Print Assumptions C15_append_to_interleaved.

Theorem C15_append_to_columnar :
  forall (h : hbuf), hb_inv h ->
  let without_padding (r : list Z) := overlay (hb_layout h) r (repeat 0%Z (l_size (hb_layout h))) in
  let appended (o : anybuf) (r : res hbuf) :=
    if layout_eqb (hb_layout h) (any_layout o)
    then exists h', r = Ok h' /\ hb_inv h' /\ hb_layout h' = hb_layout h
           /\ points_of (BH h') = points_of (BH h) ++ map without_padding (points_of o)
    else r = Panic in
  (forall o, any_inv o -> appended o (hb_append h o))
  /\ (forall v, vb_inv v -> appended (BV v) (hb_append_interleaved h v))
  /\ (forall g, hb_inv g -> appended (BH g) (hb_append_columnar h g)).
Proof.
  exact (fun v I => conj (fun o J => proj1 (proj2 (proj2 (proj2 append_points))) v o I J)
                   (conj (fun w J => proj1 (proj2 (proj2 (proj2 (proj2 append_points)))) v w I J)
                         (fun h J => proj2 (proj2 (proj2 (proj2 (proj2 append_points)))) v h I J))).
Qed.
Print Assumptions C15_append_to_columnar.

Example C15_nonvacuous : vb_inv ex_vec /\ hb_inv ex_map /\ any_inv (BH ex_map)
  /\ layout_eqb (vb_layout ex_vec) (any_layout (BH ex_map)) = true
  /\ (exists v, vb_append ex_vec (BH ex_map) = Ok v /\ vb_len v = 10)
  /\ vb_append (vb_new (match from_attributes [INTENSITY] with Ok l => l | _ => layout_default end)) (BH ex_map) = Panic.
Proof.
  split; [exact ex_vec_inv|]. split; [exact ex_map_inv|]. split; [exact ex_map_inv|]. split; [vm_compute; reflexivity|].
  split; [eexists; split; vm_compute; reflexivity|vm_compute; reflexivity].
Qed.

(* ---- C16 ---- *)
Theorem C16_filter_columnar :
  forall (h : hbuf) (p : nat -> bool), hb_inv h ->
  exists f, hb_filter_columnar h p = Ok f /\ hb_inv f /\ hb_layout f = hb_layout h
    /\ points_of (BH f) = map (fun i => nth i (points_of (BH h)) []) (filter p (seq 0 (hb_len h))).
Proof. exact filter_columnar. Qed.
Print Assumptions C16_filter_columnar.

Theorem C16_filter_interleaved :
  forall (h : hbuf) (p : nat -> bool), hb_inv h ->
  exists f, hb_filter_interleaved h p = Ok f /\ vb_inv f /\ vb_layout f = hb_layout h
    /\ points_of (BV f) = map (fun i => nth i (points_of (BH h)) []) (filter p (seq 0 (hb_len h))).
Proof. exact filter_interleaved. Qed.
Print Assumptions C16_filter_interleaved.

(* num_matches_hint is None or, as it should be, the number of matches *)
Theorem C16_filter_into_columnar :
  forall (h t : hbuf) (p : nat -> bool) (hint : option nat), hb_inv h -> hb_inv t ->
  (hint = None \/ hint = Some (length (filter p (seq 0 (hb_len h))))) ->
  let matches := filter p (seq 0 (hb_len h)) in
  if layout_eqb (hb_layout t) (hb_layout h) && Nat.leb (length matches) (hb_len t)
  then exists t', hb_filter_into_columnar h t p hint = Ok t' /\ hb_inv t' /\ hb_layout t' = hb_layout t /\ hb_len t' = hb_len t
         /\ points_of (BH t') = map (fun i => nth i (points_of (BH h)) []) matches ++ skipn (length matches) (points_of (BH t))
  else hb_filter_into_columnar h t p hint = Panic.
Proof. exact filter_into_columnar. Qed.
Print Assumptions C16_filter_into_columnar.

(* into an interleaved target: the padding bytes of the target stay what they were *)
Theorem C16_filter_into_interleaved :
  forall (h : hbuf) (t : vbuf) (p : nat -> bool) (hint : option nat), hb_inv h -> vb_inv t ->
  (hint = None \/ hint = Some (length (filter p (seq 0 (hb_len h))))) ->
  let matches := filter p (seq 0 (hb_len h)) in
  if layout_eqb (vb_layout t) (hb_layout h) && Nat.leb (length matches) (vb_len t)
  then exists t', hb_filter_into_interleaved h t p hint = Ok t' /\ vb_inv t' /\ vb_layout t' = vb_layout t /\ vb_len t' = vb_len t
         /\ points_of (BV t') = mapi (fun k r => match nth_error matches k with
                                                 | Some i => overlay (hb_layout h) (nth i (points_of (BH h)) []) r
                                                 | None => r end) (points_of (BV t))
  else hb_filter_into_interleaved h t p hint = Panic.
Proof. exact filter_into_interleaved. Qed.
Print Assumptions C16_filter_into_interleaved.

Example C16_nonvacuous : hb_inv ex_map
  /\ filter Nat.odd (seq 0 (hb_len ex_map)) = [1; 3]
  /\ (exists f, hb_filter_columnar ex_map Nat.odd = Ok f /\ hb_len f = 2)
  /\ (exists f, hb_filter_interleaved ex_map Nat.odd = Ok f /\ vb_len f = 2)
  /\ (exists f, hb_filter_into_interleaved ex_map ex_vec Nat.odd None = Ok f
                /\ firstn 3 (vb_storage f) = [25; 26; 3]%Z)
  /\ hb_filter_into_columnar ex_map (hb_new ex_layout) Nat.odd None = Panic.
Proof.
  split; [exact ex_map_inv|]. split; [reflexivity|].
  split; [eexists; split; vm_compute; reflexivity|]. split; [eexists; split; vm_compute; reflexivity|].
  split; [eexists; split; vm_compute; reflexivity|]. vm_compute. reflexivity.
Qed.

(* ---- C17 ---- *)
(* Proved: collecting into a HashMapBuffer for every iterator, into a VectorBuffer for iterators whose size_hint has
   no upper bound or an exact one. Missing: iterators with an inexact upper bound; refuted below. *)
Theorem C17_collect_columnar_partial :
  forall (l : layout) (pts : list (list Z)), good_layout l -> Forall (fun p => length p = l_size l) pts ->
  exists b, hb_from_iter l pts = Ok b /\ hb_layout b = l /\ hb_inv b
    /\ points_of (BH b) = map (fun p => overlay l p (repeat 0%Z (l_size l))) pts.
Proof. exact hb_collect. Qed.
Print Assumptions C17_collect_columnar_partial.

Theorem C17_collect_interleaved_partial :
  forall (l : layout) (pts : list (list Z)), good_layout l -> Forall (fun p => length p = l_size l) pts ->
  forall upper, upper = None \/ upper = Some (length pts) ->
  exists b, vb_from_iter l upper pts = Ok b /\ vb_layout b = l /\ vb_inv b /\ points_of (BV b) = pts.
Proof. exact vb_collect_exact. Qed.
Print Assumptions C17_collect_interleaved_partial.

(* What happens for every other upper bound: zero points are added. *)
Theorem C17_collect_interleaved_inexact_partial :
  forall (l : layout) (pts : list (list Z)), good_layout l -> Forall (fun p => length p = l_size l) pts ->
  (exists b, vb_from_iter l None pts = Ok b /\ vb_layout b = l /\ vb_inv b /\ points_of (BV b) = pts)
  /\ forall n, length pts <= n ->
     exists b, vb_from_iter l (Some n) pts = Ok b /\ vb_layout b = l /\ vb_inv b
               /\ points_of (BV b) = pts ++ repeat (repeat 0%Z (l_size l)) (n - length pts).
Proof. exact vb_collect. Qed.
Print Assumptions C17_collect_interleaved_inexact_partial.

(* e.g. points.into_iter().filter(..) over two points of which one matches: size_hint is (0, Some(2)) *)
Theorem C17_collect_interleaved_refuted :
  exists (l : layout) (pts : list (list Z)) (upper : nat),
    good_layout l /\ Forall (fun p => length p = l_size l) pts /\ length pts <= upper
    /\ exists b, vb_from_iter l (Some upper) pts = Ok b /\ vb_len b <> length pts.
Proof.
  exists ex_layout, [firstn 24 ex_bytes], 2. split; [exact ex_layout_good|]. split; [repeat constructor|].
  split; [repeat constructor|]. eexists. split; [vm_compute; reflexivity|discriminate].
Qed.
Print Assumptions C17_collect_interleaved_refuted.

Example C17_nonvacuous : good_layout ex_layout
  /\ exists b, vb_from_iter ex_layout None [firstn 24 ex_bytes; skipn 96 ex_bytes] = Ok b /\ vb_len b = 2.
Proof. split; [exact ex_layout_good|]. eexists. split; vm_compute; reflexivity. Qed.

(* ---- C20 ---- *)
(* Proved: every access out of range, or to an attribute that the layout does not have, panics. Missing: that the
   buffer is not modified; refuted below for set_attribute_range. *)
Theorem C20_out_of_range_panics_partial :
  forall (b : mbuf), mb_base b -> mb_wf b ->
  let l := mb_layout b in let n := mb_len b in
  (forall i d, n <= i -> length d = l_size l -> mb_get_point b i d = Panic /\ mb_set_point b i d = Panic)
  /\ (forall s e d, s < e -> n < e -> length d = (e - s) * l_size l ->
        mb_get_point_range b s e d = Panic /\ mb_set_point_range b s e d = Panic)
  /\ (forall a i d, n <= i \/ member_of l a = None -> length d = dt_size (ad_type a) ->
        mb_get_attribute b a i d = Panic /\ mb_set_attribute b a i d = Panic)
  /\ (forall a s e d, s < e -> n < e \/ member_of l a = None -> length d = (e - s) * dt_size (ad_type a) ->
        mb_get_attribute_range b a s e d = Panic /\ mb_set_attribute_range b a s e d = Panic)
  /\ (forall i j, n <= i \/ n <= j -> mb_swap b i j = Panic).
Proof. exact out_of_range_panics. Qed.
Print Assumptions C20_out_of_range_panics_partial.

(* set_attribute_range(INTENSITY, 4..6, ..) on five points panics, but point 4 has been overwritten. The first part
   says that the model with the memory left behind agrees with the one without. *)
Theorem C20_unmodified_refuted :
  (forall b a m s e data, member_of (vb_layout b) a = Some m ->
     match vb_set_attribute_range b a s e data with
     | Ok b' => vb_set_attribute_range_state b m s e data = (true, b')
     | _ => fst (vb_set_attribute_range_state b m s e data) = false
     end)
  /\ exists b m s e data, vb_inv b /\ In m (l_attrs (vb_layout b)) /\ length data = (e - s) * m_size m
     /\ vb_set_attribute_range b (m_def m) s e data = Panic
     /\ points_of (BV (snd (vb_set_attribute_range_state b m s e data))) <> points_of (BV b).
Proof.
  split; [exact vb_set_attribute_range_state_spec|].
  exists ex_vec, m_intensity, 4, 6, [7;7;7;7]%Z. split; [exact ex_vec_inv|]. split; [exact ex_intensity|].
  split; [reflexivity|]. split; [vm_compute; reflexivity|]. vm_compute. discriminate.
Qed.
Print Assumptions C20_unmodified_refuted.

Example C20_nonvacuous : mb_base (MapB ex_map) /\ mb_wf (MapB ex_map) /\ mb_len (MapB ex_map) = 5
  /\ member_of (mb_layout (MapB ex_map)) POSITION_3D = None.
Proof. split; [exact I|]. split; [exact ex_map_inv|]. split; vm_compute; reflexivity. Qed.

(* ---- C21 ---- *)
Theorem C21_external_new :
  forall (mem : list Z) (l : layout), good_layout l ->
  (length mem mod l_size l <> 0 -> eb_new mem l = Panic)
  /\ (length mem mod l_size l = 0 -> exists e, eb_new mem l = Ok e /\ eb_len e * l_size l = length mem
        /\ eb_layout e = l /\ eb_mem e = mem /\ vb_inv (mk_vbuf (eb_mem e) (eb_layout e) (eb_len e))).
Proof. exact external_spec. Qed.
Print Assumptions C21_external_new.

Theorem C21_external_reads_like_vector :
  forall (e : ebuf), let v := mk_vbuf (eb_mem e) (eb_layout e) (eb_len e) in
  eb_get_point e = vb_get_point v /\ eb_get_point_range e = vb_get_point_range v
  /\ eb_get_attribute e = vb_get_attribute v /\ eb_get_attribute_range e = vb_get_attribute_range v.
Proof. exact external_reads. Qed.
Print Assumptions C21_external_reads_like_vector.

Theorem C21_external_writes_like_vector :
  forall (e : ebuf), let v := mk_vbuf (eb_mem e) (eb_layout e) (eb_len e) in
  let like (r : res ebuf) (r' : res vbuf) :=
    match r, r' with
    | Ok e', Ok v' => v' = mk_vbuf (eb_mem e') (eb_layout e') (eb_len e')
    | Err, Err | Panic, Panic => True
    | _, _ => False
    end in
  (forall i d, like (eb_set_point e i d) (vb_set_point v i d))
  /\ (forall s t d, like (eb_set_point_range e s t d) (vb_set_point_range v s t d))
  /\ (forall a i d, like (eb_set_attribute e a i d) (vb_set_attribute v a i d))
  /\ (forall a s t d, like (eb_set_attribute_range e a s t d) (vb_set_attribute_range v a s t d))
  /\ (forall i j, like (eb_swap e i j) (vb_swap v i j)).
Proof. exact external_writes_sym. Qed.
Print Assumptions C21_external_writes_like_vector.

Example C21_nonvacuous : eb_new ex_bytes ex_layout = Ok ex_ext /\ eb_new (0%Z :: ex_bytes) ex_layout = Panic
  /\ exists e, eb_swap ex_ext 0 4 = Ok e /\ firstn 2 (eb_mem e) = [97; 98]%Z.
Proof. split; [vm_compute; reflexivity|]. split; [vm_compute; reflexivity|]. eexists. split; vm_compute; reflexivity. Qed.
