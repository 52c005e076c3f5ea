(* Property theorems about slices, views, iterators, sorting and transform_attribute: C18, C19, C22 - C24. *)
From Coq Require Import String List ZArith Lia Bool Arith Permutation Sorted.
From Verif Require Import Base LayoutModel LayoutSpec BufferModel BufferSpec ListLemmas BufferSteps4 TraitModel TraitSpec
  TraitProofs2 TraitProofs3 BufferFacts BufferExamples.
Import ListNotations.

(* ---- C18 ---- *)
(* Proved: all reads of immutable slices, nested to any depth, over buffers that are not themselves mutable slices,
   including the panics; reads in range for all slices. Missing: that a read past the end of a mutable slice panics
   (refuted below, also C19), and that the full range of a slice can be sliced (refuted below). *)
Theorem C18_slice_reads_partial :
  forall (b : buffer) (s e : nat), bf_wf b -> bf_frozen b -> s <= e -> e <= bf_len b ->
  bf_reads_as (SliceB b s e) (sub (bf_points b) s (e - s)).
Proof.
  exact (fun b s e W F L1 L2 =>
    eq_ind _ (bf_reads_as (SliceB b s e)) (bf_wf_reads_all (SliceB b s e) (conj W (conj L1 L2)) F) _ (slice_points b s e W L1 L2)).
Qed.
Print Assumptions C18_slice_reads_partial.

Theorem C18_slice_reads_in_range_partial :
  forall (b : buffer) (s e : nat), bf_wf b -> s <= e -> e <= bf_len b ->
  bf_reads_within (SliceB b s e) (sub (bf_points b) s (e - s)).
Proof.
  exact (fun b s e W L1 L2 =>
    eq_ind _ (bf_reads_within (SliceB b s e)) (bf_wf_reads (SliceB b s e) (conj W (conj L1 L2))) _ (slice_points b s e W L1 L2)).
Qed.
Print Assumptions C18_slice_reads_in_range_partial.

Theorem C18_mutable_slice_reads_in_range_partial :
  forall (b : mbuf) (s e : nat), mb_wf b -> s <= e -> e <= mb_len b ->
  bf_reads_within (Of (SliceMutB b s e)) (sub (mb_points b) s (e - s)).
Proof.
  exact (fun b s e W L1 L2 =>
    eq_ind _ (bf_reads_within (Of (SliceMutB b s e))) (mb_wf_reads (SliceMutB b s e) (conj W (conj L1 L2))) _ (slice_mut_points b s e W L1 L2)).
Qed.
Print Assumptions C18_mutable_slice_reads_in_range_partial.

(* A slice of a slice composes the ranges; its end has to be smaller than the length of the slice. *)
Theorem C18_slice_of_slice_partial :
  forall (b : buffer) (i j : nat), bf_wf b -> i <= j ->
  j < bf_len b \/ (exists m, b = Of m /\ mb_base m) /\ j <= bf_len b ->
  exists c, bf_slice b i j = Ok c /\ bf_wf c /\ bf_len c = j - i /\ bf_points c = sub (bf_points b) i (j - i).
Proof. exact slice_of. Qed.
Print Assumptions C18_slice_of_slice_partial.

Theorem C18_full_range_refuted :
  exists b : buffer, bf_wf b /\ 0 < bf_len b /\ bf_slice b 0 (bf_len b) = Panic.
Proof.
  exists (SliceB (Of (VecB ex_vec)) 1 3). split; [|split; vm_compute; [lia|reflexivity]].
  split; [exact ex_vec_inv|]. vm_compute. lia.
Qed.
Print Assumptions C18_full_range_refuted.

(* reading point 2 of the mutable slice 2..4 reads point 4 of the parent *)
Theorem C18_mutable_slice_out_of_range_refuted :
  exists (b : mbuf) (i : nat) (d : list Z), mb_wf b /\ mb_len b <= i /\ length d = l_size (mb_layout b)
    /\ mb_get_point b i d <> Panic.
Proof.
  exists (SliceMutB (VecB ex_vec) 2 4), 2, (repeat 0%Z 24). split; [|split; [vm_compute; lia|split; [reflexivity|vm_compute; discriminate]]].
  split; [exact ex_vec_inv|]. vm_compute. lia.
Qed.
Print Assumptions C18_mutable_slice_out_of_range_refuted.

Example C18_nonvacuous :
  let b := SliceB (Of (MapB ex_map)) 1 5 in
  bf_wf b /\ bf_frozen b /\ bf_len b = 4
  /\ bf_get_attribute (SliceB b 1 3) INTENSITY 1 [0;0]%Z = Ok [73;74]%Z
  /\ bf_get_attribute (SliceB b 1 3) INTENSITY 2 [0;0]%Z = Panic.
Proof.
  cbv zeta. split; [split; [exact ex_map_inv|vm_compute; lia]|]. split; [exact I|]. split; [reflexivity|].
  split; vm_compute; reflexivity.
Qed.

(* ---- C19 ---- *)
(* Proved: a write inside of the slice modifies the slice's points as specified and no point of the underlying buffer
   outside of it. Missing: a write outside of the slice panics; refuted below. *)
Theorem C19_writes_stay_inside_partial :
  forall (b : mbuf) (o : op), mb_wf b -> write_ok (mb_layout b) (mb_len b) o ->
  exists b' pts',
    mb_step b o = Ok b' /\ mb_wf b' /\ same_shape b b' /\ mb_layout b' = mb_layout b
    /\ mb_len b' = mb_len b /\ mb_off b' = mb_off b
    /\ spec_step (mb_layout b) (mb_points b) o = Some pts'
    /\ mb_points b' = map (stored b) pts'
    /\ bf_reads_within (Of b') pts'
    /\ mb_len (mb_root b') = mb_len (mb_root b)
    /\ (forall q, q < mb_off b \/ mb_off b + mb_len b <= q ->
          nth_error (mb_points (mb_root b')) q = nth_error (mb_points (mb_root b)) q).
Proof. exact mb_write. Qed.
Print Assumptions C19_writes_stay_inside_partial.

(* slice_mut gives a slice of the range asked for (the end of a range of a slice has to be smaller than its length) *)
Theorem C19_slice_mut_range_partial :
  forall (b : mbuf) (i j : nat), mb_wf b -> i <= j -> j < mb_len b \/ mb_base b /\ j <= mb_len b ->
  exists c, mb_slice_mut b i j = Ok c /\ mb_wf c /\ mb_len c = j - i /\ mb_root c = mb_root b /\ mb_off c = mb_off b + i
            /\ mb_points c = sub (mb_points b) i (j - i).
Proof. exact slice_mut_of. Qed.
Print Assumptions C19_slice_mut_range_partial.

(* writing point 2 of the mutable slice 2..4 overwrites point 4 of the parent *)
Theorem C19_writes_stay_inside_refuted :
  exists (b b' : mbuf) (i q : nat) (d : list Z),
    mb_wf b /\ mb_len b <= i /\ length d = l_size (mb_layout b) /\ mb_set_point b i d = Ok b'
    /\ mb_off b + mb_len b <= q /\ nth_error (mb_points (mb_root b')) q <> nth_error (mb_points (mb_root b)) q.
Proof.
  exists (SliceMutB (VecB ex_vec) 2 4). eexists. exists 2, 4, (repeat 0%Z 24).
  split; [split; [exact ex_vec_inv|vm_compute; lia]|]. split; [vm_compute; lia|]. split; [reflexivity|].
  split; [vm_compute; reflexivity|]. split; [vm_compute; lia|]. vm_compute. discriminate.
Qed.
Print Assumptions C19_writes_stay_inside_refuted.

Example C19_nonvacuous : mb_wf ex_slice /\ write_ok (mb_layout ex_slice) (mb_len ex_slice) (OSetAttribute INTENSITY 1 [7;7]%Z)
  /\ mb_off ex_slice = 2
  /\ exists b, mb_step ex_slice (OSetAttribute INTENSITY 1 [7;7]%Z) = Ok b
       /\ firstn 2 (nth 3 (mb_points (mb_root b)) []) = [7;7]%Z.
Proof.
  split; [exact ex_slice_wf|]. split.
  - split; [exists m_intensity; split; [exact ex_intensity|reflexivity]|]. vm_compute. lia.
  - split; [reflexivity|]. eexists. split; vm_compute; reflexivity.
Qed.

(* ---- C22 ---- *)
(* Proved: everything but nth(k) past the end, which is refuted below. Values are their bytes. *)
Theorem C22_view_at :
  forall (b : buffer) (m : member) (i : nat), bf_wf b -> In m (l_attrs (bf_layout b)) -> i < bf_len b ->
  attribute_view_at b (m_def m) (m_type m) i = bf_get_attribute b (m_def m) i (repeat 0%Z (m_size m))
  /\ attribute_view_at b (m_def m) (m_type m) i = Ok (attr_value m (nth i (bf_points b) [])).
Proof. exact view_at. Qed.
Print Assumptions C22_view_at.

Theorem C22_view_of_wrong_type_panics :
  forall (b : buffer) (a : attr_def) (t : datatype) (i : nat), bf_wf b ->
  t <> ad_type a \/ member_of (bf_layout b) a = None -> attribute_view_at b a t i = Panic.
Proof. exact view_panics. Qed.
Print Assumptions C22_view_of_wrong_type_panics.

Theorem C22_view_set_at :
  forall (b : mbuf) (m : member) (i : nat) (v : list Z),
  mb_wf b -> In m (l_attrs (mb_layout b)) -> i < mb_len b -> length v = m_size m ->
  exists b', attribute_view_set_at b (m_def m) (m_type m) i v = Ok b' /\ mb_wf b' /\ mb_layout b' = mb_layout b /\ mb_len b' = mb_len b
    /\ attribute_view_at (Of b') (m_def m) (m_type m) i = Ok v
    /\ forall m' j, In m' (l_attrs (mb_layout b)) -> j < mb_len b -> m' <> m \/ j <> i ->
         attribute_view_at (Of b') (m_def m') (m_type m') j = attribute_view_at (Of b) (m_def m') (m_type m') j.
Proof. exact view_set_at. Qed.
Print Assumptions C22_view_set_at.

Theorem C22_view_iterates_all_values :
  forall (b : buffer) (m : member), bf_wf b -> In m (l_attrs (bf_layout b)) ->
  iter_collect (S (bf_len b)) (bf_len b) (attribute_view_at b (m_def m) (m_type m)) 0 = Ok (map (attr_value m) (bf_points b)).
Proof. exact view_iterates. Qed.
Print Assumptions C22_view_iterates_all_values.

Theorem C22_point_view :
  forall (b : buffer), bf_wf b ->
  (forall i, i < bf_len b -> point_view_at b (bf_layout b) i = Ok (nth i (bf_points b) []))
  /\ iter_collect (S (bf_len b)) (bf_len b) (point_view_at b (bf_layout b)) 0 = Ok (bf_points b)
  /\ (forall tl i, tl <> bf_layout b -> point_view_at b tl i = Panic).
Proof. exact point_view_facts. Qed.
Print Assumptions C22_point_view.

Theorem C22_point_view_set_at :
  forall (b : mbuf) (i : nat) (v : list Z), mb_wf b -> i < mb_len b -> length v = l_size (mb_layout b) ->
  exists b', point_view_set_at b (mb_layout b) i v = Ok b' /\ mb_wf b' /\ mb_layout b' = mb_layout b
             /\ mb_points b' = set_nth i (stored b v) (mb_points b).
Proof. exact point_view_set. Qed.
Print Assumptions C22_point_view_set_at.

(* iterators over references to the values *)
Theorem C22_iter_by_reference :
  forall (T : Type) (items : list T),
  iter_collect (S (length items)) (length items) (item_ref items) 0 = Ok items
  /\ forall cur n, cur + n <= length items ->
       iter_nth (length items) (item_ref items) cur n
       = Ok (nth_error items (cur + n), if Nat.ltb (cur + n) (length items) then cur + n + 1 else cur + n).
Proof. exact @iter_ref. Qed.
Print Assumptions C22_iter_by_reference.

(* nth for any iterator over `len` items of which item i is x i, up to and including the end *)
Theorem C22_nth_partial :
  forall (T : Type) (len : nat) (item : nat -> res T) (x : nat -> T) (cur n : nat),
  (forall i, i < len -> item i = Ok (x i)) -> cur + n <= len ->
  iter_nth len item cur n = Ok (if Nat.ltb (cur + n) len then (Some (x (cur + n)), cur + n + 1) else (None, cur + n)).
Proof. exact @nth_within. Qed.
Print Assumptions C22_nth_partial.

(* nth further past the end: iterators by value and by reference panic; iterators by mutable reference return a
   reference to memory outside of the buffer, here the position 7 of 5 *)
Theorem C22_nth_past_the_end_refuted :
  (exists (b : buffer) (m : member) (n : nat), bf_wf b /\ In m (l_attrs (bf_layout b)) /\ bf_len b < n
     /\ iter_nth (bf_len b) (attribute_view_at b (m_def m) (m_type m)) 0 n = Panic)
  /\ (exists (items : list nat) (n : nat), length items < n /\ iter_nth (length items) (item_ref items) 0 n = Panic)
  /\ (exists (len n p cur : nat), iter_nth len item_mut_position 0 n = Ok (Some p, cur) /\ len <= p).
Proof.
  split; [|split].
  - exists (Of (VecB ex_vec)), m_gps, 7. split; [exact ex_vec_inv|]. split; [exact ex_gps|].
    split; [vm_compute; lia|vm_compute; reflexivity].
  - exists [1; 2; 3], 4. split; [simpl; lia|reflexivity].
  - exists 5, 7, 7, 8. split; [reflexivity|lia].
Qed.
Print Assumptions C22_nth_past_the_end_refuted.

Example C22_nonvacuous : bf_wf (SliceB (Of (MapB ex_map)) 1 4)
  /\ attribute_view_at (SliceB (Of (MapB ex_map)) 1 4) (m_def m_gps) (m_type m_gps) 2 = Ok [81;82;83;84;85;86;87;88]%Z
  /\ iter_collect 4 3 (attribute_view_at (SliceB (Of (MapB ex_map)) 1 4) INTENSITY (ad_type INTENSITY)) 0
     = Ok [[25;26]; [49;50]; [73;74]]%Z.
Proof. split; [split; [exact ex_map_inv|vm_compute; lia]|]. split; vm_compute; reflexivity. Qed.

(* ---- C23 ---- *)
Theorem C23_sort_by_sorts :
  forall (b : mbuf) (cmp : list Z -> list Z -> comparison), mb_wf b -> mb_columnar b = false -> total_preorder cmp ->
  exists b', point_view_sort_by b (mb_layout b) cmp = Ok b' /\ mb_wf b' /\ mb_layout b' = mb_layout b
    /\ Permutation (mb_points b) (mb_points b') /\ StronglySorted (le_of cmp) (mb_points b')
    /\ stable_rearrangement cmp (mb_points b) (mb_points b')
    /\ mb_len (mb_root b') = mb_len (mb_root b)
    /\ (forall q, q < mb_off b \/ mb_off b + mb_len b <= q ->
          nth_error (mb_points (mb_root b')) q = nth_error (mb_points (mb_root b)) q).
Proof. exact sorted_result. Qed.
Print Assumptions C23_sort_by_sorts.

(* The result does not depend on the sorting algorithm used in the model. *)
Theorem C23_stable_sort_is_unique :
  forall (T : Type) (cmp : T -> T -> comparison), total_preorder cmp ->
  forall l1 l2, StronglySorted (le_of cmp) l1 -> StronglySorted (le_of cmp) l2 -> Permutation l1 l2 ->
  stable_rearrangement cmp l1 l2 -> l1 = l2.
Proof. exact @sort_unique. Qed.
Print Assumptions C23_stable_sort_is_unique.

(* descending by the first byte, on a slice *)
Definition ex_cmp (x y : list Z) : comparison := Z.compare (- nth 0 x 0%Z) (- nth 0 y 0%Z).
Example C23_nonvacuous : mb_wf ex_slice /\ mb_columnar ex_slice = false /\ total_preorder ex_cmp
  /\ exists b, point_view_sort_by ex_slice (mb_layout ex_slice) ex_cmp = Ok b
       /\ map (fun p => nth 0 p 0%Z) (mb_points (mb_root b)) = [1; 25; 73; 49; 97]%Z.
Proof.
  split; [exact ex_slice_wf|]. split; [reflexivity|]. split.
  - unfold total_preorder, le_of, ex_cmp. split; [|split].
    + intros x y. destruct (Z.le_ge_cases (- nth 0 x 0%Z) (- nth 0 y 0%Z)) as [H|H]; [left|right]; exact H.
    + intros x y z A B. apply (Z.le_trans _ (- nth 0 y 0%Z)%Z); assumption.
    + intros x y. apply Z.compare_antisym.
  - eexists. split; vm_compute; reflexivity.
Qed.

(* ---- C24 ---- *)
Theorem C24_transform_attribute :
  forall (b : mbuf) (m : member) (f : nat -> list Z -> list Z), mb_wf b -> In m (l_attrs (mb_layout b)) ->
  (forall i v, length v = m_size m -> length (f i v) = m_size m) ->
  exists b', transform_attribute b (m_def m) (m_type m) f = Ok b' /\ mb_wf b' /\ mb_layout b' = mb_layout b /\ mb_len b' = mb_len b
    /\ mb_points b' = mapi (fun k r => with_attr m (f k (attr_value m r)) r) (mb_points b)
    /\ mb_len (mb_root b') = mb_len (mb_root b)
    /\ (forall q, q < mb_off b \/ mb_off b + mb_len b <= q ->
          nth_error (mb_points (mb_root b')) q = nth_error (mb_points (mb_root b)) q).
Proof. exact transform_points. Qed.
Print Assumptions C24_transform_attribute.

Example C24_nonvacuous : mb_wf (MapB ex_map) /\ In m_intensity (l_attrs (mb_layout (MapB ex_map)))
  /\ exists b, transform_attribute (MapB ex_map) INTENSITY (ad_type INTENSITY) (fun i v => map (fun x => x + Z.of_nat i)%Z v) = Ok b
       /\ map (attr_value m_intensity) (mb_points b) = [[1;2]; [26;27]; [51;52]; [76;77]; [101;102]]%Z.
Proof.
  split; [exact ex_map_inv|]. split; [exact ex_intensity|]. eexists. split; vm_compute; reflexivity.
Qed.
