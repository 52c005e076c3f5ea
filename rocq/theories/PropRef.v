(* Property theorems about the access to points and attribute values by reference: C85. *)
From Coq Require Import String List ZArith Lia Bool Arith.
From Verif Require Import Base LayoutModel LayoutSpec BufferModel BufferSpec TraitModel TraitSpec BufferExamples RefModel RefSpec RefProofs RefExamples.
Import ListNotations.
Open Scope nat_scope.

(* ---- C85 ---- *)
(* Proved: for memory that is aligned for the Rust type, every access by reference sees the points that access by value sees and changes
   exactly those it should; for memory that is not, every access by reference panics and changes nothing. Missing: that memory is aligned.
   Buffers do not see to it; refuted below. *)
Theorem C85_at_ref_partial :
  forall (pl : place) (b : buffer) (tl : layout) (al i : nat), bf_columnar b = false -> type_of_size (l_size tl) al ->
  (aligned (pl_points pl) al -> point_view_at_ref pl b tl al i = point_view_at b tl i)
  /\ (~ aligned (pl_points pl) al -> point_view_at_ref pl b tl al i = Panic).
Proof. exact at_ref_typed. Qed.
Print Assumptions C85_at_ref_partial.

Theorem C85_attribute_at_ref_partial :
  forall (pl : place) (b : buffer) (a : attr_def) (t : datatype) (al i : nat), bf_columnar b = true -> type_of_size (dt_size t) al ->
  (aligned (pl_column pl a) al -> attribute_view_at_ref pl b a t al i = attribute_view_at b a t i)
  /\ (~ aligned (pl_column pl a) al -> attribute_view_at_ref pl b a t al i = Panic).
Proof. exact attribute_at_ref_typed. Qed.
Print Assumptions C85_attribute_at_ref_partial.

Theorem C85_iter_partial :
  forall (pl : place) (b : buffer) (al : nat), bf_wf b -> bf_columnar b = false -> type_of_size (l_size (bf_layout b)) al ->
  (aligned (pl_points pl) al -> point_view_iter pl b (bf_layout b) al = Ok (bf_points b))
  /\ (~ aligned (pl_points pl) al -> point_view_iter pl b (bf_layout b) al = Panic).
Proof. exact iter_typed. Qed.
Print Assumptions C85_iter_partial.

Theorem C85_attribute_iter_partial :
  forall (pl : place) (b : buffer) (m : member) (al : nat),
  bf_wf b -> bf_columnar b = true -> In m (l_attrs (bf_layout b)) -> type_of_size (m_size m) al ->
  (aligned (pl_column pl (m_def m)) al -> attribute_view_iter pl b (m_def m) (m_type m) al = Ok (map (attr_value m) (bf_points b)))
  /\ (~ aligned (pl_column pl (m_def m)) al -> attribute_view_iter pl b (m_def m) (m_type m) al = Panic).
Proof. exact attribute_iter_typed. Qed.
Print Assumptions C85_attribute_iter_partial.

Theorem C85_at_mut_partial :
  forall (pl : place) (b : mbuf) (tl : layout) (al i : nat) (g : list Z -> list Z),
  mb_columnar b = false -> type_of_size (l_size tl) al -> keeps (l_size tl) g ->
  (aligned (pl_points pl) al ->
     point_view_at_mut pl b tl al i g = (let* p := point_view_at (Of b) tl i in point_view_set_at b tl i (g p)))
  /\ (~ aligned (pl_points pl) al -> point_view_at_mut pl b tl al i g = Panic).
Proof. exact at_mut_typed. Qed.
Print Assumptions C85_at_mut_partial.

Theorem C85_attribute_at_mut_partial :
  forall (pl : place) (b : mbuf) (a : attr_def) (t : datatype) (al i : nat) (g : list Z -> list Z),
  mb_columnar b = true -> type_of_size (dt_size t) al -> keeps (dt_size t) g ->
  (aligned (pl_column pl a) al ->
     attribute_view_at_mut pl b a t al i g = (let* v := attribute_view_at (Of b) a t i in attribute_view_set_at b a t i (g v)))
  /\ (~ aligned (pl_column pl a) al -> attribute_view_at_mut pl b a t al i g = Panic).
Proof. exact attribute_at_mut_typed. Qed.
Print Assumptions C85_attribute_at_mut_partial.

Theorem C85_iter_mut_partial :
  forall (pl : place) (b : mbuf) (al : nat) (g : nat -> list Z -> list Z),
  mb_wf b -> mb_columnar b = false -> type_of_size (l_size (mb_layout b)) al -> keeps_each (l_size (mb_layout b)) g ->
  (aligned (pl_points pl) al -> in_place b (point_view_iter_mut pl b (mb_layout b) al g) (mapi g (mb_points b)))
  /\ (~ aligned (pl_points pl) al -> point_view_iter_mut pl b (mb_layout b) al g = Panic).
Proof. exact iter_mut_typed. Qed.
Print Assumptions C85_iter_mut_partial.

Theorem C85_attribute_iter_mut_partial :
  forall (pl : place) (b : mbuf) (m : member) (al : nat) (g : nat -> list Z -> list Z),
  mb_wf b -> mb_columnar b = true -> In m (l_attrs (mb_layout b)) -> type_of_size (m_size m) al -> keeps_each (m_size m) g ->
  (aligned (pl_column pl (m_def m)) al ->
     in_place b (attribute_view_iter_mut pl b (m_def m) (m_type m) al g) (mapi (fun k p => with_attr m (g k (attr_value m p)) p) (mb_points b)))
  /\ (~ aligned (pl_column pl (m_def m)) al -> attribute_view_iter_mut pl b (m_def m) (m_type m) al g = Panic).
Proof. exact attribute_iter_mut_typed. Qed.
Print Assumptions C85_attribute_iter_mut_partial.

Theorem C85_sort_by_partial :
  forall (pl : place) (b : mbuf) (al : nat) (cmp : list Z -> list Z -> comparison),
  mb_wf b -> mb_columnar b = false -> type_of_size (l_size (mb_layout b)) al ->
  (aligned (pl_points pl) al -> in_place b (point_view_sort_by_at pl b (mb_layout b) al cmp) (stable_sort cmp (mb_points b)))
  /\ (~ aligned (pl_points pl) al -> point_view_sort_by_at pl b (mb_layout b) al cmp = Panic).
Proof. exact sort_by_typed. Qed.
Print Assumptions C85_sort_by_partial.

(* A buffer over external memory may be at any address: its points can be read by value, and not by reference. *)
Theorem C85_external_refuted :
  exists (pl : place) (b : ebuf) (al : nat), mb_wf (ExtB b) /\ 0 < eb_len b /\ type_of_size (l_size (eb_layout b)) al
    /\ (forall i, i < eb_len b -> point_view_at (Of (ExtB b)) (eb_layout b) i = Ok (nth i (mb_points (ExtB b)) []))
    /\ (forall i, point_view_at_ref pl (Of (ExtB b)) (eb_layout b) al i = Panic)
    /\ point_view_iter pl (Of (ExtB b)) (eb_layout b) al = Panic.
Proof. exact external_panics. Qed.
Print Assumptions C85_external_refuted.

(* An empty buffer: for every type with an alignment greater than one, iteration by value yields nothing and iteration by reference panics. *)
Theorem C85_empty_refuted :
  forall (l : layout) (al : nat), good_layout l -> type_of_size (l_size l) al -> 1 < al ->
  bf_len (Of (VecB (vb_new l))) = 0 /\ point_view_iter unallocated (Of (VecB (vb_new l))) l al = Panic.
Proof. exact empty_panics. Qed.
Print Assumptions C85_empty_refuted.

Theorem C85_empty_columnar_refuted :
  forall (l : layout) (m : member) (al : nat), good_layout l -> In m (l_attrs l) -> type_of_size (m_size m) al -> 1 < al ->
  bf_len (Of (MapB (hb_new l))) = 0 /\ attribute_view_iter unallocated (Of (MapB (hb_new l))) (m_def m) (m_type m) al = Panic.
Proof. exact empty_columnar_panics. Qed.
Print Assumptions C85_empty_columnar_refuted.

Definition flip_first (p : list Z) : list Z := match p with [] => [] | x :: p => (255 - x)%Z :: p end.
Example C85_nonvacuous :
  mb_wf ex_slice /\ mb_columnar ex_slice = false /\ type_of_size (l_size (mb_layout ex_slice)) 8 /\ type_of_size (m_size m_gps) 8
  /\ bf_wf (Of (MapB ex_map)) /\ mb_columnar (MapB ex_map) = true /\ In m_gps (l_attrs (mb_layout (MapB ex_map)))
  /\ aligned (pl_points good_place) 8 /\ aligned (pl_column good_place (m_def m_gps)) 8
  /\ keeps 24 flip_first /\ keeps_each 8 (fun _ => flip_first)
  /\ point_view_at_ref good_place (Of ex_slice) ex_layout 8 1 = Ok (sub ex_bytes 72 24)
  /\ point_view_at_ref good_place (Of ex_slice) ex_layout 8 3 = Panic
  /\ point_view_iter good_place (Of ex_slice) ex_layout 8 = Ok [sub ex_bytes 48 24; sub ex_bytes 72 24]
  /\ attribute_view_iter good_place (Of (MapB ex_map)) (m_def m_gps) (m_type m_gps) 8 = Ok (map (attr_value m_gps) (mb_points (MapB ex_map)))
  /\ (exists b, point_view_at_mut good_place ex_slice ex_layout 8 1 flip_first = Ok b
        /\ mb_points b = [sub ex_bytes 48 24; flip_first (sub ex_bytes 72 24)]).
Proof.
  destruct ex_type as (T1 & T2). destruct good_aligned as (A1 & A2).
  split; [exact ex_slice_wf|]. split; [reflexivity|]. split; [exact T1|]. split; [exact T2|]. split; [exact ex_map_inv|]. split; [reflexivity|].
  split; [exact ex_gps|]. split; [exact A1|]. split; [exact A2|].
  split; [intros [|x p] H; exact H|]. split; [intros k [|x p] H; exact H|].
  split; [vm_compute; reflexivity|]. split; [vm_compute; reflexivity|]. split; [vm_compute; reflexivity|]. split; [vm_compute; reflexivity|].
  eexists. split; vm_compute; reflexivity.
Qed.
