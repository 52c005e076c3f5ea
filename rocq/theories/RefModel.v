(* Model of the access to points and attribute values by reference: pasture-core/src/containers/{buffer_views,point_iterators,
   attribute_iterators,point_buffer,slice}.rs. Memory has addresses here: a reference to a value of a Rust type has to be aligned. *)
From Coq Require Import String List ZArith Bool Arith.
From Verif Require Import Base LayoutModel BufferModel TraitModel ConvModel.
Import ListNotations.
Set Implicit Arguments.
Open Scope nat_scope.

(* Where the memory of a buffer is: the address of the first byte of the points (Vec<u8> of VectorBuffer, point_buffer.rs:583-588; memory of
   ExternalMemoryBuffer, point_buffer.rs:1444-1448), and of the column of each attribute (Vec<u8> in the map of HashMapBuffer,
   point_buffer.rs:973-978). Nothing but the allocator, or the owner of the external memory, decides on them. *)
Record place : Type := mk_place { pl_points : nat; pl_column : attr_def -> nat }.
(* a slice of bytes: its address and its contents *)
Definition located : Type := (nat * list Z)%type.
(* the slice s..e of memory at an address *)
Definition locate (base : nat) (st : list Z) (s e : nat) : res located :=
  let* d := slice_get st s e in Ok (base + s, d).

(* bytemuck::from_bytes and from_bytes_mut for a type of sz bytes with alignment al: they panic for a slice of another size and for one that
   is not aligned. The values of the type are its bytes. *)
Definition from_bytes (sz al : nat) (m : located) : res (list Z) :=
  let* _ := assert (Nat.eqb (length (snd m)) sz) in
  let* _ := assert (Nat.eqb (fst m mod al) 0) in
  Ok (snd m).
(* bytemuck::cast_slice and cast_slice_mut from u8 to a type of sz > 0 bytes with alignment al; empty slices have to be aligned, too *)
Definition cast_slice (sz al : nat) (m : located) : res (list (list Z)) :=
  let* _ := assert (Nat.eqb (fst m mod al) 0) in
  let* _ := assert (Nat.eqb (length (snd m) mod sz) 0) in
  Ok (as_points sz (snd m)).

(* a loop over mutable references that replaces item k by g k of it *)
Fixpoint each (g : nat -> list Z -> list Z) (k : nat) (items : list (list Z)) : list (list Z) :=
  match items with [] => [] | x :: items => g k x :: each g (k + 1) items end.

Section Place.
Variable pl : place.

(* ------------------------------------------------------------------ references *)

(* get_point_ref: VectorBuffer, point_buffer.rs:792-797; ExternalMemoryBuffer, 1617-1623; BufferSliceMut, slice.rs:328-334. HashMapBuffer has
   no such method (Err). *)
Fixpoint mb_point_ref (b : mbuf) (i : nat) : res located :=
  match b with
  | VecB v => locate (pl_points pl) (vb_storage v) (i * vb_psize v) ((i + 1) * vb_psize v)
  | ExtB e => locate (pl_points pl) (eb_mem e) (i * eb_psize e) ((i + 1) * eb_psize e)
  | MapB _ => Err
  | SliceMutB b s e => let* g := slice_mut_index s e i in mb_point_ref b g
  end.
(* BufferSlice, slice.rs:139-145 *)
Fixpoint bf_point_ref (b : buffer) (i : nat) : res located :=
  match b with
  | Of m => mb_point_ref m i
  | SliceB b s e => let* g := slice_index s e i in bf_point_ref b g
  end.
(* get_point_range_ref, point_buffer.rs:799-804, 1625-1631, slice.rs:336-342 *)
Fixpoint mb_points_ref (b : mbuf) (i j : nat) : res located :=
  match b with
  | VecB v => locate (pl_points pl) (vb_storage v) (i * vb_psize v) (j * vb_psize v)
  | ExtB e => locate (pl_points pl) (eb_mem e) (i * eb_psize e) (j * eb_psize e)
  | MapB _ => Err
  | SliceMutB b s e => let* g := slice_mut_range s e i j in mb_points_ref b (fst g) (snd g)
  end.
(* slice.rs:147-153 *)
Fixpoint bf_points_ref (b : buffer) (i j : nat) : res located :=
  match b with
  | Of m => mb_points_ref m i j
  | SliceB b s e => let* g := slice_range s e i j in bf_points_ref b (fst g) (snd g)
  end.
(* get_attribute_ref: HashMapBuffer, point_buffer.rs:1339-1352; slices, slice.rs:368-378. The interleaved buffers have no such method. *)
Fixpoint mb_value_ref (b : mbuf) (a : attr_def) (i : nat) : res located :=
  match b with
  | MapB h => let* c := hb_column h a in locate (pl_column pl a) c (i * ad_size a) ((i + 1) * ad_size a)
  | SliceMutB b s e => let* g := slice_mut_index s e i in mb_value_ref b a g
  | _ => Err
  end.
(* slice.rs:157-169 *)
Fixpoint bf_value_ref (b : buffer) (a : attr_def) (i : nat) : res located :=
  match b with
  | Of m => mb_value_ref m a i
  | SliceB b s e => let* g := slice_index s e i in bf_value_ref b a g
  end.
(* get_attribute_range_ref, point_buffer.rs:1354-1367, slice.rs:380-390 *)
Fixpoint mb_column_ref (b : mbuf) (a : attr_def) (i j : nat) : res located :=
  match b with
  | MapB h => let* c := hb_column h a in locate (pl_column pl a) c (i * ad_size a) (j * ad_size a)
  | SliceMutB b s e => let* g := slice_mut_range s e i j in mb_column_ref b a (fst g) (snd g)
  | _ => Err
  end.
(* slice.rs:171-184 *)
Fixpoint bf_column_ref (b : buffer) (a : attr_def) (i j : nat) : res located :=
  match b with
  | Of m => mb_column_ref m a i j
  | SliceB b s e => let* g := slice_range s e i j in bf_column_ref b a (fst g) (snd g)
  end.

(* ------------------------------------------------------------------ mutable references: f is what is done with the memory *)

(* get_point_mut, point_buffer.rs:811-817, 1638-1645, slice.rs:348-354 *)
Fixpoint mb_point_mut (b : mbuf) (i : nat) (f : located -> res (list Z)) : res mbuf :=
  match b with
  | VecB v =>
      let* m := locate (pl_points pl) (vb_storage v) (i * vb_psize v) ((i + 1) * vb_psize v) in
      let* d := f m in Ok (VecB (vb_with_storage v (blit (vb_storage v) (i * vb_psize v) d)))
  | ExtB e =>
      let* m := locate (pl_points pl) (eb_mem e) (i * eb_psize e) ((i + 1) * eb_psize e) in
      let* d := f m in Ok (ExtB (eb_with_mem e (blit (eb_mem e) (i * eb_psize e) d)))
  | MapB _ => Err
  | SliceMutB b s e => let* g := slice_mut_index s e i in let* b := mb_point_mut b g f in Ok (SliceMutB b s e)
  end.
(* get_point_range_mut, point_buffer.rs:819-825, 1647-1654, slice.rs:356-362 *)
Fixpoint mb_points_mut (b : mbuf) (i j : nat) (f : located -> res (list Z)) : res mbuf :=
  match b with
  | VecB v =>
      let* m := locate (pl_points pl) (vb_storage v) (i * vb_psize v) (j * vb_psize v) in
      let* d := f m in Ok (VecB (vb_with_storage v (blit (vb_storage v) (i * vb_psize v) d)))
  | ExtB e =>
      let* m := locate (pl_points pl) (eb_mem e) (i * eb_psize e) (j * eb_psize e) in
      let* d := f m in Ok (ExtB (eb_with_mem e (blit (eb_mem e) (i * eb_psize e) d)))
  | MapB _ => Err
  | SliceMutB b s e => let* g := slice_mut_range s e i j in let* b := mb_points_mut b (fst g) (snd g) f in Ok (SliceMutB b s e)
  end.
(* get_attribute_mut, point_buffer.rs:1374-1388, slice.rs:396-406 *)
Fixpoint mb_value_mut (b : mbuf) (a : attr_def) (i : nat) (f : located -> res (list Z)) : res mbuf :=
  match b with
  | MapB h =>
      let* c := hb_column h a in
      let* m := locate (pl_column pl a) c (i * ad_size a) ((i + 1) * ad_size a) in
      let* d := f m in Ok (MapB (hb_with_map h (hm_set (hb_map h) a (blit c (i * ad_size a) d))))
  | SliceMutB b s e => let* g := slice_mut_index s e i in let* b := mb_value_mut b a g f in Ok (SliceMutB b s e)
  | _ => Err
  end.
(* get_attribute_range_mut, point_buffer.rs:1390-1404, slice.rs:408-418 *)
Fixpoint mb_column_mut (b : mbuf) (a : attr_def) (i j : nat) (f : located -> res (list Z)) : res mbuf :=
  match b with
  | MapB h =>
      let* c := hb_column h a in
      let* m := locate (pl_column pl a) c (i * ad_size a) (j * ad_size a) in
      let* d := f m in Ok (MapB (hb_with_map h (hm_set (hb_map h) a (blit c (i * ad_size a) d))))
  | SliceMutB b s e => let* g := slice_mut_range s e i j in let* b := mb_column_mut b a (fst g) (snd g) f in Ok (SliceMutB b s e)
  | _ => Err
  end.

(* ------------------------------------------------------------------ views *)

(* In the following tl is the layout of the point type T, or t the datatype of the attribute type T, and al is align_of::<T>(). *)

(* PointView::at_ref and PointViewMut::at_ref, buffer_views.rs:90-95, 199-204 *)
Definition point_view_at_ref (b : buffer) (tl : layout) (al i : nat) : res (list Z) :=
  let* _ := assert (layout_eqb tl (bf_layout b)) in
  let* m := bf_point_ref b i in from_bytes (l_size tl) al m.
(* PointView::iter and PointViewMut::iter, buffer_views.rs:98-103, 207-212; PointIteratorByRef::from, point_iterators.rs:56-67. The items;
   the iterator indexes them (item_ref in TraitModel.v). *)
Definition point_view_iter (b : buffer) (tl : layout) (al : nat) : res (list (list Z)) :=
  let* _ := assert (layout_eqb tl (bf_layout b)) in
  let* m := bf_points_ref b 0 (bf_len b) in cast_slice (l_size tl) al m.
(* *PointViewMut::at_mut(i) = g(..), buffer_views.rs:221-226 *)
Definition point_view_at_mut (b : mbuf) (tl : layout) (al i : nat) (g : list Z -> list Z) : res mbuf :=
  let* _ := assert (layout_eqb tl (mb_layout b)) in
  mb_point_mut b i (fun m => let* p := from_bytes (l_size tl) al m in Ok (g p)).
(* for (k, p) in PointViewMut::iter_mut().enumerate() { *p = g(k, *p) }, buffer_views.rs:229-234, PointIteratorByMut, point_iterators.rs:92-135 *)
Definition point_view_iter_mut (b : mbuf) (tl : layout) (al : nat) (g : nat -> list Z -> list Z) : res mbuf :=
  let* _ := assert (layout_eqb tl (mb_layout b)) in
  mb_points_mut b 0 (mb_len b) (fun m => let* ps := cast_slice (l_size tl) al m in Ok (concat (each g 0 ps))).
(* PointViewMut::sort_by, buffer_views.rs:237-241, with the alignment (which point_view_sort_by in TraitModel.v leaves out) *)
Definition point_view_sort_by_at (b : mbuf) (tl : layout) (al : nat) (cmp : list Z -> list Z -> comparison) : res mbuf :=
  let* _ := assert (layout_eqb tl (mb_layout b)) in
  mb_points_mut b 0 (mb_len b) (fun m => let* ps := cast_slice (l_size tl) al m in Ok (concat (stable_sort cmp ps))).

(* AttributeView::at_ref and AttributeViewMut::at_ref, buffer_views.rs:333-341, 455-463 *)
Definition attribute_view_at_ref (b : buffer) (a : attr_def) (t : datatype) (al i : nat) : res (list Z) :=
  let* m := attribute_view (bf_layout b) a t in
  let* r := bf_value_ref b (m_def m) i in from_bytes (dt_size t) al r.
(* AttributeView::iter and AttributeViewMut::iter, buffer_views.rs:344-349, 466-471; AttributeIteratorByRef::new, attribute_iterators.rs:71-83 *)
Definition attribute_view_iter (b : buffer) (a : attr_def) (t : datatype) (al : nat) : res (list (list Z)) :=
  let* m := attribute_view (bf_layout b) a t in
  let* r := bf_column_ref b (m_def m) 0 (bf_len b) in cast_slice (dt_size t) al r.
(* *AttributeViewMut::at_mut(i) = g(..), buffer_views.rs:481-487 *)
Definition attribute_view_at_mut (b : mbuf) (a : attr_def) (t : datatype) (al i : nat) (g : list Z -> list Z) : res mbuf :=
  let* m := attribute_view (mb_layout b) a t in
  mb_value_mut b (m_def m) i (fun r => let* v := from_bytes (dt_size t) al r in Ok (g v)).
(* for (k, v) in AttributeViewMut::iter_mut().enumerate() { *v = g(k, *v) }, buffer_views.rs:490-493; AttributeIteratorByMut,
   attribute_iterators.rs:112-160 *)
Definition attribute_view_iter_mut (b : mbuf) (a : attr_def) (t : datatype) (al : nat) (g : nat -> list Z -> list Z) : res mbuf :=
  let* m := attribute_view (mb_layout b) a t in
  mb_column_mut b (m_def m) 0 (mb_len b) (fun r => let* vs := cast_slice (dt_size t) al r in Ok (concat (each g 0 vs))).
End Place.
