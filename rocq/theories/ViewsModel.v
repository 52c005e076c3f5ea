(* Model of raw attribute views, and of the comparison of views and buffers:
   pasture-core/src/containers/raw_attribute_view.rs, buffer_views.rs, point_buffer.rs. *)
From Coq Require Import String List ZArith Bool Arith.
From Verif Require Import Base LayoutModel BufferModel TraitModel ConvModel.
Import ListNotations.
Set Implicit Arguments.
Open Scope nat_scope.

(* ------------------------------------------------------------------ raw views *)

(* RawAttributeView, raw_attribute_view.rs:10-15. The memory is copied into the view; a view borrows the buffer, so that nothing changes it
   while the view lives. *)
Record raw_view : Type := mk_raw { rv_data : list Z; rv_offset : nat; rv_stride : nat; rv_size : nat }.
(* from_interleaved_buffer, raw_attribute_view.rs:19-33 *)
Definition raw_from_interleaved (b : buffer) (m : member) : res raw_view :=
  let* d := bf_get_point_range_ref b 0 (bf_len b) in
  Ok (mk_raw d (m_offset m) (l_size (bf_layout b)) (m_size m)).
(* from_columnar_buffer, raw_attribute_view.rs:36-49 *)
Definition raw_from_columnar (b : buffer) (a : attr_def) : res raw_view :=
  let* d := bf_get_attribute_range_ref b a 0 (bf_len b) in
  Ok (mk_raw d 0 (ad_size a) (ad_size a)).
(* view_raw_attribute of the traits InterleavedBuffer and ColumnarBuffer, point_buffer.rs:456-461, 529-534 *)
Definition view_raw_attribute (b : buffer) (m : member) : res raw_view :=
  if bf_is_columnar b then raw_from_columnar b (m_def m) else raw_from_interleaved b m.
(* len and is_empty, raw_attribute_view.rs:52-59: division by zero panics *)
Definition raw_len (v : raw_view) : res nat :=
  let* _ := assert (negb (Nat.eqb (rv_stride v) 0)) in Ok (length (rv_data v) / rv_stride v).
Definition raw_is_empty (v : raw_view) : res bool := let* n := raw_len v in Ok (Nat.eqb n 0).
(* index, raw_attribute_view.rs:66-72, 120-124 *)
Definition raw_index (v : raw_view) (i : nat) : res (list Z) :=
  slice_get (rv_data v) (rv_offset v + rv_stride v * i) (rv_offset v + rv_stride v * i + rv_size v).
(* view_raw_attribute_mut(m)[i].copy_from_slice(value), raw_attribute_view.rs:83-114, 129-133, point_buffer.rs:485-493, 570-578 *)
Definition raw_set (b : mbuf) (m : member) (i : nat) (value : list Z) : res mbuf :=
  if mb_is_columnar b
  then let s := ad_size (m_def m) in
       mb_modify_attribute_range b (m_def m) 0 (mb_len b) (fun d => slice_set d (0 + s * i) (0 + s * i + s) value)
  else let s := l_size (mb_layout b) in
       mb_modify_point_range b 0 (mb_len b) (fun d => slice_set d (m_offset m + s * i) (m_offset m + s * i + m_size m) value).

(* ------------------------------------------------------------------ equality *)

(* (0..len).all(|idx| a.at(idx) == b.at(idx)), which stops at the first difference. eqv is the PartialEq of the type of the values. *)
Fixpoint all_equal (eqv : list Z -> list Z -> bool) (at1 at2 : nat -> res (list Z)) (is : list nat) : res bool :=
  match is with
  | [] => Ok true
  | i :: is => let* x := at1 i in let* y := at2 i in if eqv x y then all_equal eqv at1 at2 is else Ok false
  end.
(* PartialEq of PointView and PointViewMut, buffer_views.rs:128-134, 265-271; the views are made by view and view_mut, buffer_views.rs:47-58,
   152-164 *)
Definition point_view_eq (eqv : list Z -> list Z -> bool) (b1 b2 : buffer) (tl : layout) : res bool :=
  let* _ := assert (layout_eqb tl (bf_layout b1)) in
  let* _ := assert (layout_eqb tl (bf_layout b2)) in
  if negb (Nat.eqb (bf_len b1) (bf_len b2)) then Ok false
  else all_equal eqv (point_view_at b1 tl) (point_view_at b2 tl) (range 0 (bf_len b1)).
(* PartialEq of AttributeView and AttributeViewMut, buffer_views.rs:373-377, 505-509 *)
Definition attribute_view_eq (eqv : list Z -> list Z -> bool) (b1 b2 : buffer) (a1 a2 : attr_def) (t : datatype) : res bool :=
  let* m1 := attribute_view (bf_layout b1) a1 t in
  let* m2 := attribute_view (bf_layout b2) a2 t in
  if Nat.eqb (bf_len b1) (bf_len b2) && attr_def_eqb (m_def m1) (m_def m2)
  then all_equal eqv (attribute_view_at b1 a1 t) (attribute_view_at b2 a2 t) (range 0 (bf_len b1))
  else Ok false.
(* PartialEq of AttributeViewConverting, buffer_views.rs:603-607: it compares the definitions of the stored attributes *)
Definition converting_view_eq (eqv : list Z -> list Z -> bool) (b1 b2 : buffer) (a1 a2 : attr_def) (t : datatype) : res bool :=
  let* '(m1, _) := converting_view (bf_layout b1) a1 t in
  let* '(m2, _) := converting_view (bf_layout b2) a2 t in
  if Nat.eqb (bf_len b1) (bf_len b2) && attr_def_eqb (m_def m1) (m_def m2)
  then all_equal eqv (converting_view_at b1 a1 t) (converting_view_at b2 a2 t) (range 0 (bf_len b1))
  else Ok false.

(* slices of bytes *)
Definition bytes_eqb (x y : list Z) : bool := if list_eq_dec Z.eq_dec x y then true else false.
(* derive(PartialEq) of VectorBuffer, point_buffer.rs:583-588 *)
Definition vb_eqb (x y : vbuf) : bool :=
  bytes_eqb (vb_storage x) (vb_storage y) && layout_eqb (vb_layout x) (vb_layout y) && Nat.eqb (vb_len x) (vb_len y).
(* derive(PartialEq) of HashMapBuffer, point_buffer.rs:973-978: hash maps are equal if they have the same number of entries, and every entry
   of one is in the other *)
Definition hb_eqb (x y : hbuf) : bool :=
  Nat.eqb (length (hb_map x)) (length (hb_map y))
  && forallb (fun e => match hm_get (hb_map y) (fst e) with Some c => bytes_eqb (snd e) c | None => false end) (hb_map x)
  && layout_eqb (hb_layout x) (hb_layout y) && Nat.eqb (hb_len x) (hb_len y).
(* PointViewMut::push_point, buffer_views.rs:246-252 *)
Definition vb_push_point (b : vbuf) (tl : layout) (p : list Z) : res vbuf :=
  let* _ := assert (layout_eqb tl (vb_layout b)) in vb_push_points b p.
Definition hb_push_point (b : hbuf) (tl : layout) (p : list Z) : res hbuf :=
  let* _ := assert (layout_eqb tl (hb_layout b)) in hb_push_points b p.
