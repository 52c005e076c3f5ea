(* Model of the untyped points (pasture-core/src/containers/untyped_point.rs). Definitions only.
   UntypedPointBuffer (55-161) and UntypedPointSlice (175-282) have the same methods; a point is its layout and its bytes, which for
   UntypedPointBuffer are as many as the layout says and for UntypedPointSlice as many as the caller gives. *)
From Coq Require Import String Ascii List ZArith Lia Bool Arith.
From Verif Require Import Base LayoutModel BufferModel TraitModel NumModel ConvModel.
Import ListNotations.
Open Scope nat_scope.
Set Implicit Arguments.

Record untyped := mk_untyped { up_layout : layout; up_bytes : list Z }.

(* UntypedPointBuffer::new, untyped_point.rs:48-53 *)
Definition untyped_new (l : layout) : untyped := mk_untyped l (repeat 0%Z (l_size l)).
(* the attribute's member if its bytes are there, untyped_point.rs:60-68, 76-84, 150-158 *)
Definition up_member (u : untyped) (a : attr_def) : res member :=
  match get_attribute (up_layout u) a with
  | None => Err
  | Some m => if Nat.ltb (length (up_bytes u)) (m_offset m + dt_size (m_type m)) then Err else Ok m
  end.
(* get_raw_attribute, untyped_point.rs:56-70, 200-214 *)
Definition get_raw_attribute (u : untyped) (a : attr_def) : res (list Z) :=
  let* m := up_member u a in Ok (sub (up_bytes u) (m_offset m) (dt_size (m_type m))).
(* set_raw_attribute, untyped_point.rs:71-87, 232-248; copy_from_slice panics if the lengths differ *)
Definition set_raw_attribute (u : untyped) (a : attr_def) (v : list Z) : res untyped :=
  let* m := up_member u a in
  let* _ := assert (Nat.eqb (length v) (dt_size (m_type m))) in
  Ok (mk_untyped (up_layout u) (blit (up_bytes u) (m_offset m) v)).
(* get_attribute::<T> for the type T with datatype t, untyped_point.rs:101-123, 176-198. PrimitiveType is implemented for types whose
   size is that of their datatype; the uninitialised target is all overwritten *)
Definition untyped_get (u : untyped) (a : attr_def) (t : datatype) : res (list Z) :=
  let* src := get_raw_attribute u a in
  if datatype_eqb t (ad_type a) then
    let* _ := assert (Nat.eqb (dt_size t) (length src)) in Ok src
  else
    let* c := get_converter_for_attributes a (mk_def (ad_name a) t) in
    match c with
    | None => Err
    | Some c => Ok (conv_into c src (repeat 0%Z (dt_size t)))
    end.
(* set_attribute::<T>, untyped_point.rs:125-144, 262-281 *)
Definition untyped_set (u : untyped) (a : attr_def) (t : datatype) (v : list Z) : res untyped :=
  if datatype_eqb t (ad_type a) then set_raw_attribute u a v
  else
    let* c := get_converter_for_attributes (mk_def (ad_name a) t) a in
    match c with
    | None => Err
    | Some c =>
        let* m := up_member u a in
        let dst := sub (up_bytes u) (m_offset m) (dt_size (m_type m)) in
        Ok (mk_untyped (up_layout u) (blit (up_bytes u) (m_offset m) (conv_into c v dst)))
    end.
