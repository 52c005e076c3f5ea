(* Specification vocabulary for the access to points and attribute values by reference. *)
From Coq Require Import String List ZArith Bool Arith.
From Verif Require Import Base LayoutModel LayoutSpec BufferModel BufferSpec TraitModel TraitSpec RefModel.
Import ListNotations.
Open Scope nat_scope.

(* an address at which a value with this alignment may lie *)
Definition aligned (address alignment : nat) : Prop := Nat.divide alignment address.
(* a Rust type: its alignment is not zero and divides its size *)
Definition type_of_size (size alignment : nat) : Prop := 0 < alignment /\ Nat.divide alignment size.

(* a function on values of a type: it gives values of that type, for the item k as well *)
Definition keeps (size : nat) (g : list Z -> list Z) : Prop := forall p, length p = size -> length (g p) = size.
Definition keeps_each (size : nat) (g : nat -> list Z -> list Z) : Prop := forall k, keeps size (g k).

(* The operation r on the buffer b succeeds, the points of b are then pts, and nothing else has changed: not the layout, not the number of
   points, and, if b is a slice, no point of the buffer it is a slice of that is not in the slice. *)
Definition in_place (b : mbuf) (r : res mbuf) (pts : list (list Z)) : Prop :=
  exists b', r = Ok b' /\ mb_wf b' /\ mb_layout b' = mb_layout b /\ mb_len b' = mb_len b /\ mb_points b' = pts
    /\ mb_len (mb_root b') = mb_len (mb_root b)
    /\ (forall q, q < mb_off b \/ mb_off b + mb_len b <= q -> nth_error (mb_points (mb_root b')) q = nth_error (mb_points (mb_root b)) q).

(* The pointer of a Vec<u8> that has allocated no memory is the alignment of u8, that is 1: a buffer from new_from_layout, into which nothing has
   been pushed, is there. *)
Definition unallocated : place := mk_place 1 (fun _ => 1).
