(* Vocabulary for raw views, the comparison of views, and reprojection. *)
From Coq Require Import String List ZArith Bool Arith.
From Verif Require Import Base LayoutModel BufferModel BufferSpec ConvModel ConvSpec MathModel MathSpec.
Import ListNotations.
Open Scope nat_scope.

(* the value of attribute m of point i replaced by v *)
Definition with_value_at (m : member) (i : nat) (v : list Z) (pts : list (list Z)) : list (list Z) :=
  mapi (fun k r => if Nat.eqb k i then with_attr m v r else r) pts.

(* the value a converting view of attribute m as datatype t shows for a point *)
Definition converted (m : member) (t : datatype) (p : list Z) : list Z :=
  match value_as (m_type m) t (attr_value m p) with Some v => v | None => [] end.

(* two lists have the same length, and equal entries for the comparison eqv *)
Definition same_values (eqv : list Z -> list Z -> bool) (l1 l2 : list (list Z)) : Prop := Forall2 (fun x y => eqv x y = true) l1 l2.

(* a function of one coordinate that grows, or one that falls *)
Definition monotone {T} (pcmp : T -> T -> option comparison) (D : T -> Prop) (f : T -> T) : Prop :=
  (forall x y, D x -> D y -> le pcmp x y = true -> le pcmp (f x) (f y) = true)
  \/ (forall x y, D x -> D y -> le pcmp x y = true -> le pcmp (f y) (f x) = true).
(* a map that acts on each coordinate on its own *)
Definition axis_by_axis {T} (fx fy fz : T -> T) (p : p3 T) : p3 T := mk_p3 (fx (px p)) (fy (py p)) (fz (pz p)).
