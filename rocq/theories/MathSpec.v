(* What boxes, minima and maxima should be. *)
From Coq Require Import String List ZArith QArith Bool Arith SpecFloat.
From Verif Require Import Base LayoutModel LayoutSpec BufferModel BufferSpec TraitModel TraitSpec NumModel ConvModel ConvSpec MathModel.
Import ListNotations.
Open Scope Z_scope.

(* pcmp is a total preorder on the values that satisfy D (all integers; all floats except NaN) *)
Definition total_on {T} (pcmp : T -> T -> option comparison) (D : T -> Prop) : Prop :=
  (forall x, D x -> pcmp x x = Some Eq)
  /\ (forall x y, D x -> D y -> exists c, pcmp x y = Some c /\ pcmp y x = Some (CompOpp c))
  /\ (forall x y z, D x -> D y -> D z -> le pcmp x y = true -> le pcmp y z = true -> le pcmp x z = true).

Definition p3_all {T} (P : T -> Prop) (p : p3 T) : Prop := P (px p) /\ P (py p) /\ P (pz p).
(* a box as a set of points: min <= p <= max on every axis *)
Definition inside {T} (pcmp : T -> T -> option comparison) (b : aabb T) (p : p3 T) : Prop :=
  (le pcmp (px (b_min b)) (px p) = true /\ le pcmp (px p) (px (b_max b)) = true)
  /\ (le pcmp (py (b_min b)) (py p) = true /\ le pcmp (py p) (py (b_max b)) = true)
  /\ (le pcmp (pz (b_min b)) (pz p) = true /\ le pcmp (pz p) (pz (b_max b)) = true).
(* min <= max, coordinates in D *)
Definition proper {T} (pcmp : T -> T -> option comparison) (D : T -> Prop) (b : aabb T) : Prop :=
  p3_all D (b_min b) /\ p3_all D (b_max b)
  /\ le pcmp (px (b_min b)) (px (b_max b)) = true /\ le pcmp (py (b_min b)) (py (b_max b)) = true
  /\ le pcmp (pz (b_min b)) (pz (b_max b)) = true.
(* b is the smallest proper box that contains every point satisfying P *)
Definition smallest {T} (pcmp : T -> T -> option comparison) (D : T -> Prop) (P : p3 T -> Prop) (b : aabb T) : Prop :=
  proper pcmp D b
  /\ (forall p, P p -> inside pcmp b p)
  /\ (forall c, proper pcmp D c -> (forall p, P p -> inside pcmp c p) -> forall p, p3_all D p -> inside pcmp b p -> inside pcmp c p).

(* floats *)
Definition not_nan (f : spec_float) : Prop := f <> S754_nan.
Definition finite (f : spec_float) : Prop := match f with S754_zero _ | S754_finite _ _ _ => True | _ => False end.
(* the floats of type f64: mantissas of 53 bits, exponents -1074 to 971 *)
Definition is_f64 (f : spec_float) : Prop :=
  match f with
  | S754_finite _ m e => (e = -1074 /\ Zpos m < 2 ^ 53) \/ (-1074 < e <= 971 /\ 2 ^ 52 <= Zpos m < 2 ^ 53)
  | _ => True
  end.
(* the number a finite float stands for, in units of 2^-1074 *)
Definition scaled (f : spec_float) : Z :=
  match f with S754_finite s m e => (if s then -1 else 1) * (Zpos m * 2 ^ (e + 1074)) | _ => 0 end.

(* each face of the box touches a point *)
Definition tight {T} (pts : list (p3 T)) (b : aabb T) : Prop :=
  (exists p, In p pts /\ px p = px (b_min b)) /\ (exists p, In p pts /\ py p = py (b_min b)) /\ (exists p, In p pts /\ pz p = pz (b_min b))
  /\ (exists p, In p pts /\ px p = px (b_max b)) /\ (exists p, In p pts /\ py p = py (b_max b)) /\ (exists p, In p pts /\ pz p = pz (b_max b)).

(* a value that is not NaN *)
Definition is_number (n : num) : Prop := n <> NFlt S754_nan.

(* P for a number, Q for NaN *)
Definition if_number (n : num) (P Q : Prop) : Prop := match n with NFlt S754_nan => Q | _ => P end.

(* the position of a point *)
Definition position (m : member) (r : list Z) : p3 spec_float :=
  vec3_f64 (match value_as (m_type m) Vec3f64 (attr_value m r) with Some v => v | None => [] end).

(* component k of a value with components of type p *)
Definition component_of (p : prim) (k : nat) (v : list Z) : num := dec_num p (sub v (k * prim_size p)%nat (prim_size p)).
Definition num_le (x y : num) : Prop := le num_cmp x y = true.

(* boxes of exact rational coordinates *)
Definition q_cmp (x y : Q) : option comparison := Some (x ?= y)%Q.
Definition q_as_cubic : aabb Q -> aabb Q := as_cubic Qplus Qminus (fun x => x / 2)%Q (fun x y => if gt q_cmp x y then x else y).
