(* Specification vocabulary for AABB::as_cubic in f64 arithmetic. *)
From Coq Require Import List ZArith Reals SpecFloat.
From Flocq Require Import Core.
From Verif Require Import MathModel MathSpec LasGridSpec TilesBoxSpec VoxSpec.
Import ListNotations.
Open Scope R_scope.

(* the edges of a box, and the absolute value of its largest coordinate *)
Definition edges (b : aabb R) : list R := [px (b_max b) - px (b_min b); py (b_max b) - py (b_min b); pz (b_max b) - pz (b_min b)].
Definition largest (b : aabb R) : R :=
  Rmax (Rmax (Rmax (Rabs (px (b_min b))) (Rabs (px (b_max b)))) (Rmax (Rabs (py (b_min b))) (Rabs (py (b_max b)))))
       (Rmax (Rabs (pz (b_min b))) (Rabs (pz (b_max b)))).
(* about 2 * 10^-15 of the largest coordinate *)
Definition rounding (b : aabb R) : R := bpow radix2 (-49) * largest b + bpow radix2 (-1071).
Definition within (d : R) (p q : p3 R) : Prop := Rabs (px p - px q) <= d /\ Rabs (py p - py q) <= d /\ Rabs (pz p - pz q) <= d.
Definition middle (b : aabb R) : p3 R := mk_p3 ((px (b_min b) + px (b_max b)) / 2) ((py (b_min b) + py (b_max b)) / 2) ((pz (b_min b) + pz (b_max b)) / 2).
(* coordinates that are whole numbers of at most 2^50 *)
Definition whole (x : spec_float) : Prop := real_f64 x /\ exists k, number x = IZR k /\ (Z.abs k <= 2 ^ 50)%Z.
Definition whole_point (p : p3 spec_float) : Prop := whole (px p) /\ whole (py p) /\ whole (pz p).
