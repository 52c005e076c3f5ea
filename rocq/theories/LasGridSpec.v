(* Vocabulary for coordinates on the grid of a LAS file. *)
From Coq Require Import ZArith Reals SpecFloat.
From Flocq Require Import Core BinarySingleNaN.
From Verif Require Import MathModel MathSpec LasModel LasIoModel LasIoSpec VoxSpec.
Open Scope R_scope.

(* the real number of a finite float *)
Definition number (x : spec_float) : R := SF2R radix2 x.
(* a finite f64 of magnitude at most 2^900 *)
Definition moderate (x : spec_float) : Prop := real_f64 x /\ Rabs (number x) <= bpow radix2 900.
(* a positive scale between 2^-900 and 2^900 *)
Definition moderate_scale (s : spec_float) : Prop := real_f64 s /\ bpow radix2 (-900) <= number s <= bpow radix2 900.
(* c is less than 2^31 scale steps from the offset *)
Definition reachable (c o s : spec_float) : Prop :=
  moderate c /\ moderate o /\ moderate_scale s /\ Rabs (number c - number o) <= IZR (2 ^ 31 - 1) * number s.
(* c' is at most one step of the scale from c, but for the rounding of numbers as large as the offset and 2^33 steps *)
Definition one_step (c o s c' : spec_float) : Prop :=
  Rabs (number c' - number c) <= number s + bpow radix2 (-50) * (Rabs (number o) + IZR (2 ^ 33) * number s).
(* the scale is a power of two and the offset is a multiple of it, by at most 2^52 *)
Definition binary_grid (o s : spec_float) : Prop :=
  real_f64 o /\ real_f64 s /\ exists e m, (-900 <= e <= 800)%Z /\ (Z.abs m <= 2 ^ 52)%Z /\ number s = bpow radix2 e /\ number o = IZR m * bpow radix2 e.
(* P for the three coordinates of a position, its offset, its scale and another position *)
Definition for_axes (P : spec_float -> spec_float -> spec_float -> spec_float -> Prop) (p : p3 spec_float) (t : transforms) (q : p3 spec_float) : Prop :=
  P (px p) (px (t_offset t)) (px (t_scale t)) (px q) /\ P (py p) (py (t_offset t)) (py (t_scale t)) (py q) /\ P (pz p) (pz (t_offset t)) (pz (t_scale t)) (pz q).
(* a finite coordinate of magnitude at most 2147483 *)
Definition in_millimetre_range (c : spec_float) : Prop := real_f64 c /\ Rabs (number c) <= 2147483.
(* coordinates that differ by at most 0.001001 *)
Definition within_millimetre (c c' : spec_float) : Prop := Rabs (number c' - number c) <= 1001 / 1000000.
