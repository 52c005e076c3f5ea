(* Vocabulary for the bounding boxes of tiles: points of boxes as real numbers. *)
From Coq Require Import List ZArith Reals SpecFloat.
From Flocq Require Import Core.
From Verif Require Import MathModel MathSpec TilesModel LasGridSpec.
Open Scope R_scope.

(* the points of an axis-aligned box *)
Definition in_box (b : aabb R) (p : p3 R) : Prop :=
  px (b_min b) <= px p <= px (b_max b) /\ py (b_min b) <= py p <= py (b_max b) /\ pz (b_min b) <= pz p <= pz (b_max b).
(* The points of the oriented box with centre c and half axes x, y, z: c + s x + t y + u z with s, t, u between -1 and 1 *)
Definition in_oriented_box (c x y z p : p3 R) : Prop :=
  exists s t u : R, -1 <= s <= 1 /\ -1 <= t <= 1 /\ -1 <= u <= 1
  /\ px p = px c + s * px x + t * px y + u * px z
  /\ py p = py c + s * py x + t * py y + u * py z
  /\ pz p = pz c + s * pz x + t * pz y + u * pz z.
(* no axis runs backwards *)
Definition upright (b : aabb R) : Prop :=
  px (b_min b) <= px (b_max b) /\ py (b_min b) <= py (b_max b) /\ pz (b_min b) <= pz (b_max b).
(* the box of a tile made of an AABB, calculated exactly *)
Definition r_box_of_aabb : aabb R -> list R := box_of_aabb 0 Rplus Rminus (fun x => x / 2) (fun x => x * (1 / 2)).
(* floats as real numbers *)
Definition real_point (p : p3 spec_float) : p3 R := mk_p3 (number (px p)) (number (py p)) (number (pz p)).
Definition real_box (b : aabb spec_float) : aabb R := mk_aabb (real_point (b_min b)) (real_point (b_max b)).
Definition moderate_point (p : p3 spec_float) : Prop := moderate (px p) /\ moderate (py p) /\ moderate (pz p).
(* the rounding of coordinates as large as those of the box *)
Definition slack (lo hi : R) : R := bpow radix2 (-50) * Rmax (Rabs lo) (Rabs hi) + bpow radix2 (-1072).
Definition close (b : aabb R) (p q : p3 R) : Prop :=
  Rabs (px p - px q) <= slack (px (b_min b)) (px (b_max b))
  /\ Rabs (py p - py q) <= slack (py (b_min b)) (py (b_max b))
  /\ Rabs (pz p - pz q) <= slack (pz (b_min b)) (pz (b_max b)).
