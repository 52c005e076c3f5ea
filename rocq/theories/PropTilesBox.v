(* Theorems about the bounding boxes of tiles. *)
From Coq Require Import List ZArith Reals SpecFloat.
From Flocq Require Import Core.
From Verif Require Import MathModel MathSpec TilesModel LasGridSpec TilesBoxSpec TilesBoxProofs.
Open Scope R_scope.

(* ---- C80: the box of a tile made of an AABB covers the same points ---- *)
(* calculated exactly *)
Theorem C80_exact_box : forall b p, upright b ->
  let bx := r_box_of_aabb b in
  in_oriented_box (box_center 0 bx) (box_x 0 bx) (box_y 0 bx) (box_z 0 bx) p <-> in_box b p.
Proof. exact exact_box. Qed.
Print Assumptions C80_exact_box.
(* in f64 arithmetic: up to the rounding of the coordinates *)
Theorem C80_f64_box_partial : forall b, moderate_point (b_min b) -> moderate_point (b_max b) -> upright (real_box b) ->
  let bx := f64_box_of_aabb b in
  let in_tile := in_oriented_box (real_point (box_center f64_zero bx)) (real_point (box_x f64_zero bx)) (real_point (box_y f64_zero bx)) (real_point (box_z f64_zero bx)) in
  (forall p, in_box (real_box b) p -> exists q, in_tile q /\ close (real_box b) p q)
  /\ (forall q, in_tile q -> exists p, in_box (real_box b) p /\ close (real_box b) p q).
Proof. exact f64_box. Qed.
Print Assumptions C80_f64_box_partial.
(* a corner of the AABB can be outside *)
Theorem C80_corner_refuted : let bx := f64_box_of_aabb lost_box in
  moderate_point (b_min lost_box) /\ moderate_point (b_max lost_box) /\ upright (real_box lost_box) /\ in_box (real_box lost_box) (real_point (b_max lost_box))
  /\ ~ in_oriented_box (real_point (box_center f64_zero bx)) (real_point (box_x f64_zero bx)) (real_point (box_y f64_zero bx)) (real_point (box_z f64_zero bx)) (real_point (b_max lost_box)).
Proof. exact lost_point. Qed.
Print Assumptions C80_corner_refuted.
(* the hypotheses of the two theorems above hold for the box of the refutation *)
Example C80_example : moderate_point (b_min lost_box) /\ moderate_point (b_max lost_box) /\ upright (real_box lost_box).
Proof. destruct lost_point as (A & B & C & _). auto. Qed.
