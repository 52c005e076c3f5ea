(* Property theorems about AABB::as_cubic in f64 arithmetic: C68. *)
From Coq Require Import List ZArith Reals SpecFloat.
From Flocq Require Import Core.
From Verif Require Import MathModel MathSpec LasGridSpec TilesBoxSpec VoxSpec CubicSpec CubicProofs CubicExamples.
Open Scope R_scope.

(* ---- C68 ---- *)
(* Up to rounding: every point of the box is near a point of the cube, the edges of the cube are as long as the longest edge of the box, and the
   centre is the same. Missing: coordinates above 2^900. *)
Theorem C68_f64_cube_partial :
  forall b, moderate_point (b_min b) -> moderate_point (b_max b) -> upright (real_box b) ->
  let c := real_box (f64_as_cubic b) in let d := rounding (real_box b) in
  p3_all real_f64 (b_min (f64_as_cubic b)) /\ p3_all real_f64 (b_max (f64_as_cubic b))
  /\ (forall p, in_box (real_box b) p -> exists q, in_box c q /\ within d p q)
  /\ (exists e, In e (edges (real_box b)) /\ (forall x, In x (edges (real_box b)) -> x <= e) /\ forall x, In x (edges c) -> Rabs (x - e) <= 2 * d)
  /\ within d (middle c) (middle (real_box b)).
Proof. exact f64_cube. Qed.
Print Assumptions C68_f64_cube_partial.

(* Exactly, if the coordinates are whole numbers of at most 2^50. Missing: other coordinates. *)
Theorem C68_whole_numbers_partial :
  forall b, whole_point (b_min b) -> whole_point (b_max b) -> upright (real_box b) ->
  let c := real_box (f64_as_cubic b) in
  (forall p, in_box (real_box b) p -> in_box c p)
  /\ (exists e, In e (edges (real_box b)) /\ (forall x, In x (edges (real_box b)) -> x <= e) /\ forall x, In x (edges c) -> x = e)
  /\ middle c = middle (real_box b).
Proof. exact whole_cube. Qed.
Print Assumptions C68_whole_numbers_partial.

Example C68_f64_nonvacuous : whole_point (b_min whole_box) /\ whole_point (b_max whole_box) /\ upright (real_box whole_box)
  /\ moderate_point (b_min whole_box) /\ moderate_point (b_max whole_box).
Proof. exact whole_box_ok. Qed.
