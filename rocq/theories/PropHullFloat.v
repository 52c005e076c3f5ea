(* C71: the convex hull in f64 arithmetic. *)
From Coq Require Import List ZArith Reals Permutation.
From Verif Require Import Base BufferModel BufferSpec TraitModel MathModel MathSpec SegModel SegSpec SegExamples TilesBoxSpec HullModel HullSpec HullExamples HullFloatSpec HullFloat2 HullFloatExamples.
Import ListNotations.
Open Scope nat_scope.

(* C71, in f64 arithmetic. The coordinates are multiples of a power of two, at most 2^15 in number (in both directions); no four points are
   in a plane; the angle at the first point between the second and the third is not too small. Then the mesh of the buffer is exactly the
   facets of the convex hull of its positions, turned outwards, and a closed surface. Missing: coordinates with more digits, for which the
   determinants are rounded; points in a plane, for which C71_refuted shows that vertices are lost; small angles, for which
   C71_rounding_refuted shows the same. *)
Theorem C71_f64_partial : forall order b m e, has_positions b m -> any_edge_order order -> (-200 <= e <= 200)%Z -> Forall (grid_point e) (points3 b m) ->
  let ps := map TilesBoxSpec.real_point (points3 b m) in
  general_position ps -> wide_angle (point ps 0) (point ps 1) (point ps 2) ->
  exists ts, convex_hull_as_triangle_mesh order b = Ok ts
    /\ (forall i j k, facet ps i j k <-> exists t, In t ts /\ rotated (i, j, k) t) /\ closed_surface ts.
Proof. exact float_hull. Qed.
Print Assumptions C71_f64_partial.

Example C71_f64_nonvacuous : has_positions (cloud solid) g_pos /\ any_edge_order (fun _ s => s) /\ Forall (grid_point 0) (points3 (cloud solid) g_pos)
  /\ let ps := map TilesBoxSpec.real_point (points3 (cloud solid) g_pos) in general_position ps /\ wide_angle (point ps 0) (point ps 1) (point ps 2).
Proof. split; [apply cloud_positions|]. split; [intros i s; apply Permutation_refl|]. split; [exact solid_grid|exact solid_angle]. Qed.

(* A vertex of the hull can be lost although no four points are in a plane and all coordinates are small whole numbers: the test for points
   on a line compares two rounded lengths. *)
Theorem C71_rounding_refuted : exists zs v d, has_positions (cloud zs) g_pos /\ Forall (grid_point 0) (points3 (cloud zs) g_pos)
  /\ general_position (map TilesBoxSpec.real_point (points3 (cloud zs) g_pos)) /\ farthest zs d v
  /\ forall order, exists ts, convex_hull_as_triangle_mesh order (cloud zs) = Ok ts /\ ~ corner ts v.
Proof.
  exists narrow, 2, (40000, -40001, 0)%Z. split; [apply cloud_positions|]. split; [exact narrow_grid|]. split; [exact narrow_general|]. split; [exact narrow_corner|exact narrow_missing].
Qed.
Print Assumptions C71_rounding_refuted.
