(* C61, C71: the convex hull. *)
From Coq Require Import String Ascii List ZArith Lia Bool Arith SpecFloat Permutation Reals.
From Verif Require Import Base LayoutModel BufferModel BufferSpec TraitModel TraitSpec MathModel SegModel SegSpec SegExamples
  HullModel HullSpec HullProofs2 HullReal HullPlanar HullExamples.
Import ListNotations.
Open Scope nat_scope.

(* C61. Full statement: for every buffer with positions, of any datatype, both functions return indices of points and do not panic.
   Proved: for f64 positions. The mesh is an error or at least two triangles of indices of points. *)
Theorem C61_mesh_partial : forall order b m, has_positions b m -> any_edge_order order ->
  convex_hull_as_triangle_mesh order b = Err
  \/ exists ts, convex_hull_as_triangle_mesh order b = Ok ts /\ 2 <= length ts /\ forall i j k, In (i, j, k) ts -> i < bf_len b /\ j < bf_len b /\ k < bf_len b.
Proof. exact mesh_ok. Qed.
Print Assumptions C61_mesh_partial.

(* The indices of the points are different indices of points, unless the function panics: see C61_refuted. *)
Theorem C61_points_partial : forall order collect b m, has_positions b m -> any_edge_order order -> any_collect collect ->
  convex_hull_as_points order collect b = Panic
  \/ exists l, convex_hull_as_points order collect b = Ok l /\ l <> [] /\ NoDup l /\ forall v, In v l -> v < bf_len b.
Proof. exact points_ok. Qed.
Print Assumptions C61_points_partial.

(* If there is a mesh, the points are its corners. *)
Theorem C61_points_of_mesh : forall order collect b m ts, has_positions b m -> any_edge_order order -> any_collect collect ->
  convex_hull_as_triangle_mesh order b = Ok ts ->
  exists l, convex_hull_as_points order collect b = Ok l /\ NoDup l /\ forall v, In v l <-> corner ts v.
Proof. exact points_of_mesh. Qed.
Print Assumptions C61_points_of_mesh.

(* One or two points are their own convex hull. *)
Theorem C61_few_points : forall order collect b m, has_positions b m -> any_collect collect -> bf_len b = 1 \/ bf_len b = 2 ->
  exists l, convex_hull_as_points order collect b = Ok l /\ Permutation l (seq 0 (bf_len b)).
Proof. exact few_points. Qed.
Print Assumptions C61_few_points.

Theorem C61_empty_mesh : forall order b m, has_positions b m -> bf_len b = 0 -> convex_hull_as_triangle_mesh order b = Err.
Proof. exact empty_mesh. Qed.
Print Assumptions C61_empty_mesh.

(* convex_hull_as_points panics for every empty buffer ... *)
Theorem C61_empty_panics : forall order collect b m, has_positions b m -> bf_len b = 0 -> convex_hull_as_points order collect b = Panic.
Proof. exact empty_points. Qed.
Print Assumptions C61_empty_panics.

(* ... and both functions panic for every buffer of three or more points whose positions are not f64 vectors: the positions are
   converted in the loop over the points, but the iterations read them without a conversion. *)
Theorem C61_other_datatypes_panic : forall order collect b m,
  bf_wf b -> In m (l_attrs (bf_layout b)) -> m_name m = ad_name POSITION_3D -> m_type m <> Vec3f64 -> 3 <= bf_len b ->
  convex_hull_as_triangle_mesh order b = Panic /\ convex_hull_as_points order collect b = Panic.
Proof. exact other_panics. Qed.
Print Assumptions C61_other_datatypes_panic.

(* A panic does not need an empty buffer: four points on a line, and four points of a plane that are not on a line. *)
Theorem C61_refuted : exists zs zs', length zs = 4 /\ length zs' = 4 /\ NoDup zs
  /\ has_positions (cloud zs) g_pos /\ has_positions (cloud zs') g_pos
  /\ forall order collect, convex_hull_as_points order collect (cloud zs) = Panic /\ convex_hull_as_points order collect (cloud zs') = Panic.
Proof.
  exists line, twice. split; [reflexivity|]. split; [reflexivity|]. split.
  - unfold line. repeat constructor; cbn; intuition discriminate.
  - split; [apply cloud_positions|]. split; [apply cloud_positions|]. intros order collect. split; [apply line_panics|apply twice_panics].
Qed.
Print Assumptions C61_refuted.

Example C61_nonvacuous :
  has_positions (cloud solid) g_pos /\ any_edge_order (fun _ s => s) /\ any_collect (fun s => s)
  /\ convex_hull_as_triangle_mesh (fun _ s => s) (cloud solid)
     = Ok [(0, 2, 1); (0, 1, 3); (1, 2, 5); (3, 1, 5); (2, 0, 6); (0, 3, 6); (3, 5, 6); (5, 2, 6)]
  /\ bf_len (cloud [(1, 2, 3)%Z]) = 1 /\ bf_len (cloud []) = 0
  /\ bf_wf buf_32 /\ In pos_32 (l_attrs (bf_layout buf_32)) /\ m_name pos_32 = ad_name POSITION_3D /\ m_type pos_32 <> Vec3f64 /\ bf_len buf_32 = 3.
Proof.
  split; [apply cloud_positions|]. split; [intros i s; apply Permutation_refl|]. split; [intros s; apply Permutation_refl|]. split; [exact solid_mesh|].
  split; [reflexivity|]. split; [reflexivity|]. split; [exact buf_32_wf|]. split; [vm_compute; auto|]. split; [vm_compute; reflexivity|]. split; [vm_compute; discriminate|reflexivity].
Qed.

(* C71. Full statement: the triangles are the surface of the convex hull of the points: every point is behind or on the plane of every
   triangle, and every vertex of the hull is a corner.
   Proved: in exact arithmetic, for points no four of which are in a plane, the triangles are exactly the facets of the convex hull,
   each once, turned outwards, and they form a closed surface, whatever the order in which the sets are iterated. *)
Theorem C71_facets_partial : forall ps, general_position ps -> forall order, any_edge_order order ->
  exists ts, iterate r_hops (fun i => vec_at ps i) order 0 ps [] = Ok ts
    /\ (forall i j k, facet ps i j k <-> exists t, In t (indices ts) /\ rotated (i, j, k) t) /\ closed_surface (indices ts).
Proof. exact exact_facets. Qed.
Print Assumptions C71_facets_partial.

Example C71_nonvacuous : general_position (map real_point solid) /\ any_edge_order (fun _ s => s).
Proof. split; [exact solid_general|intros i s; apply Permutation_refl]. Qed.

(* For points in a plane a vertex of the hull can be lost. *)
Theorem C71_refuted : exists zs v d, has_positions (cloud zs) g_pos /\ farthest zs d v
  /\ forall order, exists ts, convex_hull_as_triangle_mesh order (cloud zs) = Ok ts /\ ~ corner ts v.
Proof. exists flat, 1, (1, 0, 0)%Z. split; [apply cloud_positions|]. split; [exact flat_corner|exact flat_missing]. Qed.
Print Assumptions C71_refuted.
(* Points in a plane, no three of them on a line: four points give the right vertices, with five an inner point can become a corner. *)
Theorem C71_four_in_plane_partial : forall ps order, length ps = 4 -> in_a_plane ps ->
  exists ts, iterate r_hops (fun i => vec_at ps i) order 0 ps [] = Ok ts /\ forall v, corner (indices ts) v <-> hull_corner ps v.
Proof. exact four_in_plane. Qed.
Print Assumptions C71_four_in_plane_partial.
Example C71_four_nonvacuous : length (map real_point dart) = 4 /\ in_a_plane (map real_point dart).
Proof. split; [reflexivity|exact dart_plane]. Qed.
Example C71_five_example : forall order, exists ts, convex_hull_as_triangle_mesh order (cloud five) = Ok ts /\ forall v, v < 5 -> corner ts v.
Proof. exact five_mesh. Qed.
Theorem C71_inner_corner_refuted : exists zs v, has_positions (cloud zs) g_pos /\ in_a_plane (map real_point zs) /\ ~ hull_corner (map real_point zs) v
  /\ forall order, exists ts, convex_hull_as_triangle_mesh order (cloud zs) = Ok ts /\ corner ts v.
Proof.
  exists pentagon, 3. split; [apply cloud_positions|]. split; [exact pentagon_plane|]. split; [exact pentagon_inner|].
  intros order. eexists. split; [apply pentagon_mesh|]. exists 1, 2, 3. cbn. auto.
Qed.
Print Assumptions C71_inner_corner_refuted.
(* the distance to an edge that the search for hidden edges uses *)
Theorem C71_segment_distance : forall p a b, is_distance p (segment a b) (dist_point_to_line_segment r_hops p a b).
Proof. exact segment_distance. Qed.
Print Assumptions C71_segment_distance.
