(* Examples for the convex hull in f64 arithmetic. *)
From Coq Require Import List ZArith Reals Lia Lra SpecFloat Psatz.
From Flocq Require Import Core.
From Verif Require Import Base BufferModel BufferSpec TraitModel MathModel MathSpec SegModel SegSpec SegExamples LasGridSpec VoxSpec F64Real TilesBoxSpec HullModel HullSpec HullExamples HullFloatSpec.
Import ListNotations.
Open Scope nat_scope.

Definition float_point (z : Z * Z * Z) : p3 spec_float :=
  let '(x, y, z) := z in mk_p3 (binary_normalize 53 1024 x 0 false) (binary_normalize 53 1024 y 0 false) (binary_normalize 53 1024 z 0 false).
Definition bounded (z : Z * Z * Z) : Prop := let '(x, y, z) := z in (Z.abs x <= 2 ^ 15 /\ Z.abs y <= 2 ^ 15 /\ Z.abs z <= 2 ^ 15)%Z.
Lemma float_real z : bounded z -> TilesBoxSpec.real_point (float_point z) = HullExamples.real_point z.
Proof.
  destruct z as ((x, y), z). intros (A & B & C). unfold TilesBoxSpec.real_point, HullExamples.real_point, float_point. cbn [px py pz].
  f_equal; change number with val; apply of_int; lia.
Qed.
Lemma float_grid z : bounded z -> grid_point 0 (float_point z).
Proof.
  destruct z as ((x, y), z). intros (A & B & C). unfold grid_point, grid_coordinate, float_point. cbn [px py pz]. change number with val. cbn [bpow].
  split; [|split]; [destruct (of_int x) as (R & V)|destruct (of_int y) as (R & V)|destruct (of_int z) as (R & V)]; try lia; (split; [exact R|]); eexists; (split; [rewrite V; symmetry; apply Rmult_1_r|assumption]).
Qed.
Lemma solid_bounded : Forall bounded solid.
Proof. unfold solid. repeat constructor; cbn; lia. Qed.
Lemma solid_floats : points3 (cloud solid) g_pos = map float_point solid.
Proof. vm_compute. reflexivity. Qed.
Lemma solid_grid : Forall (grid_point 0) (points3 (cloud solid) g_pos).
Proof. rewrite solid_floats. apply Forall_map. eapply Forall_impl; [|exact solid_bounded]. exact float_grid. Qed.
Lemma solid_reals : map TilesBoxSpec.real_point (points3 (cloud solid) g_pos) = map HullExamples.real_point solid.
Proof. rewrite solid_floats, map_map. pose proof solid_bounded as B. induction B; cbn [map]; [reflexivity|]. f_equal; auto. now apply float_real. Qed.
Lemma solid_angle : let ps := map TilesBoxSpec.real_point (points3 (cloud solid) g_pos) in general_position ps /\ wide_angle (point ps 0) (point ps 1) (point ps 2).
Proof.
  cbv zeta. rewrite solid_reals. split; [exact solid_general|]. cbn [point map nth solid]. unfold wide_angle, dot3, cross3, minus3, HullExamples.real_point. cbn [px py pz].
  change (bpow radix2 (-46)) with (/ 70368744177664)%R. lra.
Qed.
(* two points almost in the same direction from the first *)
Definition narrow : list (Z * Z * Z) := [(0, 0, 0); (32767, 32766, 0); (32766, 32765, 0); (0, 0, 1)]%Z.
Lemma narrow_bounded : Forall bounded narrow.
Proof. unfold narrow. repeat constructor; cbn; lia. Qed.
Lemma narrow_floats : points3 (cloud narrow) g_pos = map float_point narrow.
Proof. vm_compute. reflexivity. Qed.
Lemma narrow_grid : Forall (grid_point 0) (points3 (cloud narrow) g_pos).
Proof. rewrite narrow_floats. apply Forall_map. eapply Forall_impl; [|exact narrow_bounded]. exact float_grid. Qed.
Lemma narrow_reals : map TilesBoxSpec.real_point (points3 (cloud narrow) g_pos) = map HullExamples.real_point narrow.
Proof. rewrite narrow_floats, map_map. pose proof narrow_bounded as B. induction B; cbn [map]; [reflexivity|]. f_equal; auto. now apply float_real. Qed.
Lemma narrow_general : general_position (map TilesBoxSpec.real_point (points3 (cloud narrow) g_pos)).
Proof. rewrite narrow_reals. apply z_general_ok. vm_compute. reflexivity. Qed.
Lemma narrow_mesh order : convex_hull_as_triangle_mesh order (cloud narrow) = Ok [(0, 1, 3); (0, 3, 1)].
Proof. vm_compute. reflexivity. Qed.
Lemma narrow_missing order : exists ts, convex_hull_as_triangle_mesh order (cloud narrow) = Ok ts /\ ~ corner ts 2.
Proof. eexists. split; [apply narrow_mesh|]. intros (i & j & k & I & Q). cbn in I. repeat (destruct I as [I|I]; [injection I; lia|]). contradiction. Qed.
Lemma narrow_corner : farthest narrow (40000, -40001, 0)%Z 2.
Proof. split; [vm_compute; lia|]. intros w L N. cbn in L. destruct w as [|[|[|[|]]]]; try lia; vm_compute; reflexivity. Qed.
