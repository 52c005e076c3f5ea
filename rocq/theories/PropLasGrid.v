(* Property theorems C38 and C39: how far positions move when they are written to a LAS file and read back. The refutations of the exact
   claims are in PropLasIo.v. Reals are those of the standard library, the real number of a float is Flocq's SF2R. *)
From Coq Require Import List ZArith Reals Lia Lra SpecFloat.
From Flocq Require Import Core.
From Verif Require Import Base NumModel NumSpec MathModel MathSpec LasModel LasIoModel LasIoSpec VoxSpec LasGridSpec LasFloat LasFloat2 LasGridExamples LasIoProofs11.
Import ListNotations.
Open Scope nat_scope.

(* ---- C38 ---- *)
(* A position less than 2^31 steps from the offset is stored, and what is read is at most a step away, up to the rounding of the offset *)
Theorem C38_scale_step_partial :
  forall t p, for_axes (fun c o s _ => reachable c o s) p t p ->
  exists bs, grid_position t p = Some bs /\ for_axes one_step p t (vec3_f64 (world_position t bs)).
Proof. exact positions_step. Qed.
Print Assumptions C38_scale_step_partial.

(* at most a step away if the scale is a power of two *)
Theorem C38_binary_scale_partial :
  forall t p, for_axes (fun c o s _ => reachable c o s /\ binary_grid o s) p t p ->
  exists bs, grid_position t p = Some bs
  /\ for_axes (fun c o s c' => (Rabs (number c' - number c) <= number s)%R) p t (vec3_f64 (world_position t bs)).
Proof. exact positions_binary. Qed.
Print Assumptions C38_binary_scale_partial.

(* ---- C39 ---- *)
(* an integer read and written again is the same or the next one toward zero *)
Theorem C39_neighbour_partial :
  forall k s o, (- 2 ^ 31 <= k < 2 ^ 31)%Z -> moderate_scale s -> moderate o -> (Rabs (number o) <= IZR (2 ^ 48) * number s)%R ->
  exists v, grid (world k s o) o s = Some v /\ (v = k \/ v = k - Z.sgn k)%Z.
Proof. exact grid_step. Qed.
Print Assumptions C39_neighbour_partial.

(* the same if the scale is a power of two: the position field of a record, read and written *)
Theorem C39_binary_scale_partial :
  forall t bs, is_bytes bs -> length bs = 12 ->
  binary_grid (px (t_offset t)) (px (t_scale t)) -> binary_grid (py (t_offset t)) (py (t_scale t)) -> binary_grid (pz (t_offset t)) (pz (t_scale t)) ->
  grid_position t (vec3_f64 (world_position t bs)) = Some bs.
Proof. exact records_binary. Qed.
Print Assumptions C39_binary_scale_partial.

(* ---- the hypotheses hold ---- *)
Example C38_example :
  for_axes (fun c o s _ => reachable c o s) (mk_p3 coordinate coordinate coordinate) hundredths (mk_p3 coordinate coordinate coordinate)
  /\ for_axes (fun c o s _ => reachable c o s /\ binary_grid o s) (mk_p3 coordinate coordinate coordinate) quarters (mk_p3 coordinate coordinate coordinate)
  /\ exists v, grid coordinate hundred hundredth = Some v /\ v <> 0%Z.
Proof.
  split; [split; [|split]; exact reach_hundredths|]. split; [split; [|split]; exact reach_quarters|]. eexists. split; [vm_compute; reflexivity|discriminate].
Qed.
Example C39_example :
  moderate_scale hundredth /\ moderate hundred /\ (Rabs (number hundred) <= IZR (2 ^ 48) * number hundredth)%R
  /\ binary_grid hundred quarter /\ grid (world 29 hundredth hundred) hundred hundredth <> None.
Proof.
  destruct reach_hundredths as (_ & O & S & _). split; [exact S|]. split; [exact O|]. split; [|split; [exact (proj2 reach_quarters)|vm_compute; discriminate]].
  change (2 ^ 48)%Z with 281474976710656%Z. numbers. apply Rabs_le. lra.
Qed.
