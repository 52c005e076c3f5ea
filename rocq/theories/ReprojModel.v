(* Model of pasture-algorithms/src/reprojection.rs. The projection itself is computed by the PROJ library; it is the parameter proj here, a
   function of the position. *)
From Coq Require Import String List ZArith Bool Arith.
From Verif Require Import Base LayoutModel BufferModel TraitModel NumModel MathModel.
Import ListNotations.
Set Implicit Arguments.
Open Scope nat_scope.

(* Projection::transform_bounds, reprojection.rs:49-62 *)
Definition transform_bounds {T : Type} (pcmp : T -> T -> option comparison) (proj : p3 T -> p3 T) (bounds : aabb T) : aabb T :=
  let transformed_min := proj (b_min bounds) in
  let transformed_max := proj (b_max bounds) in
  extend_with_point pcmp (mk_aabb transformed_min transformed_min) transformed_max.

(* reproject_point_cloud_within, reprojection.rs:132-147; proj maps the bytes of a Vector3<f64> *)
Definition reproject_within (b : mbuf) (proj : list Z -> list Z) : res mbuf :=
  let num_points := mb_len b in
  let* m := attribute_view (mb_layout b) POSITION_3D Vec3f64 in
  foldM (fun b index =>
           let* point := attribute_view_mut_at b m Vec3f64 index in
           mb_set_attribute b (m_def m) index (proj point))
        (range 0 num_points) b.

(* reproject_point_cloud_between, reprojection.rs:201-225 *)
Definition reproject_between (source : buffer) (target : mbuf) (proj : list Z -> list Z) : res mbuf :=
  let* _ := assert (Nat.eqb (bf_len source) (mb_len target)) in
  let* tm := attribute_view (mb_layout target) POSITION_3D Vec3f64 in
  let* _ := attribute_view (bf_layout source) POSITION_3D Vec3f64 in
  foldM (fun t index =>
           let* point := attribute_view_at source POSITION_3D Vec3f64 index in
           mb_set_attribute t (m_def tm) index (proj point))
        (range 0 (bf_len source)) target.
