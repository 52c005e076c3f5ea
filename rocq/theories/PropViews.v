(* Property theorems about raw views, the comparison of views and buffers, and reprojection: C74 - C77, and push_point of C22. *)
From Coq Require Import String List ZArith Lia Bool Arith SpecFloat.
From Verif Require Import Base LayoutModel LayoutSpec BufferModel BufferSpec TraitModel TraitSpec NumModel ConvModel ConvSpec MathModel MathSpec
  BufferExamples MathExamples ViewsModel ViewsSpec ViewsProofs ReprojModel ReprojProofs ViewsExamples.
Import ListNotations.
Open Scope nat_scope.

(* ---- C22 ---- *)
Theorem C22_push_point_interleaved :
  forall (b : vbuf) (p : list Z), vb_inv b -> length p = l_size (vb_layout b) ->
  exists b', vb_push_point b (vb_layout b) p = Ok b' /\ vb_inv b' /\ vb_layout b' = vb_layout b
    /\ mb_points (VecB b') = mb_points (VecB b) ++ [p].
Proof. exact vb_push_point_ok. Qed.
Print Assumptions C22_push_point_interleaved.

Theorem C22_push_point_columnar :
  forall (b : hbuf) (p : list Z), hb_inv b -> length p = l_size (hb_layout b) ->
  exists b', hb_push_point b (hb_layout b) p = Ok b' /\ hb_inv b' /\ hb_layout b' = hb_layout b
    /\ mb_points (MapB b') = mb_points (MapB b) ++ [stored (MapB b) p].
Proof. exact hb_push_point_ok. Qed.
Print Assumptions C22_push_point_columnar.

Example C22_push_point_nonvacuous : vb_inv ex_vec /\ hb_inv ex_map
  /\ (exists b, vb_push_point ex_vec ex_layout (firstn 24 ex_bytes) = Ok b /\ vb_len b = 6)
  /\ (exists b, hb_push_point ex_map ex_layout (firstn 24 ex_bytes) = Ok b /\ hb_len b = 6).
Proof.
  split; [exact ex_vec_inv|]. split; [exact ex_map_inv|]. split; eexists; (split; [vm_compute; reflexivity|reflexivity]).
Qed.

(* ---- C74 ---- *)
(* Proved: everything for attributes of the layout with at least one byte. Missing: the length of a view of an attribute without bytes, and
   views of an attribute taken from another layout, in which it lies elsewhere; both refuted below. *)
Theorem C74_raw_view_reads_partial :
  forall (b : buffer) (m : member), bf_wf b -> In m (l_attrs (bf_layout b)) ->
  exists v, view_raw_attribute b m = Ok v /\ raw_len v = Ok (bf_len b)
    /\ (forall i p, nth_error (bf_points b) i = Some p -> raw_index v i = Ok (attr_value m p))
    /\ (forall i, bf_len b <= i -> raw_index v i = Panic).
Proof. exact raw_view_ok. Qed.
Print Assumptions C74_raw_view_reads_partial.

Theorem C74_raw_view_writes_partial :
  forall (b : mbuf) (m : member) (i : nat) (v : list Z),
  mb_wf b -> In m (l_attrs (mb_layout b)) -> i < mb_len b -> length v = m_size m ->
  exists b', raw_set b m i v = Ok b' /\ mb_wf b' /\ mb_layout b' = mb_layout b /\ mb_len b' = mb_len b
    /\ mb_points b' = with_value_at m i v (mb_points b)
    /\ mb_len (mb_root b') = mb_len (mb_root b)
    /\ (forall q, q < mb_off b \/ mb_off b + mb_len b <= q ->
          nth_error (mb_points (mb_root b')) q = nth_error (mb_points (mb_root b)) q).
Proof. exact raw_set_ok. Qed.
Print Assumptions C74_raw_view_writes_partial.

Theorem C74_raw_view_writes_panic_partial :
  forall (b : mbuf) (m : member) (i : nat) (v : list Z),
  mb_wf b -> In m (l_attrs (mb_layout b)) -> mb_len b <= i \/ length v <> m_size m -> raw_set b m i v = Panic.
Proof. exact raw_set_panics. Qed.
Print Assumptions C74_raw_view_writes_panic_partial.

Theorem C74_length_refuted :
  exists b v, hb_push_points (hb_new empty_layout) [1; 2; 3; 4]%Z = Ok b /\ hb_len b = 2 /\ In empty_member (l_attrs (hb_layout b))
    /\ view_raw_attribute (Of (MapB b)) empty_member = Ok v /\ raw_len v = Panic.
Proof. exact empty_len. Qed.
Print Assumptions C74_length_refuted.

(* ex_map and ex_vec hold the same points; the view of the columnar buffer shows the gps time, the one of the interleaved buffer the
   intensity and the bytes after it *)
Theorem C74_member_of_another_layout_refuted :
  In m_gps (l_attrs ex_layout) /\ In other_gps (l_attrs other_layout) /\ m_def other_gps = m_def m_gps
  /\ (exists v, view_raw_attribute (Of (MapB ex_map)) other_gps = Ok v /\ raw_index v 0 = Ok [9; 10; 11; 12; 13; 14; 15; 16]%Z)
  /\ (exists v, view_raw_attribute (Of (VecB ex_vec)) other_gps = Ok v /\ raw_index v 0 = Ok [1; 2; 3; 4; 5; 6; 7; 8]%Z).
Proof. exact foreign_member. Qed.
Print Assumptions C74_member_of_another_layout_refuted.

Example C74_nonvacuous :
  bf_wf (SliceB (Of (MapB ex_map)) 1 4) /\ mb_wf ex_slice /\ In m_gps (l_attrs ex_layout) /\ length [1; 2; 3; 4; 5; 6; 7; 8]%Z = m_size m_gps
  /\ exists b, raw_set ex_slice m_gps 1 [1; 2; 3; 4; 5; 6; 7; 8]%Z = Ok b.
Proof.
  split; [split; [exact ex_map_inv|vm_compute; lia]|]. split; [exact ex_slice_wf|]. split; [exact ex_gps|]. split; [reflexivity|].
  eexists. vm_compute. reflexivity.
Qed.

(* ---- C75 ---- *)
(* eqv is the == of the type of the points or values; for floats it is not reflexive. *)
Theorem C75_point_views :
  forall eqv (b1 b2 : buffer) (l : layout), bf_wf b1 -> bf_wf b2 -> bf_layout b1 = l -> bf_layout b2 = l ->
  exists r, point_view_eq eqv b1 b2 l = Ok r /\ (r = true <-> same_values eqv (bf_points b1) (bf_points b2)).
Proof. exact point_view_eq_ok. Qed.
Print Assumptions C75_point_views.

Theorem C75_point_views_panic :
  forall eqv (b1 b2 : buffer) (l : layout), bf_layout b1 <> l \/ bf_layout b2 <> l -> point_view_eq eqv b1 b2 l = Panic.
Proof. exact point_view_eq_panics. Qed.
Print Assumptions C75_point_views_panic.

Theorem C75_attribute_views :
  forall eqv (b1 b2 : buffer) (m1 m2 : member) (t : datatype), bf_wf b1 -> bf_wf b2 ->
  In m1 (l_attrs (bf_layout b1)) -> In m2 (l_attrs (bf_layout b2)) -> m_type m1 = t -> m_type m2 = t ->
  exists r, attribute_view_eq eqv b1 b2 (m_def m1) (m_def m2) t = Ok r
    /\ (r = true <-> m_def m1 = m_def m2
                     /\ same_values eqv (map (attr_value m1) (bf_points b1)) (map (attr_value m2) (bf_points b2))).
Proof. exact attribute_view_eq_ok. Qed.
Print Assumptions C75_attribute_views.

(* Missing: views that show the same values of attributes stored as different types are not equal (refuted below). *)
Theorem C75_converting_views_partial :
  forall eqv (b1 b2 : buffer) (m1 m2 : member) (a1 a2 : attr_def) (t : datatype), bf_wf b1 -> bf_wf b2 ->
  In m1 (l_attrs (bf_layout b1)) -> In m2 (l_attrs (bf_layout b2)) ->
  m_name m1 = ad_name a1 -> m_name m2 = ad_name a2 -> ad_type a1 = t -> ad_type a2 = t ->
  convertible (m_type m1) t -> convertible (m_type m2) t ->
  exists r, converting_view_eq eqv b1 b2 a1 a2 t = Ok r
    /\ (r = true <-> m_def m1 = m_def m2
                     /\ same_values eqv (map (converted m1 t) (bf_points b1)) (map (converted m2 t) (bf_points b2))).
Proof. exact converting_view_eq_ok. Qed.
Print Assumptions C75_converting_views_partial.

(* the same attribute with the same values, stored as Vec3f32 and as Vec3f64 *)
Theorem C75_converting_views_refuted :
  exists b1 b2 a t vs, bf_wf b1 /\ bf_wf b2 /\ bf_len b1 = bf_len b2 /\ 0 < bf_len b1
  /\ map (converting_view_at b1 a t) (seq 0 (bf_len b1)) = map Ok vs
  /\ map (converting_view_at b2 a t) (seq 0 (bf_len b2)) = map Ok vs
  /\ converting_view_eq bytes_eqb b1 b2 a a t = Ok false.
Proof. exact converted_differ. Qed.
Print Assumptions C75_converting_views_refuted.

Theorem C75_interleaved_buffers :
  forall (x y : vbuf), vb_inv x -> vb_inv y ->
  (vb_eqb x y = true <-> vb_layout x = vb_layout y /\ mb_points (VecB x) = mb_points (VecB y)).
Proof. exact vb_eqb_iff. Qed.
Print Assumptions C75_interleaved_buffers.

Theorem C75_columnar_buffers :
  forall (x y : hbuf), hb_inv x -> hb_inv y ->
  (hb_eqb x y = true <-> hb_layout x = hb_layout y /\ mb_points (MapB x) = mb_points (MapB y)).
Proof. exact hb_eqb_iff. Qed.
Print Assumptions C75_columnar_buffers.

Example C75_nonvacuous :
  bf_wf (Of (MapB ex_map)) /\ bf_wf (SliceB (Of (MapB ex_map)) 1 4)
  /\ point_view_eq bytes_eqb (Of (MapB ex_map)) (Of (MapB ex_map)) ex_layout = Ok true
  /\ point_view_eq bytes_eqb (Of (MapB ex_map)) (SliceB (Of (MapB ex_map)) 1 4) ex_layout = Ok false
  /\ attribute_view_eq bytes_eqb (Of (MapB ex_map)) (Of (VecB ex_vec)) INTENSITY INTENSITY U16 = Ok true
  /\ convertible (m_type m_intensity) I64
  /\ converting_view_eq bytes_eqb (Of (MapB ex_map)) (Of (VecB ex_vec)) (with_custom_datatype INTENSITY I64) (with_custom_datatype INTENSITY I64) I64 = Ok true
  /\ hb_eqb ex_map ex_map = true /\ vb_eqb ex_vec ex_vec = true.
Proof.
  split; [exact ex_map_inv|]. split; [split; [exact ex_map_inv|vm_compute; lia]|]. split; [vm_compute; reflexivity|]. split; [vm_compute; reflexivity|].
  split; [vm_compute; reflexivity|]. split; [right; left; split; discriminate|]. repeat split; vm_compute; reflexivity.
Qed.

(* ---- C76 ---- *)
Theorem C76_reproject_within :
  forall (b : mbuf) (m : member) (proj : list Z -> list Z), mb_wf b -> In m (l_attrs (mb_layout b)) -> m_def m = POSITION_3D ->
  (forall v, length v = 24 -> length (proj v) = 24) ->
  exists b', reproject_within b proj = Ok b' /\ mb_wf b' /\ mb_layout b' = mb_layout b /\ mb_len b' = mb_len b
    /\ mb_points b' = map (fun r => with_attr m (proj (attr_value m r)) r) (mb_points b)
    /\ mb_len (mb_root b') = mb_len (mb_root b)
    /\ (forall q, q < mb_off b \/ mb_off b + mb_len b <= q ->
          nth_error (mb_points (mb_root b')) q = nth_error (mb_points (mb_root b)) q).
Proof. exact within_ok. Qed.
Print Assumptions C76_reproject_within.

Theorem C76_reproject_within_panics :
  forall (b : mbuf) (proj : list Z -> list Z), mb_wf b -> (forall m, In m (l_attrs (mb_layout b)) -> m_def m <> POSITION_3D) ->
  reproject_within b proj = Panic.
Proof. exact within_panics. Qed.
Print Assumptions C76_reproject_within_panics.

Theorem C76_reproject_between :
  forall (src : buffer) (b : mbuf) (sm m : member) (proj : list Z -> list Z), bf_wf src -> mb_wf b -> bf_len src = mb_len b ->
  In sm (l_attrs (bf_layout src)) -> m_def sm = POSITION_3D -> In m (l_attrs (mb_layout b)) -> m_def m = POSITION_3D ->
  (forall v, length v = 24 -> length (proj v) = 24) ->
  exists b', reproject_between src b proj = Ok b' /\ mb_wf b' /\ mb_layout b' = mb_layout b /\ mb_len b' = mb_len b
    /\ (forall k p r, nth_error (bf_points src) k = Some p -> nth_error (mb_points b) k = Some r ->
          nth_error (mb_points b') k = Some (with_attr m (proj (attr_value sm p)) r))
    /\ mb_len (mb_root b') = mb_len (mb_root b)
    /\ (forall q, q < mb_off b \/ mb_off b + mb_len b <= q ->
          nth_error (mb_points (mb_root b')) q = nth_error (mb_points (mb_root b)) q).
Proof. exact between_ok. Qed.
Print Assumptions C76_reproject_between.

Theorem C76_reproject_between_panics :
  forall (src : buffer) (b : mbuf) (proj : list Z -> list Z), bf_wf src -> mb_wf b ->
  bf_len src <> mb_len b \/ (forall m, In m (l_attrs (bf_layout src)) -> m_def m <> POSITION_3D)
    \/ (forall m, In m (l_attrs (mb_layout b)) -> m_def m <> POSITION_3D) ->
  reproject_between src b proj = Panic.
Proof. exact between_panics. Qed.
Print Assumptions C76_reproject_between_panics.

(* a projection that exchanges the first two coordinates *)
Definition exchange_xy (v : list Z) : list Z := sub v 8 8 ++ sub v 0 8 ++ skipn 16 v.
Example C76_nonvacuous :
  mb_wf (VecB b64) /\ In (pos_member Vec3f64) (l_attrs (mb_layout (VecB b64))) /\ m_def (pos_member Vec3f64) = POSITION_3D
  /\ (forall v, length v = 24 -> length (exchange_xy v) = 24)
  /\ (exists b, reproject_within (VecB b64) exchange_xy = Ok b)
  /\ (exists b, reproject_between (pos_buffer [mk_p3 f_1 f_2 f_3]) (VecB b64) exchange_xy = Ok b
       /\ mb_points b = [pos_point (mk_p3 f_2 f_1 f_3)]).
Proof.
  split; [exact b64_inv|]. split; [vm_compute; auto|]. split; [reflexivity|]. split.
  - intros v L. unfold exchange_xy, sub. rewrite !app_length, !firstn_length, !skipn_length. lia.
  - split; eexists; [vm_compute; reflexivity|]. split; vm_compute; reflexivity.
Qed.

(* ---- C77 ---- *)
(* Proved: the box of the images of the two corners; for projections that act on every axis alone and monotonically it contains the images of
   all points of the box. Missing: that it does so for every projection (refuted below). *)
Theorem C77_box_of_the_corners_partial :
  forall (T : Type) (pcmp : T -> T -> option comparison) (D : T -> Prop), total_on pcmp D ->
  forall (proj : p3 T -> p3 T) (b : aabb T), p3_all D (proj (b_min b)) -> p3_all D (proj (b_max b)) ->
  smallest pcmp D (fun q => q = proj (b_min b) \/ q = proj (b_max b)) (transform_bounds pcmp proj b).
Proof. exact @bounds_smallest. Qed.
Print Assumptions C77_box_of_the_corners_partial.

Theorem C77_monotone_projections_partial :
  forall (T : Type) (pcmp : T -> T -> option comparison) (D : T -> Prop), total_on pcmp D ->
  forall (fx fy fz : T -> T) (b : aabb T) (p : p3 T), proper pcmp D b ->
  (forall x, D x -> D (fx x)) -> (forall x, D x -> D (fy x)) -> (forall x, D x -> D (fz x)) ->
  monotone pcmp D fx -> monotone pcmp D fy -> monotone pcmp D fz -> p3_all D p -> inside pcmp b p ->
  inside pcmp (transform_bounds pcmp (axis_by_axis fx fy fz) b) (axis_by_axis fx fy fz p).
Proof. exact @bounds_monotone. Qed.
Print Assumptions C77_monotone_projections_partial.

Theorem C77_contains_the_images_refuted :
  exists (proj : p3 spec_float -> p3 spec_float) b p,
  proper f64_cmp MathSpec.finite b /\ p3_all MathSpec.finite p /\ inside f64_cmp b p
  /\ p3_all MathSpec.finite (proj p) /\ p3_all MathSpec.finite (proj (b_min b)) /\ p3_all MathSpec.finite (proj (b_max b))
  /\ ~ inside f64_cmp (transform_bounds f64_cmp proj b) (proj p).
Proof. exact shear_leaves. Qed.
Print Assumptions C77_contains_the_images_refuted.

(* coordinates in Z, y falling *)
Example C77_nonvacuous :
  let zc := fun x y => Some (x ?= y)%Z in
  monotone zc (fun _ => True) (fun x => 2 * x + 1)%Z /\ monotone zc (fun _ => True) Z.opp
  /\ transform_bounds zc (axis_by_axis (fun x => 2 * x + 1)%Z Z.opp (fun z => z)) (mk_aabb (mk_p3 1 2 3)%Z (mk_p3 4 5 6)%Z)
     = mk_aabb (mk_p3 3 (-5) 3)%Z (mk_p3 9 (-2) 6)%Z.
Proof.
  assert (LE : forall x y : Z, le (fun x y => Some (x ?= y)%Z) x y = true <-> (x <= y)%Z).
  { intros x y. unfold le, Z.le. destruct (x ?= y)%Z; split; intros; congruence. }
  cbv zeta. split; [|split].
  - left. intros x y _ _. rewrite !LE. lia.
  - right. intros x y _ _. rewrite !LE. lia.
  - vm_compute. reflexivity.
Qed.
