(* C59, C60: the voxel grid filter. *)
From Coq Require Import String Ascii List ZArith Lia Bool Arith SpecFloat Permutation.
From Verif Require Import Base LayoutModel BufferModel BufferSpec TraitModel TraitSpec NumModel MathModel MathSpec SegModel SegSpec SegExamples
  VoxModel VoxSpec VoxProofs VoxProofs4 VoxProofs5 VoxProofs6 VoxExamples.
Import ListNotations.
Open Scope nat_scope.

(* C59. Full statement: for every non-empty buffer with finite positions and every positive leaf size the filter appends one point per
   occupied voxel, and every point is in exactly one voxel, the one of a nearest marker on each axis.
   Proved: whenever the filter ends it has done so, without a panic; nearest is meant for the distances that f64 arithmetic computes.
   The attributes of the target have to be attributes of the source that the filter supports. *)
Theorem C59_one_point_per_voxel_partial : forall fuel order b m lx ly lz out r,
  has_positions b m -> bf_len b <> 0 -> (forall p, In p (points3 b m) -> p3_all finite p) ->
  positive_f64 lx -> positive_f64 ly -> positive_f64 lz -> target_ok b out -> any_order order ->
  voxelgrid_filter fuel order b lx ly lz out = Some r ->
  exists out' vs new, r = Ok out' /\ filtered b m lx ly lz out out' vs new.
Proof. exact filter_filtered. Qed.
Print Assumptions C59_one_point_per_voxel_partial.

(* It ends if the coordinates are less than 2^53 times the leaf size. *)
Theorem C59_ends_partial : forall order b m lx ly lz out,
  has_positions b m -> bf_len b <> 0 -> (forall p, In p (points3 b m) -> p3_all finite p) ->
  positive_f64 lx -> positive_f64 ly -> positive_f64 lz ->
  small_axis (map (@px _) (points3 b m)) lx -> small_axis (map (@py _) (points3 b m)) ly -> small_axis (map (@pz _) (points3 b m)) lz ->
  exists fuel0, forall fuel, fuel0 <= fuel -> exists r, voxelgrid_filter fuel order b lx ly lz out = Some r.
Proof. exact filter_ends. Qed.
Print Assumptions C59_ends_partial.

Example C59_nonvacuous :
  let b := Of (x_vec x_cloud) in
  has_positions b x_pos_member /\ bf_len b = 3 /\ (forall p, In p (points3 b x_pos_member) -> p3_all finite p)
  /\ positive_f64 (fz 4) /\ target_ok b (x_vec []) /\ any_order x_order
  /\ small_axis (map (@px _) (points3 b x_pos_member)) (fz 4) /\ small_axis (map (@py _) (points3 b x_pos_member)) (fz 4)
  /\ match voxelgrid_filter 10 x_order b (fz 4) (fz 4) (fz 4) (x_vec []) with Some (Ok out') => length (mb_points out') = 2 | _ => False end.
Proof.
  cbv zeta. split; [apply x_positions|]. split; [reflexivity|]. split; [apply cloud_finite|]. split; [apply four_positive|]. split; [apply x_target|]. split; [apply x_any_order|].
  split; [|split].
  - intros x H. vm_compute in H. repeat (destruct H as [<-|H]; [vm_compute; reflexivity|]). contradiction.
  - intros x H. vm_compute in H. repeat (destruct H as [<-|H]; [vm_compute; reflexivity|]). contradiction.
  - vm_compute. reflexivity.
Qed.

(* Two points at x = 2^53 and x = 2^53 + 2, leaf size 1: adding 1 to 2^53 changes nothing and the filter runs for ever. *)
Theorem C59_terminates_refuted : exists b m leaf out,
  has_positions b m /\ bf_len b = 2 /\ (forall p, In p (points3 b m) -> p3_all finite p) /\ positive_f64 leaf /\ target_ok b out
  /\ forall fuel order, voxelgrid_filter fuel order b leaf leaf leaf out = None.
Proof.
  exists (Of (x_vec x_huge)), x_pos_member, (fz 1), (x_vec []). split; [apply x_positions|]. split; [reflexivity|].
  split; [intros p H; vm_compute in H; repeat (destruct H as [<-|H]; [vm_compute; auto|]); contradiction|].
  split; [split; [split; [exact I|vm_compute; right; repeat split; try reflexivity; intro; discriminate]|reflexivity]|]. split; [apply x_target|].
  intros fuel order. exact (huge_runs_on fuel order).
Qed.
Print Assumptions C59_terminates_refuted.

(* Points at -3, -2^-80 and 1, leaf size 2: the markers are -1 and 1, and -2^-80 goes to the voxel of 1 although -1 is nearer. *)
Theorem C59_exactly_nearest_refuted : exists b box ms p,
  calculate_bounds b = Ok (Some box) /\ create_markers 10 box (fz 2) (fz 2) (fz 2) = Some ms
  /\ In p (points3 b x_pos_member) /\ find_leaf ms p = Ok (1, 0, 0) /\ VoxModel.mk_x ms = [fz (-1); fz 1]
  /\ (Z.abs (scaled (px p) - scaled (fz (-1))) < Z.abs (scaled (px p) - scaled (fz 1)))%Z.
Proof.
  exists (Of (x_vec x_near)), (mk_aabb (at_x (fz (-3))) (at_x (fz 1))), (mk_markers [fz (-1); fz 1] [] []), (at_x tiny).
  split; [vm_compute; reflexivity|]. split; [vm_compute; reflexivity|]. split; [vm_compute; auto|]. split; [vm_compute; reflexivity|]. split; reflexivity.
Qed.
Print Assumptions C59_exactly_nearest_refuted.

(* An empty buffer, and one without positions, is a panic. *)
Theorem C59_empty_panics : forall fuel order b lx ly lz out, bf_wf b ->
  bf_len b = 0 \/ (forall m, In m (l_attrs (bf_layout b)) -> m_def m <> POSITION_3D) -> voxelgrid_filter fuel order b lx ly lz out = Some Panic.
Proof. exact empty_panics. Qed.
Print Assumptions C59_empty_panics.

(* C60. Each of the next theorems is about the new points of C59 (filtered): the value of every attribute of the target. *)
(* most common: proved in full *)
Theorem C60_most_common : forall fuel order b m lx ly lz out out',
  has_positions b m -> bf_len b <> 0 -> (forall p, In p (points3 b m) -> p3_all finite p) ->
  positive_f64 lx -> positive_f64 ly -> positive_f64 lz -> target_ok b out -> any_order order ->
  voxelgrid_filter fuel order b lx ly lz out = Some (Ok out') ->
  exists vs new, filtered b m lx ly lz out out' vs new /\ new_values pooled_common b out vs new.
Proof. exact filter_common. Qed.
Print Assumptions C60_most_common.

(* the two flags: if all values are 0 or 1 *)
Theorem C60_flags_partial : forall fuel order b m lx ly lz out out',
  has_positions b m -> bf_len b <> 0 -> (forall p, In p (points3 b m) -> p3_all finite p) ->
  positive_f64 lx -> positive_f64 ly -> positive_f64 lz -> target_ok b out -> any_order order ->
  voxelgrid_filter fuel order b lx ly lz out = Some (Ok out') ->
  exists vs new, filtered b m lx ly lz out out' vs new /\ new_values pooled_flag b out vs new.
Proof. exact filter_flag. Qed.
Print Assumptions C60_flags_partial.

(* maximum of integers: all classification flags, point ids up to 2^53 *)
Theorem C60_max_integer_partial : forall fuel order b m lx ly lz out out',
  has_positions b m -> bf_len b <> 0 -> (forall p, In p (points3 b m) -> p3_all finite p) ->
  positive_f64 lx -> positive_f64 ly -> positive_f64 lz -> target_ok b out -> any_order order ->
  voxelgrid_filter fuel order b lx ly lz out = Some (Ok out') ->
  exists vs new, filtered b m lx ly lz out out' vs new /\ new_values pooled_max_int b out vs new.
Proof. exact filter_max_int. Qed.
Print Assumptions C60_max_integer_partial.

(* maximum of GPS times: if one of them is not negative *)
Theorem C60_max_time_partial : forall fuel order b m lx ly lz out out',
  has_positions b m -> bf_len b <> 0 -> (forall p, In p (points3 b m) -> p3_all finite p) ->
  positive_f64 lx -> positive_f64 ly -> positive_f64 lz -> target_ok b out -> any_order order ->
  voxelgrid_filter fuel order b lx ly lz out = Some (Ok out') ->
  exists vs new, filtered b m lx ly lz out out' vs new /\ new_values pooled_max_float b out vs new.
Proof. exact filter_max_float. Qed.
Print Assumptions C60_max_time_partial.

(* the remaining attributes are averages, computed in f64 and cast *)
Theorem C60_averages : forall fuel order b m lx ly lz out out',
  has_positions b m -> bf_len b <> 0 -> (forall p, In p (points3 b m) -> p3_all finite p) ->
  positive_f64 lx -> positive_f64 ly -> positive_f64 lz -> target_ok b out -> any_order order ->
  voxelgrid_filter fuel order b lx ly lz out = Some (Ok out') ->
  exists vs new, filtered b m lx ly lz out out' vs new /\ new_values pooled_mean b out vs new.
Proof. exact filter_mean. Qed.
Print Assumptions C60_averages.

(* x_lonely: a single point whose GPS time is -8, whose id is 2^53 + 1 and whose scan direction flag is 2. *)
Theorem C60_max_time_refuted : exists b out out', has_positions b x_pos_member /\ bf_len b = 1 /\ target_ok b out
  /\ voxelgrid_filter 1 x_order b (fz 4) (fz 4) (fz 4) out = Some (Ok out')
  /\ only PF64 (x_vec x_lonely) GPS_TIME = Some (NFlt (fz (-8))) /\ b = Of (x_vec x_lonely) /\ only PF64 out' GPS_TIME = Some (NFlt (S754_zero false)).
Proof.
  exists (Of (x_vec x_lonely)), (x_vec []), (match voxelgrid_filter 1 x_order (Of (x_vec x_lonely)) (fz 4) (fz 4) (fz 4) (x_vec []) with Some (Ok o) => o | _ => x_vec [] end).
  split; [apply x_positions|]. split; [reflexivity|]. split; [apply x_target|]. split; [vm_compute; reflexivity|]. split; [vm_compute; reflexivity|]. split; [reflexivity|vm_compute; reflexivity].
Qed.
Print Assumptions C60_max_time_refuted.
Theorem C60_max_id_refuted : exists b out out', has_positions b x_pos_member /\ bf_len b = 1 /\ target_ok b out
  /\ voxelgrid_filter 1 x_order b (fz 4) (fz 4) (fz 4) out = Some (Ok out')
  /\ only PU64 (x_vec x_lonely) POINT_ID = Some (NInt (2 ^ 53 + 1)) /\ b = Of (x_vec x_lonely) /\ only PU64 out' POINT_ID = Some (NInt (2 ^ 53)).
Proof.
  exists (Of (x_vec x_lonely)), (x_vec []), (match voxelgrid_filter 1 x_order (Of (x_vec x_lonely)) (fz 4) (fz 4) (fz 4) (x_vec []) with Some (Ok o) => o | _ => x_vec [] end).
  split; [apply x_positions|]. split; [reflexivity|]. split; [apply x_target|]. split; [vm_compute; reflexivity|]. split; [vm_compute; reflexivity|]. split; [reflexivity|vm_compute; reflexivity].
Qed.
Print Assumptions C60_max_id_refuted.
Theorem C60_flags_refuted : exists b out out', has_positions b x_pos_member /\ bf_len b = 1 /\ target_ok b out
  /\ voxelgrid_filter 1 x_order b (fz 4) (fz 4) (fz 4) out = Some (Ok out')
  /\ only PU8 (x_vec x_lonely) SCAN_DIRECTION_FLAG = Some (NInt 2) /\ b = Of (x_vec x_lonely) /\ only PU8 out' SCAN_DIRECTION_FLAG = Some (NInt 1).
Proof.
  exists (Of (x_vec x_lonely)), (x_vec []), (match voxelgrid_filter 1 x_order (Of (x_vec x_lonely)) (fz 4) (fz 4) (fz 4) (x_vec []) with Some (Ok o) => o | _ => x_vec [] end).
  split; [apply x_positions|]. split; [reflexivity|]. split; [apply x_target|]. split; [vm_compute; reflexivity|]. split; [vm_compute; reflexivity|]. split; [reflexivity|vm_compute; reflexivity].
Qed.
Print Assumptions C60_flags_refuted.

(* the hypotheses of the theorems about the values hold for the first voxel of the example: classes 2 and 2, times 5 and -3, ids 7 and 9 *)
Example C60_nonvacuous :
  let b := Of (x_vec x_cloud) in let v := mk_voxel (0, 0, 0) [0; 1] in
  match member_of x_layout CLASSIFICATION, member_of x_layout GPS_TIME, member_of x_layout POINT_ID, member_of x_layout SCAN_DIRECTION_FLAG with
  | Some c, Some g, Some i, Some f =>
      integers PU8 b c v = [2; 2]%Z /\ floats PF64 b g v = [fz 5; fz (-3)] /\ integers PU64 b i v = [7; 9]%Z /\ integers PU8 b f v = [1; 1]%Z
  | _, _, _, _ => False
  end
  /\ match voxelgrid_filter 10 x_order b (fz 4) (fz 4) (fz 4) (x_vec []) with
     | Some (Ok out') =>
         match mb_points out', member_of x_layout CLASSIFICATION, member_of x_layout GPS_TIME, member_of x_layout POINT_ID with
         | r :: _, Some c, Some g, Some i => dec_num PU8 (attr_value c r) = NInt 2 /\ dec_num PF64 (attr_value g r) = NFlt (fz 5) /\ dec_num PU64 (attr_value i r) = NInt 9
         | _, _, _, _ => False
         end
     | _ => False
     end.
Proof. vm_compute. repeat split. Qed.
