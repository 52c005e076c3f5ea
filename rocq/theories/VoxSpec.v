(* Vocabulary for the properties of the voxel grid filter. *)
From Coq Require Import String Ascii List ZArith Lia Bool Arith SpecFloat Permutation.
From Verif Require Import Base LayoutModel BufferModel BufferSpec TraitModel TraitSpec NumModel NumSpec MathModel MathSpec SegModel SegSpec VoxModel.
Import ListNotations.
Open Scope nat_scope.
Set Implicit Arguments.

(* finite numbers of type f64 *)
Definition real_f64 (x : spec_float) : Prop := finite x /\ is_f64 x.
Definition positive_f64 (x : spec_float) : Prop := real_f64 x /\ SFltb (S754_zero false) x = true.

(* k times leaf added to lo, with f64 arithmetic *)
Definition marker (lo leaf : spec_float) (k : nat) : spec_float := Nat.iter k (fun c => f64_add c leaf) lo.
(* the markers of an axis between lo and hi: lo + leaf, lo + 2 leaf, ..., up to the first that reaches hi *)
Definition axis_grid (lo hi leaf : spec_float) (ms : list spec_float) : Prop :=
  (forall k, k < length ms -> nth_error ms k = Some (marker lo leaf (S k)) /\ SFltb (marker lo leaf k) hi = true)
  /\ SFltb (marker lo leaf (length ms)) hi = false.
(* the least and the greatest of some numbers *)
Definition is_least (xs : list spec_float) (lo : spec_float) : Prop := In lo xs /\ Forall (fun x => SFleb lo x = true) xs.
Definition is_greatest (xs : list spec_float) (hi : spec_float) : Prop := In hi xs /\ Forall (fun x => SFleb x hi = true) xs.
(* an axis of the grid over points with the coordinates xs *)
Definition grid_over (xs : list spec_float) (leaf : spec_float) (ms : list spec_float) : Prop :=
  exists lo hi, is_least xs lo /\ is_greatest xs hi /\ axis_grid lo hi leaf ms.

(* no marker is nearer to p than number k; an axis without markers (all coordinates are the same) has only the index 0 *)
Definition nearest (ms : list spec_float) (p : spec_float) (k : nat) : Prop :=
  match ms with
  | [] => k = 0
  | _ => exists m, nth_error ms k = Some m /\ forall m', In m' ms -> SFleb (SFabs (f64_sub p m)) (SFabs (f64_sub p m')) = true
  end.

(* The points, by index, grouped by the cell (x, y, z) of the grid with the nearest markers: every point belongs to exactly one voxel,
   no voxel is empty, no cell has two voxels. *)
Definition grouped (pts : list (p3 spec_float)) (xs ys zs : list spec_float) (vs : list voxel) : Prop :=
  Permutation (concat (map v_points vs)) (seq 0 (length pts))
  /\ NoDup (map v_pos vs)
  /\ (forall v, In v vs -> v_points v <> [])
  /\ exists cell : p3 spec_float -> nat * nat * nat,
       (forall p, In p pts -> let '(x, y, z) := cell p in nearest xs (px p) x /\ nearest ys (py p) y /\ nearest zs (pz p) z)
       /\ forall v i p, In v vs -> In i (v_points v) -> nth_error pts i = Some p -> v_pos v = cell p.

(* the attributes for which the filter can compute a value *)
Definition most_common_attrs : list attr_def :=
  [RETURN_NUMBER; NUMBER_OF_RETURNS; SCANNER_CHANNEL; CLASSIFICATION; SCAN_ANGLE_RANK; SCAN_ANGLE; USER_DATA; POINT_SOURCE_ID].
Definition flag_attrs : list attr_def := [SCAN_DIRECTION_FLAG; EDGE_OF_FLIGHT_LINE].
Definition max_attrs : list attr_def := [CLASSIFICATION_FLAGS; GPS_TIME; POINT_ID].
Definition mean_attrs : list attr_def := [INTENSITY; NIR].
Definition mean_vec_attrs : list attr_def := [POSITION_3D; COLOR_RGB; NORMAL].
Definition pooled_attrs : list attr_def := most_common_attrs ++ flag_attrs ++ max_attrs ++ mean_attrs ++ mean_vec_attrs.

(* the target buffer: owning, and each of its attributes is one of those above and also an attribute of the source *)
Definition target_ok (b : buffer) (out : mbuf) : Prop :=
  mb_wf out /\ match out with VecB _ | MapB _ => True | _ => False end
  /\ forall m, In m (l_attrs (mb_layout out)) -> In (m_def m) pooled_attrs /\ exists m', In m' (l_attrs (bf_layout b)) /\ m_def m' = m_def m.
(* a HashMap can be iterated in any order *)
Definition any_order (order : nat * nat * nat -> attr_def -> order_fn) : Prop := forall pos a m, Permutation (order pos a m) m.

(* the numbers that the points of a voxel have for an attribute *)
Definition numbers (p : prim) (b : buffer) (m : member) (v : voxel) : list num :=
  map (fun i => dec_num p (attr_value m (nth i (bf_points b) []))) (v_points v).
Definition integers (p : prim) (b : buffer) (m : member) (v : voxel) : list Z :=
  map (fun n => match n with NInt z => z | NFlt _ => 0%Z end) (numbers p b m v).
Definition floats (p : prim) (b : buffer) (m : member) (v : voxel) : list spec_float :=
  map (fun n => match n with NFlt f => f | NInt _ => S754_nan end) (numbers p b m v).
(* z is one of the numbers and none occurs more often *)
Definition most_common (zs : list Z) (z : Z) : Prop := In z zs /\ forall y, count_occ Z.eq_dec zs y <= count_occ Z.eq_dec zs z.
Definition greatest_int (zs : list Z) (z : Z) : Prop := In z zs /\ Forall (fun y => (y <= z)%Z) zs.

(* f is equal to one of the numbers (0.0 and -0.0 are equal) and no number is greater *)
Definition greatest_float (xs : list spec_float) (f : spec_float) : Prop :=
  (exists x, In x xs /\ SFeqb x f = true) /\ Forall (fun x => x = S754_nan \/ SFleb x f = true) xs.
(* the average in f64 arithmetic: the sum from the left, divided by the number *)
Definition mean (xs : list spec_float) : spec_float :=
  f64_div (fold_left f64_add xs (S754_zero false)) (binary_normalize 53 1024 (Z.of_nat (length xs)) 0 false).
(* a number as f64 *)
Definition to_f64 (n : num) : spec_float := match as_cast PF64 n with NFlt f => f | NInt _ => S754_nan end.
(* component k of the vectors that the points of a voxel have for an attribute *)
Definition components (p : prim) (k : nat) (b : buffer) (m : member) (v : voxel) : list num :=
  map (fun i => component_of p k (attr_value m (nth i (bf_points b) []))) (v_points v).

(* the values of a new point for an attribute of the source, m *)
Definition pooled_common (b : buffer) (v : voxel) (m : member) (bytes : list Z) : Prop :=
  In (m_def m) most_common_attrs -> forall p, scalar_prim (m_type m) = Some p ->
  exists z, dec_num p bytes = NInt z /\ most_common (integers p b m v) z.
Definition pooled_flag (b : buffer) (v : voxel) (m : member) (bytes : list Z) : Prop :=
  In (m_def m) flag_attrs -> Forall (fun z => z = 0%Z \/ z = 1%Z) (integers PU8 b m v) ->
  exists z, dec_num PU8 bytes = NInt z /\ most_common (integers PU8 b m v) z.
Definition pooled_max_int (b : buffer) (v : voxel) (m : member) (bytes : list Z) : Prop :=
  In (m_def m) [CLASSIFICATION_FLAGS; POINT_ID] -> forall p, scalar_prim (m_type m) = Some p -> Forall (fun z => (z <= 2 ^ 53)%Z) (integers p b m v) ->
  exists z, dec_num p bytes = NInt z /\ greatest_int (integers p b m v) z.
Definition pooled_max_float (b : buffer) (v : voxel) (m : member) (bytes : list Z) : Prop :=
  m_def m = GPS_TIME -> (exists x, In x (floats PF64 b m v) /\ SFleb (S754_zero false) x = true) ->
  exists f, dec_num PF64 bytes = NFlt f /\ greatest_float (floats PF64 b m v) f.
Definition pooled_mean (b : buffer) (v : voxel) (m : member) (bytes : list Z) : Prop :=
  (In (m_def m) mean_attrs -> forall p, scalar_prim (m_type m) = Some p -> bytes = enc_num p (as_cast p (NFlt (mean (map to_f64 (numbers p b m v))))))
  /\ (In (m_def m) mean_vec_attrs -> forall p, vector_prim (m_type m) = Some p ->
      let c k := enc_num p (as_cast p (NFlt (mean (map to_f64 (components p k b m v))))) in bytes = c 0 ++ c 1 ++ c 2).

(* out' holds the points of out, then one new point for each of the voxels vs, into which the grid puts the points of b *)
Definition filtered (b : buffer) (m : member) (lx ly lz : spec_float) (out out' : mbuf) (vs : list voxel) (new : list rec) : Prop :=
  mb_wf out' /\ mb_layout out' = mb_layout out /\ mb_points out' = mb_points out ++ new /\ length new = length vs
  /\ exists xs ys zs, grid_over (map (@px _) (points3 b m)) lx xs /\ grid_over (map (@py _) (points3 b m)) ly ys /\ grid_over (map (@pz _) (points3 b m)) lz zs
     /\ grouped (points3 b m) xs ys zs vs.
(* Every new point has, for every attribute of the target, a value with property P of the voxel and the attribute of the source. *)
Definition new_values (P : buffer -> voxel -> member -> list Z -> Prop) (b : buffer) (out : mbuf) (vs : list voxel) (new : list rec) : Prop :=
  Forall2 (fun v r => forall t m, In t (l_attrs (mb_layout out)) -> In m (l_attrs (bf_layout b)) -> m_def m = m_def t -> P b v m (attr_value t r)) vs new.
(* coordinates of less than 2^53 times the leaf size *)
Definition small_axis (xs : list spec_float) (leaf : spec_float) : Prop := forall x, In x xs -> (Z.abs (scaled x) < 2 ^ 53 * scaled leaf)%Z.
