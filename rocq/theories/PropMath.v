(* Property theorems C30 (boxes), C31 (collecting points), C32 (minmax), C33 (bit helpers), C58 (calculate_bounds) and C68 (as_cubic). *)
From Coq Require Import String List ZArith QArith Lia Bool Arith SpecFloat.
From Verif Require Import Base LayoutModel LayoutSpec BufferModel BufferSpec TraitModel TraitSpec NumModel ConvModel ConvSpec
  MathModel MathSpec MathProofs MathProofs2 MathExamples BufferExamples.
Import ListNotations.
Open Scope Z_scope.

(* ---- C30 ---- *)
Theorem C30_contains_is_componentwise :
  forall T (pcmp : T -> T -> option comparison) D, total_on pcmp D ->
  forall b p, p3_all D (b_min b) -> p3_all D (b_max b) -> p3_all D p -> (contains pcmp b p = true <-> inside pcmp b p).
Proof. exact @contains_inside. Qed.
Print Assumptions C30_contains_is_componentwise.

Theorem C30_union_is_the_smallest_box :
  forall T (pcmp : T -> T -> option comparison) D, total_on pcmp D ->
  forall a b, proper pcmp D a -> proper pcmp D b ->
  smallest pcmp D (fun p => p3_all D p /\ (inside pcmp a p \/ inside pcmp b p)) (union pcmp a b).
Proof. exact @union_smallest. Qed.
Print Assumptions C30_union_is_the_smallest_box.

Theorem C30_extend_is_the_smallest_box :
  forall T (pcmp : T -> T -> option comparison) D, total_on pcmp D ->
  forall b p, proper pcmp D b -> p3_all D p ->
  smallest pcmp D (fun q => p3_all D q /\ (inside pcmp b q \/ q = p)) (extend_with_point pcmp b p).
Proof. exact @extend_smallest. Qed.
Print Assumptions C30_extend_is_the_smallest_box.

Theorem C30_intersects_iff_common_point :
  forall T (pcmp : T -> T -> option comparison) D, total_on pcmp D ->
  forall a b, proper pcmp D a -> proper pcmp D b ->
  (intersects pcmp a b = true <-> exists p, p3_all D p /\ inside pcmp a p /\ inside pcmp b p).
Proof. exact @intersects_spec. Qed.
Print Assumptions C30_intersects_iff_common_point.

Theorem C30_intersects_symmetric :
  forall T (pcmp : T -> T -> option comparison) D, total_on pcmp D ->
  forall a b, proper pcmp D a -> proper pcmp D b -> intersects pcmp a b = intersects pcmp b a.
Proof. exact @intersects_sym. Qed.
Print Assumptions C30_intersects_symmetric.

(* the only boxes from_min_max makes are those with min <= max *)
Theorem C30_from_min_max :
  forall T (pcmp : T -> T -> option comparison) D, total_on pcmp D ->
  forall p q, p3_all D p -> p3_all D q ->
  from_min_max pcmp p q =
  if le pcmp (px p) (px q) && le pcmp (py p) (py q) && le pcmp (pz p) (pz q) then Ok (mk_aabb p q) else Panic.
Proof. exact @from_min_max_spec. Qed.
Print Assumptions C30_from_min_max.

(* integers and floats other than NaN are such coordinates *)
Theorem C30_integers_are_ordered : total_on (fun a b => Some (a ?= b)) (fun _ : Z => True).
Proof. exact Z_total. Qed.
Print Assumptions C30_integers_are_ordered.

Theorem C30_floats_are_ordered : total_on f64_cmp not_nan.
Proof. exact SF_total. Qed.
Print Assumptions C30_floats_are_ordered.

(* and comparing finite floats compares the numbers they stand for *)
Theorem C30_float_order_is_numeric :
  forall x y, finite x -> finite y -> is_f64 x -> is_f64 y -> f64_cmp x y = Some (scaled x ?= scaled y).
Proof. exact compare_scaled. Qed.
Print Assumptions C30_float_order_is_numeric.

Example C30_nonvacuous :
  let a := mk_aabb (pt f_m2) (pt f_1) in let b := mk_aabb (pt f_2) (pt f_3) in
  proper f64_cmp not_nan a /\ proper f64_cmp not_nan b /\ intersects f64_cmp a b = false /\ contains f64_cmp (union f64_cmp a b) (pt f_1) = true
  /\ is_f64 f_3 /\ finite f_3 /\ scaled f_3 = 3 * scaled f_1.
Proof.
  assert (N : forall x, In x [f_m2; f_1; f_2; f_3] -> not_nan x) by (intros x [<-|[<-|[<-|[<-|[]]]]]; discriminate).
  split; [|split; [|split; [reflexivity|split; [reflexivity|split; [|split; [exact I|vm_compute; reflexivity]]]]]].
  - repeat split; try apply N; simpl; auto.
  - repeat split; try apply N; simpl; auto.
  - right. split; [lia|]. change (2 ^ 52) with 4503599627370496. change (2 ^ 53) with 9007199254740992. lia.
Qed.

(* ---- C31 ---- *)
(* Full statement: for every non-empty list of points, the collected box contains every point and is the smallest such box.
   It holds for lists without NaN and infinities; without NaN every point is contained. *)
Theorem C31_collected_box_contains_partial :
  forall pts, pts <> [] -> (forall p, In p pts -> p3_all not_nan p) ->
  exists b, from_iter f64_cmp F64_MAX F64_MIN pts = Ok b /\ proper f64_cmp not_nan b /\ (forall p, In p pts -> inside f64_cmp b p).
Proof. exact collect_contains. Qed.
Print Assumptions C31_collected_box_contains_partial.

Theorem C31_collected_box_is_smallest_partial :
  forall pts, pts <> [] -> (forall p, In p pts -> p3_all (fun x => finite x /\ is_f64 x) p) ->
  exists b, from_iter f64_cmp F64_MAX F64_MIN pts = Ok b /\ smallest f64_cmp not_nan (fun p => In p pts) b /\ tight pts b.
Proof. exact collect_smallest. Qed.
Print Assumptions C31_collected_box_is_smallest_partial.

Theorem C31_more_points_keep_the_earlier_inside_partial :
  forall pts more, pts <> [] -> (forall p, In p (pts ++ more) -> p3_all not_nan p) ->
  exists b b', from_iter f64_cmp F64_MAX F64_MIN pts = Ok b /\ from_iter f64_cmp F64_MAX F64_MIN (pts ++ more) = Ok b'
    /\ forall p, In p pts -> inside f64_cmp b p /\ inside f64_cmp b' p.
Proof. exact collect_monotone. Qed.
Print Assumptions C31_more_points_keep_the_earlier_inside_partial.

(* NaN between two points makes the first fall outside: the points 1, NaN, 2 give the box from 2 to 2 *)
Theorem C31_nan_loses_points_refuted :
  exists pts b p, from_iter f64_cmp F64_MAX F64_MIN pts = Ok b /\ In p pts /\ p3_all not_nan p /\ contains f64_cmp b p = false.
Proof.
  exists [pt f_1; pt S754_nan; pt f_2], (mk_aabb (pt f_2) (pt f_2)), (pt f_1).
  split; [vm_compute; reflexivity|]. split; [now left|]. split; [repeat split; discriminate|reflexivity].
Qed.
Print Assumptions C31_nan_loses_points_refuted.

(* the box of one point at infinity reaches down to f64::MAX *)
Theorem C31_infinite_box_not_smallest_refuted :
  exists p b, from_iter f64_cmp F64_MAX F64_MIN [p] = Ok b /\ p3_all not_nan p /\ contains f64_cmp b (pt F64_MAX) = true /\ p <> pt F64_MAX.
Proof.
  exists (pt (S754_infinity false)), (mk_aabb (pt F64_MAX) (pt (S754_infinity false))).
  split; [vm_compute; reflexivity|]. split; [repeat split; discriminate|]. split; [reflexivity|discriminate].
Qed.
Print Assumptions C31_infinite_box_not_smallest_refuted.

Theorem C31_empty_panics : from_iter f64_cmp F64_MAX F64_MIN [] = Panic.
Proof. exact eq_refl. Qed.
Print Assumptions C31_empty_panics.

Example C31_nonvacuous :
  let pts := [pt f_1; mk_p3 f_3 f_m2 f_2] in
  (forall p, In p pts -> p3_all (fun x => finite x /\ is_f64 x) p)
  /\ from_iter f64_cmp F64_MAX F64_MIN pts = Ok (mk_aabb (mk_p3 f_1 f_m2 f_1) (mk_p3 f_3 f_1 f_2)).
Proof.
  split; [|vm_compute; reflexivity]. assert (N : forall x, In x [f_m2; f_1; f_2; f_3] -> finite x /\ is_f64 x).
  { intros x [<-|[<-|[<-|[<-|[]]]]]; (split; [exact I|right; split; [lia|]; change (2 ^ 52) with 4503599627370496; change (2 ^ 53) with 9007199254740992; lia]). }
  intros p [<-|[<-|[]]]; (split; [|split]; apply N; simpl; auto).
Qed.

(* ---- C32 ---- *)
(* Per component: if the first value is a number, the result bounds all values that are numbers and is attained. If it is NaN, the result
   is NaN. *)
Theorem C32_minmax_partial :
  forall b m p n r0 rest, bf_wf b -> In m (l_attrs (bf_layout b)) -> minmax_type (m_type m) = Some (p, n) -> bf_points b = r0 :: rest ->
  exists lo hi, minmax_attribute b (m_def m) (m_type m) = Ok (Some (lo, hi)) /\ length lo = n /\ length hi = n
  /\ forall k, (k < n)%nat -> exists l h, nth_error lo k = Some l /\ nth_error hi k = Some h /\
     let c r := component_of p k (attr_value m r) in
     if_number (c r0)
       ((forall r, In r (bf_points b) -> is_number (c r) -> num_le l (c r) /\ num_le (c r) h)
        /\ (exists r, In r (bf_points b) /\ c r = l) /\ (exists r, In r (bf_points b) /\ c r = h))
       (l = NFlt S754_nan /\ h = NFlt S754_nan).
Proof. exact minmax_spec. Qed.
Print Assumptions C32_minmax_partial.

Theorem C32_empty_buffer :
  forall b m p n, bf_wf b -> In m (l_attrs (bf_layout b)) -> minmax_type (m_type m) = Some (p, n) -> bf_len b = 0%nat ->
  minmax_attribute b (m_def m) (m_type m) = Ok None.
Proof. exact minmax_empty. Qed.
Print Assumptions C32_empty_buffer.

(* every other type panics: there is no conversion, although the code has a branch for it *)
Theorem C32_other_types_panic :
  forall b a t, bf_wf b -> t <> ad_type a \/ member_of (bf_layout b) a = None -> minmax_attribute b a t = Panic.
Proof. exact minmax_panics. Qed.
Print Assumptions C32_other_types_panic.

(* the order of the points matters: NaN, 1 and 1, NaN have different results, and the first is no bound *)
Theorem C32_order_matters_refuted :
  exists b b' m r r', bf_wf b /\ bf_wf b' /\ bf_points b = [r; r'] /\ bf_points b' = [r'; r]
  /\ (exists lo hi, minmax_attribute b (m_def m) (m_type m) = Ok (Some (lo, hi)) /\ component_of PF64 0 (attr_value m r') = NFlt f_1
        /\ nth 0 lo (NInt 0) = NFlt S754_nan /\ ~ num_le (nth 0 lo (NInt 0)) (NFlt f_1))
  /\ minmax_attribute b' (m_def m) (m_type m) = Ok (Some ([NFlt f_1; NFlt f_1; NFlt f_1], [NFlt f_1; NFlt f_1; NFlt f_1])).
Proof.
  exists (pos_buffer [pt S754_nan; pt f_1]), (pos_buffer [pt f_1; pt S754_nan]), (pos_member Vec3f64), (pos_point (pt S754_nan)), (pos_point (pt f_1)).
  split; [apply pos_buffer_wf; repeat constructor|]. split; [apply pos_buffer_wf; repeat constructor|].
  split; [vm_compute; reflexivity|]. split; [vm_compute; reflexivity|]. split; [|vm_compute; reflexivity].
  exists [NFlt S754_nan; NFlt S754_nan; NFlt S754_nan], [NFlt S754_nan; NFlt S754_nan; NFlt S754_nan].
  split; [vm_compute; reflexivity|]. split; [vm_compute; reflexivity|]. split; [reflexivity|discriminate].
Qed.
Print Assumptions C32_order_matters_refuted.

Example C32_nonvacuous :
  let b := SliceB (Of (MapB ex_map)) 1 4 in
  bf_wf b /\ In m_intensity (l_attrs (bf_layout b)) /\ minmax_type (m_type m_intensity) = Some (PU16, 1%nat) /\ length (bf_points b) = 3%nat
  /\ minmax_attribute b INTENSITY U16 = Ok (Some ([NInt (25 + 256 * 26)], [NInt (73 + 256 * 74)])).
Proof. split; [split; [exact ex_map_inv|vm_compute; lia]|]. split; [exact ex_intensity|]. vm_compute. auto. Qed.

(* ---- C33 ---- *)
Theorem C33_expand_bits_by_3 :
  forall v n, 0 <= n -> Z.testbit (expand_bits_by_3 v) n = (n mod 3 =? 0) && (n <? 63) && Z.testbit v (n / 3).
Proof. exact expand_bits. Qed.
Print Assumptions C33_expand_bits_by_3.

Theorem C33_expand_fits_in_64_bits : forall v, 0 <= expand_bits_by_3 v < 2 ^ 64.
Proof. exact expand_range. Qed.
Print Assumptions C33_expand_fits_in_64_bits.

Theorem C33_reverse_bits :
  forall v, exists r, reverse_bits v = Ok r /\ 0 <= r < 2 ^ 64 /\ forall i, 0 <= i < 64 -> Z.testbit r i = Z.testbit v (63 - i).
Proof. exact reverse_ok. Qed.
Print Assumptions C33_reverse_bits.

Theorem C33_reverse_is_an_involution :
  forall v, 0 <= v < 2 ^ 64 -> exists r, reverse_bits v = Ok r /\ reverse_bits r = Ok v.
Proof. exact reverse_involution. Qed.
Print Assumptions C33_reverse_is_an_involution.

Example C33_nonvacuous : expand_bits_by_3 0x1FFFFF = 0x1249249249249249 /\ expand_bits_by_3 5 = 65 /\ reverse_bits 1 = Ok (2 ^ 63) /\ reverse_bits 0xF0 = Ok 0x0F00000000000000.
Proof. vm_compute. auto. Qed.

(* ---- C58 ---- *)
(* Full statement: None exactly for an empty buffer or one without (convertible) positions; otherwise a box that contains every position
   and that touches one on each face. *)
Theorem C58_bounds_are_tight_partial :
  forall b m, bf_wf b -> bf_len b <> 0%nat -> In m (l_attrs (bf_layout b)) -> m_name m = ad_name POSITION_3D -> convertible (m_type m) Vec3f64 ->
  let ps := map (position m) (bf_points b) in
  (forall p, In p ps -> p3_all finite p) ->
  exists r, calculate_bounds b = Ok (Some r) /\ smallest f64_cmp not_nan (fun p => In p ps) r /\ tight ps r.
Proof. exact calculate_bounds_smallest. Qed.
Print Assumptions C58_bounds_are_tight_partial.

Theorem C58_bounds_contain_all_numbers_partial :
  forall b m, bf_wf b -> bf_len b <> 0%nat -> In m (l_attrs (bf_layout b)) -> m_name m = ad_name POSITION_3D -> convertible (m_type m) Vec3f64 ->
  let ps := map (position m) (bf_points b) in
  (exists p, In p ps /\ not_nan (px p)) -> (exists p, In p ps /\ not_nan (py p)) -> (exists p, In p ps /\ not_nan (pz p)) ->
  exists r, calculate_bounds b = Ok (Some r) /\ proper f64_cmp not_nan r /\ forall p, In p ps -> p3_all not_nan p -> inside f64_cmp r p.
Proof. exact calculate_bounds_contains. Qed.
Print Assumptions C58_bounds_contain_all_numbers_partial.

Theorem C58_none_without_positions :
  forall b, bf_wf b -> bf_len b = 0%nat \/ (forall m, In m (l_attrs (bf_layout b)) -> m_name m <> ad_name POSITION_3D) -> calculate_bounds b = Ok None.
Proof. exact calculate_bounds_none. Qed.
Print Assumptions C58_none_without_positions.

(* not None but a panic: an axis with nothing but NaN, and a position attribute of an unconvertible type *)
Theorem C58_all_nan_panics :
  forall b m, bf_wf b -> bf_len b <> 0%nat -> In m (l_attrs (bf_layout b)) -> m_name m = ad_name POSITION_3D -> convertible (m_type m) Vec3f64 ->
  let ps := map (position m) (bf_points b) in
  (forall p, In p ps -> px p = S754_nan) \/ (forall p, In p ps -> py p = S754_nan) \/ (forall p, In p ps -> pz p = S754_nan) ->
  calculate_bounds b = Panic.
Proof. exact calculate_bounds_nan. Qed.
Print Assumptions C58_all_nan_panics.

Theorem C58_unconvertible_panics :
  forall b m, bf_wf b -> bf_len b <> 0%nat -> In m (l_attrs (bf_layout b)) -> m_name m = ad_name POSITION_3D ->
  ~ convertible (m_type m) Vec3f64 -> calculate_bounds b = Panic.
Proof. exact calculate_bounds_panics. Qed.
Print Assumptions C58_unconvertible_panics.

(* a point at infinity: the lower face touches no point *)
Theorem C58_infinity_not_tight_refuted :
  exists b r, bf_wf b /\ calculate_bounds b = Ok (Some r) /\ map (position (pos_member Vec3f64)) (bf_points b) = [pt (S754_infinity false)]
  /\ b_min r = pt F64_MAX.
Proof.
  exists (pos_buffer [pt (S754_infinity false)]), (mk_aabb (pt F64_MAX) (pt (S754_infinity false))).
  split; [apply pos_buffer_wf; repeat constructor|]. vm_compute. auto.
Qed.
Print Assumptions C58_infinity_not_tight_refuted.

Example C58_nonvacuous :
  let b := pos_buffer [pt f_1; mk_p3 f_3 f_m2 f_2] in
  bf_wf b /\ In (pos_member Vec3f64) (l_attrs (bf_layout b)) /\ map (position (pos_member Vec3f64)) (bf_points b) = [pt f_1; mk_p3 f_3 f_m2 f_2]
  /\ calculate_bounds b = Ok (Some (mk_aabb (mk_p3 f_1 f_m2 f_1) (mk_p3 f_3 f_1 f_2))).
Proof. split; [apply pos_buffer_wf; repeat constructor|]. vm_compute. auto. Qed.

(* ---- C68 ---- *)
(* Full statement: as_cubic(b) contains b and all its edges are as long as the longest edge of b. True for exact numbers. *)
Theorem C68_cubic_contains_the_box_partial :
  forall b p, proper q_cmp (fun _ => True) b -> inside q_cmp b p -> inside q_cmp (q_as_cubic b) p.
Proof. exact cubic_contains. Qed.
Print Assumptions C68_cubic_contains_the_box_partial.

Theorem C68_cubic_is_a_cube_partial :
  forall b, let c := q_as_cubic b in
  let edges x := [px (b_max x) - px (b_min x); py (b_max x) - py (b_min x); pz (b_max x) - pz (b_min x)]%Q in
  exists e, In e (edges b) /\ (forall x, In x (edges b) -> x <= e)%Q /\ (forall x, In x (edges c) -> x == e)%Q
  /\ (px (b_min c) + px (b_max c) == px (b_min b) + px (b_max b))%Q /\ (py (b_min c) + py (b_max c) == py (b_min b) + py (b_max b))%Q
  /\ (pz (b_min c) + pz (b_max c) == pz (b_min b) + pz (b_max b))%Q.
Proof. exact cubic_is_cubic. Qed.
Print Assumptions C68_cubic_is_a_cube_partial.

(* with floats the cube of the box from (0.1, 0, 0) to (0.2, 0, 0) does not contain the corner (0.1, 0, 0) *)
Theorem C68_cubic_loses_a_corner_refuted :
  exists b, proper f64_cmp not_nan b /\ p3_all is_f64 (b_min b) /\ p3_all is_f64 (b_max b)
  /\ contains f64_cmp b (b_min b) = true /\ contains f64_cmp (f64_as_cubic b) (b_min b) = false.
Proof.
  exists (mk_aabb (mk_p3 (S754_finite false 7205759403792794 (-56)) (S754_zero false) (S754_zero false))
                  (mk_p3 (S754_finite false 7205759403792794 (-55)) (S754_zero false) (S754_zero false))).
  split; [repeat split; discriminate|]. cbn [b_min b_max]. split; [|split].
  - split; [|split; exact I]. right. split; [lia|]. change (2 ^ 52) with 4503599627370496. change (2 ^ 53) with 9007199254740992. simpl. lia.
  - split; [|split; exact I]. right. split; [lia|]. change (2 ^ 52) with 4503599627370496. change (2 ^ 53) with 9007199254740992. simpl. lia.
  - vm_compute. auto.
Qed.
Print Assumptions C68_cubic_loses_a_corner_refuted.

Example C68_nonvacuous :
  let b := mk_aabb (mk_p3 0 1 2)%Q (mk_p3 4 2 4)%Q in
  proper q_cmp (fun _ => True) b /\ inside q_cmp b (mk_p3 3 1 4)%Q /\ contains q_cmp (q_as_cubic b) (mk_p3 3 1 4)%Q = true.
Proof. repeat split; reflexivity. Qed.
