(* Vocabulary for the properties of the normal estimation, in exact real arithmetic. *)
From Coq Require Import List Reals SpecFloat.
From Flocq Require Import Core BinarySingleNaN.
From Verif Require Import Base MathModel MathSpec SegModel SegSpec VoxSpec NormModel.
Import ListNotations.
Set Implicit Arguments.
Open Scope R_scope.

Definition r_atan2 (y x : R) : R :=
  if Rlt_dec 0 x then atan (y / x)
  else if Rlt_dec x 0 then (if Rle_dec 0 y then atan (y / x) + PI else atan (y / x) - PI)
  else if Rlt_dec 0 y then PI / 2 else if Rlt_dec y 0 then - (PI / 2) else 0.
Definition r_nops : nops R :=
  mk_nops r_ops (fun x y => if Rle_dec x y then true else false) (fun x y => if Req_EM_T x y then true else false) INR Rmax
    (fun _ => false) (fun _ => true) (1 / 2) (/ 2 ^ 52) r_atan2 cos sin.

Definition zero3 : p3 R := mk_p3 0 0 0.
Definition dot (u v : p3 R) : R := px u * px v + py u * py v + pz u * pz v.
Definition minus (u v : p3 R) : p3 R := mk_p3 (px u - px v) (py u - py v) (pz u - pz v).
Definition times (k : R) (v : p3 R) : p3 R := mk_p3 (k * px v) (k * py v) (k * pz v).
Definition sum (l : list R) : R := fold_right Rplus 0 l.
(* all points in one plane; all points on one line *)
Definition coplanar (ps : list (p3 R)) : Prop := exists a d, a <> zero3 /\ forall p, In p ps -> dot a p = d.
Definition collinear (ps : list (p3 R)) : Prop :=
  exists b u, forall p, In p ps -> exists t, minus p b = times t u.

(* the mean of a coordinate, and the (unnormalised) covariance of two coordinates *)
Definition mean (f : p3 R -> R) (ps : list (p3 R)) : R := sum (map f ps) / INR (length ps).
Definition covariance (f g : p3 R -> R) (ps : list (p3 R)) : R := sum (map (fun p => (f p - mean f ps) * (g p - mean g ps)) ps).
Definition covariance_matrix (ps : list (p3 R)) : m3 R :=
  let c f g := covariance f g ps in
  let row f := mk_p3 (c f (@px R)) (c f (@py R)) (c f (@pz R)) in
  mk_p3 (row (@px R)) (row (@py R)) (row (@pz R)).

Definition apply (m : m3 R) (v : p3 R) : p3 R := mk_p3 (dot (px m) v) (dot (py m) v) (dot (pz m) v).
Definition eigenvector (m : m3 R) (v : p3 R) : Prop := v <> zero3 /\ exists l, apply m v = times l v.
Definition trace (m : m3 R) : R := px (px m) + py (py m) + pz (pz m).
Definition det (m : m3 R) : R :=
  px (px m) * (py (py m) * pz (pz m) - pz (py m) * py (pz m))
  - py (px m) * (px (py m) * pz (pz m) - pz (py m) * px (pz m))
  + pz (px m) * (px (py m) * py (pz m) - py (py m) * px (pz m)).
Definition shifted (m : m3 R) (l : R) : m3 R :=
  mk_p3 (mk_p3 (px (px m) - l) (py (px m)) (pz (px m))) (mk_p3 (px (py m)) (py (py m) - l) (pz (py m))) (mk_p3 (px (pz m)) (py (pz m)) (pz (pz m) - l)).
Definition eigenvalue (m : m3 R) (l : R) : Prop := det (shifted m l) = 0.
Definition smallest_eigenvalue (m : m3 R) (l : R) : Prop := eigenvalue m l /\ forall k, eigenvalue m k -> l <= k.
(* parallel to one of the coordinate axes *)
Definition on_axis (v : p3 R) : Prop := (py v = 0 /\ pz v = 0) \/ (px v = 0 /\ pz v = 0) \/ (px v = 0 /\ py v = 0).
(* the largest absolute value of an entry *)
Definition largest_entry (m : m3 R) (s : R) : Prop :=
  let entries := [px (px m); py (px m); pz (px m); px (py m); py (py m); pz (py m); px (pz m); py (pz m); pz (pz m)] in
  (exists x, In x entries /\ s = Rabs x) /\ forall x, In x entries -> Rabs x <= s.

(* the surface variation: the smallest eigenvalue divided by the sum of the three eigenvalues *)
Definition surface_variation (m : m3 R) (k : R) : Prop := exists l, smallest_eigenvalue m l /\ k = l / trace m.
(* what is needed of the search for neighbours: k of the points, or all of them *)
Definition finds_neighbours (T : Type) (nearest : list (p3 T) -> p3 T -> nat -> list (p3 T)) : Prop :=
  forall ps p k, In p ps -> (forall q, In q (nearest ps p k) -> In q ps) /\ length (nearest ps p k) = Nat.min k (length ps).

(* for the f64 operations: finite f64 numbers of absolute value at most b, and what is needed of the C library *)
Definition within (b : R) (x : spec_float) : Prop := real_f64 x /\ Rabs (SF2R radix2 x) <= b.
Definition libm_ok (atan2 : spec_float -> spec_float -> spec_float) (cos sin : spec_float -> spec_float) : Prop :=
  (forall y x, real_f64 y -> real_f64 x -> within 4 (atan2 y x)) /\ (forall t, real_f64 t -> within 1 (cos t) /\ within 1 (sin t)).
Definition point_within (b : R) (p : p3 spec_float) : Prop := within b (px p) /\ within b (py p) /\ within b (pz p).
(* two of the points are at least d apart in one of the coordinates *)
Definition spread (d : R) (ps : list (p3 spec_float)) : Prop :=
  exists p q, In p ps /\ In q ps
    /\ (d <= SF2R radix2 (px p) - SF2R radix2 (px q) \/ d <= SF2R radix2 (py p) - SF2R radix2 (py q) \/ d <= SF2R radix2 (pz p) - SF2R radix2 (pz q)).
Definition finite_point (p : p3 spec_float) : Prop := finite (px p) /\ finite (py p) /\ finite (pz p).
(* a coordinate is not a number; the points with finite coordinates, in their order *)
Definition has_nan (p : p3 spec_float) : Prop := px p = S754_nan \/ py p = S754_nan \/ pz p = S754_nan.
Inductive only_finite : list (p3 spec_float) -> list (p3 spec_float) -> Prop :=
| of_nil : only_finite [] []
| of_keep p ps qs : finite_point p -> only_finite ps qs -> only_finite (p :: ps) (p :: qs)
| of_drop p ps qs : ~ finite_point p -> only_finite ps qs -> only_finite (p :: ps) qs.
