(* Specification vocabulary for RANSAC in f64 arithmetic. *)
From Coq Require Import List ZArith Reals SpecFloat.
From Flocq Require Import Core.
From Verif Require Import MathModel SegModel SegSpec LasGridSpec VoxSpec HullSpec TilesBoxSpec HullFloatSpec.
Open Scope R_scope.

(* the plane through three points: with a fourth point of it they span no volume *)
Definition plane_through (a b c q : p3 R) : Prop := volume a b c q = 0.
(* the line through two points *)
Definition line_through (a b q : p3 R) : Prop :=
  exists t, px q = px a + t * (px b - px a) /\ py q = py a + t * (py b - py a) /\ pz q = pz a + t * (pz b - pz a).
(* a computed distance that is the given one up to rounding *)
Definition nearly (x : spec_float) (d : R) : Prop := real_f64 x /\ Rabs (number x - d) <= bpow radix2 (-49) * d.
(* the indices are exactly those of the points closer than thr to the set S, up to points whose distance is within rounding of thr *)
Definition close_points (pts : list (p3 spec_float)) (S : p3 R -> Prop) (thr : spec_float) (l : list nat) : Prop :=
  forall i p d, nth_error pts i = Some p -> is_distance (real_point p) S d ->
    (d * (1 + bpow radix2 (-49)) < number thr -> In i l) /\ (In i l -> d * (1 - bpow radix2 (-49)) < number thr).
(* points that are closer than thr to the set S, even after rounding *)
Definition surely_close (pts : list (p3 spec_float)) (S : p3 R -> Prop) (thr : spec_float) (l : list nat) : Prop :=
  NoDup l /\ forall i, In i l -> exists p d, nth_error pts i = Some p /\ is_distance (real_point p) S d /\ d * (1 + bpow radix2 (-49)) < number thr.
(* The answer belongs to one of the samples: the sampled points are among the inliers, the inliers are the points close to the sampled
   plane or line, and no other sample has more points that are surely close to it. *)
Definition fits {M A} (pts : list (p3 spec_float)) (thr : spec_float) (members : A -> list nat) (spanned : A -> p3 R -> Prop) (samples : list A) (h : hypothesis M) : Prop :=
  exists s, In s samples /\ incl (members s) (h_inliers h) /\ h_ranking h = length (h_inliers h) /\ close_points pts (spanned s) thr (h_inliers h)
    /\ forall s' l, In s' samples -> surely_close pts (spanned s') thr l -> (length l <= h_ranking h)%nat.
Definition three (t : nat * nat * nat) : list nat := let '(i, j, k) := t in cons i (cons j (cons k nil)).
Definition two (t : nat * nat) : list nat := let '(i, j) := t in cons i (cons j nil).
Definition spanned_plane (ps : list (p3 R)) (t : nat * nat * nat) : p3 R -> Prop := let '(i, j, k) := t in plane_through (point ps i) (point ps j) (point ps k).
Definition spanned_line (ps : list (p3 R)) (t : nat * nat) : p3 R -> Prop := let '(i, j) := t in line_through (point ps i) (point ps j).
(* samples that determine a plane or a line *)
Definition proper3 (ps : list (p3 R)) (t : nat * nat * nat) : Prop := let '(i, j, k) := t in not_collinear (point ps i) (point ps j) (point ps k).
Definition proper2 (ps : list (p3 R)) (t : nat * nat) : Prop := let '(i, j) := t in point ps i <> point ps j.

(* coordinates of any kind, up to M in absolute value *)
Definition below (M : R) (p : p3 spec_float) : Prop :=
  (real_f64 (px p) /\ Rabs (number (px p)) <= M) /\ (real_f64 (py p) /\ Rabs (number (py p)) <= M) /\ (real_f64 (pz p) /\ Rabs (number (pz p)) <= M).
(* A triangle that is not too thin: |ab|^2 and |ac|^2 are at most K |ab x ac|, which is twice the area. *)
Definition well_shaped (K : R) (a b c : p3 R) : Prop :=
  let ab := minus3 b a in let ac := minus3 c a in let area2 := sqrt (dot3 (cross3 ab ac) (cross3 ab ac)) in
  dot3 ab ab <= K * area2 /\ dot3 ac ac <= K * area2 /\ bpow radix2 (-300) <= dot3 ab ab.
Definition apart (a b : p3 R) : Prop := bpow radix2 (-300) <= dot3 (minus3 b a) (minus3 b a).
Definition error_at_most (eta : R) (x : spec_float) (d : R) : Prop := real_f64 x /\ Rabs (number x - d) <= eta.
(* as close_points, surely_close and fits, with an absolute error eta of the distances *)
Definition close_points_within (eta : R) (pts : list (p3 spec_float)) (S : p3 R -> Prop) (thr : spec_float) (l : list nat) : Prop :=
  forall i p d, nth_error pts i = Some p -> is_distance (real_point p) S d -> (d + eta < number thr -> In i l) /\ (In i l -> d - eta < number thr).
Definition surely_close_within (eta : R) (pts : list (p3 spec_float)) (S : p3 R -> Prop) (thr : spec_float) (l : list nat) : Prop :=
  NoDup l /\ forall i, In i l -> exists p d, nth_error pts i = Some p /\ is_distance (real_point p) S d /\ d + eta < number thr.
Definition fits_within {M A} (eta : R) (pts : list (p3 spec_float)) (thr : spec_float) (members : A -> list nat) (spanned : A -> p3 R -> Prop) (samples : list A) (h : hypothesis M) : Prop :=
  exists s, In s samples /\ incl (members s) (h_inliers h) /\ h_ranking h = length (h_inliers h) /\ close_points_within eta pts (spanned s) thr (h_inliers h)
    /\ forall s' l, In s' samples -> surely_close_within eta pts (spanned s') thr l -> (length l <= h_ranking h)%nat.
Definition shaped3 (K : R) (ps : list (p3 R)) (t : nat * nat * nat) : Prop := let '(i, j, k) := t in well_shaped K (point ps i) (point ps j) (point ps k).
Definition apart2 (ps : list (p3 R)) (t : nat * nat) : Prop := let '(i, j) := t in apart (point ps i) (point ps j).
