(* C88: RANSAC segmentation in f64 arithmetic. *)
From Coq Require Import String Ascii List ZArith Lia Bool Arith SpecFloat Reals.
From Flocq Require Import Core.
From Verif Require Import Base LayoutModel BufferModel BufferSpec TraitModel TraitSpec MathModel SegModel SegSpec LasGridSpec VoxSpec TilesBoxSpec HullSpec HullFloatSpec SegFloatSpec SegFloat2 SegFloat4
  SegExamples HullExamples HullFloatExamples SegFloatExamples.
Import ListNotations.
Open Scope nat_scope.

(* C88. The computed distance of a point to the plane through three points that are not on a line, or to the line through two
   different points, is the Euclidean distance up to a relative error of 2^-49. Proved for coordinates that are multiples k 2^e,
   |k| <= 2^15, of a power of two, |e| <= 100. *)
Theorem C88_plane_distance_partial : forall e, (-100 <= e <= 100)%Z -> forall a b c p, grid_point e a -> grid_point e b -> grid_point e c -> grid_point e p ->
  not_collinear (TilesBoxSpec.real_point a) (TilesBoxSpec.real_point b) (TilesBoxSpec.real_point c) ->
  exists d, is_distance (TilesBoxSpec.real_point p) (plane_through (TilesBoxSpec.real_point a) (TilesBoxSpec.real_point b) (TilesBoxSpec.real_point c)) d
    /\ nearly (distance_point_plane f64_ops p (plane_of f64_ops a b c)) d.
Proof. exact plane_near. Qed.
Print Assumptions C88_plane_distance_partial.
Theorem C88_line_distance_partial : forall e, (-100 <= e <= 100)%Z -> forall a b p, grid_point e a -> grid_point e b -> grid_point e p ->
  TilesBoxSpec.real_point a <> TilesBoxSpec.real_point b ->
  exists d, is_distance (TilesBoxSpec.real_point p) (line_through (TilesBoxSpec.real_point a) (TilesBoxSpec.real_point b)) d
    /\ nearly (distance_point_line f64_ops p (mk_line a b)) d.
Proof. exact line_near. Qed.
Print Assumptions C88_line_distance_partial.

(* Whole searches, serial and parallel: the answer belongs to a sample whose points are among its inliers, the inliers are the points
   closer than the threshold to the sampled plane or line, and no other sample has more points that are surely that close. *)
Theorem C88_plane_serial_partial : forall b m e thr, has_positions b m -> (-100 <= e <= 100)%Z -> Forall (grid_point e) (points3 b m) ->
  real_f64 thr -> (0 < number thr)%R -> let ps := map TilesBoxSpec.real_point (points3 b m) in
  forall runs samples rest, 3 <= bf_len b -> runs <> [] -> Forall2 (sample3 (bf_len b)) runs samples -> Forall (proper3 ps) samples ->
  exists h, ransac_plane_serial b thr (length runs) (concat runs ++ rest) = Some (Ok h) /\ fits (points3 b m) thr three (spanned_plane ps) samples h.
Proof. exact plane_serial_fits. Qed.
Print Assumptions C88_plane_serial_partial.
Theorem C88_line_serial_partial : forall b m e thr, has_positions b m -> (-100 <= e <= 100)%Z -> Forall (grid_point e) (points3 b m) ->
  real_f64 thr -> (0 < number thr)%R -> let ps := map TilesBoxSpec.real_point (points3 b m) in
  forall runs samples rest, 2 <= bf_len b -> runs <> [] -> Forall2 (sample2 (bf_len b)) runs samples -> Forall (proper2 ps) samples ->
  exists h, ransac_line_serial b thr (length runs) (concat runs ++ rest) = Some (Ok h) /\ fits (points3 b m) thr two (spanned_line ps) samples h.
Proof. exact line_serial_fits. Qed.
Print Assumptions C88_line_serial_partial.
Theorem C88_plane_parallel_partial : forall b m e thr, has_positions b m -> (-100 <= e <= 100)%Z -> Forall (grid_point e) (points3 b m) ->
  real_f64 thr -> (0 < number thr)%R -> let ps := map TilesBoxSpec.real_point (points3 b m) in
  forall s samples, 3 <= bf_len b -> Forall2 (fun d t => exists run rest, d = run ++ rest /\ sample3 (bf_len b) run t) (iterations s) samples -> Forall (proper3 ps) samples ->
  exists h, ransac_plane_par b thr (Some s) = Some (Ok h) /\ fits (points3 b m) thr three (spanned_plane ps) samples h.
Proof. exact plane_par_fits. Qed.
Print Assumptions C88_plane_parallel_partial.
Theorem C88_line_parallel_partial : forall b m e thr, has_positions b m -> (-100 <= e <= 100)%Z -> Forall (grid_point e) (points3 b m) ->
  real_f64 thr -> (0 < number thr)%R -> let ps := map TilesBoxSpec.real_point (points3 b m) in
  forall s samples, 2 <= bf_len b -> Forall2 (fun d t => exists run rest, d = run ++ rest /\ sample2 (bf_len b) run t) (iterations s) samples -> Forall (proper2 ps) samples ->
  exists h, ransac_line_par b thr (Some s) = Some (Ok h) /\ fits (points3 b m) thr two (spanned_line ps) samples h.
Proof. exact line_par_fits. Qed.
Print Assumptions C88_line_parallel_partial.

(* Coordinates of any kind, up to M in absolute value, 2^-150 <= M <= 2^150: the computed distances differ from the Euclidean ones by at
   most 2^-44 K M for planes and 2^-45 M for lines. K <= 2^40 bounds |ab|^2 and |ac|^2 by K |ab x ac| for the sampled points. *)
Theorem C88_plane_distance_any_partial : forall M, (bpow radix2 (-150) <= M <= bpow radix2 150)%R -> forall K a b c p, (K <= bpow radix2 40)%R ->
  below M a -> below M b -> below M c -> below M p -> well_shaped K (TilesBoxSpec.real_point a) (TilesBoxSpec.real_point b) (TilesBoxSpec.real_point c) ->
  exists d, is_distance (TilesBoxSpec.real_point p) (plane_through (TilesBoxSpec.real_point a) (TilesBoxSpec.real_point b) (TilesBoxSpec.real_point c)) d
    /\ error_at_most (bpow radix2 (-44) * K * M) (distance_point_plane f64_ops p (plane_of f64_ops a b c)) d.
Proof. exact plane_any. Qed.
Print Assumptions C88_plane_distance_any_partial.
Theorem C88_line_distance_any_partial : forall M, (bpow radix2 (-150) <= M <= bpow radix2 150)%R -> forall a b p, below M a -> below M b -> below M p ->
  apart (TilesBoxSpec.real_point a) (TilesBoxSpec.real_point b) ->
  exists d, is_distance (TilesBoxSpec.real_point p) (line_through (TilesBoxSpec.real_point a) (TilesBoxSpec.real_point b)) d
    /\ error_at_most (bpow radix2 (-45) * M) (distance_point_line f64_ops p (mk_line a b)) d.
Proof. exact line_any. Qed.
Print Assumptions C88_line_distance_any_partial.
Theorem C88_plane_serial_any_partial : forall b m M thr, has_positions b m -> (bpow radix2 (-150) <= M <= bpow radix2 150)%R -> Forall (below M) (points3 b m) ->
  real_f64 thr -> let ps := map TilesBoxSpec.real_point (points3 b m) in
  forall K runs samples rest, (K <= bpow radix2 40)%R -> (bpow radix2 (-44) * K * M < number thr)%R -> 3 <= bf_len b -> runs <> [] -> Forall2 (sample3 (bf_len b)) runs samples -> Forall (shaped3 K ps) samples ->
  exists h, ransac_plane_serial b thr (length runs) (concat runs ++ rest) = Some (Ok h) /\ fits_within (bpow radix2 (-44) * K * M) (points3 b m) thr three (spanned_plane ps) samples h.
Proof. exact plane_serial_any. Qed.
Print Assumptions C88_plane_serial_any_partial.
Theorem C88_line_serial_any_partial : forall b m M thr, has_positions b m -> (bpow radix2 (-150) <= M <= bpow radix2 150)%R -> Forall (below M) (points3 b m) ->
  real_f64 thr -> let ps := map TilesBoxSpec.real_point (points3 b m) in
  forall runs samples rest, (bpow radix2 (-45) * M < number thr)%R -> 2 <= bf_len b -> runs <> [] -> Forall2 (sample2 (bf_len b)) runs samples -> Forall (apart2 ps) samples ->
  exists h, ransac_line_serial b thr (length runs) (concat runs ++ rest) = Some (Ok h) /\ fits_within (bpow radix2 (-45) * M) (points3 b m) thr two (spanned_line ps) samples h.
Proof. exact line_serial_any. Qed.
Print Assumptions C88_line_serial_any_partial.
Theorem C88_plane_parallel_any_partial : forall b m M thr, has_positions b m -> (bpow radix2 (-150) <= M <= bpow radix2 150)%R -> Forall (below M) (points3 b m) ->
  real_f64 thr -> let ps := map TilesBoxSpec.real_point (points3 b m) in
  forall K s samples, (K <= bpow radix2 40)%R -> (bpow radix2 (-44) * K * M < number thr)%R -> 3 <= bf_len b ->
  Forall2 (fun d t => exists run rest, d = run ++ rest /\ sample3 (bf_len b) run t) (iterations s) samples -> Forall (shaped3 K ps) samples ->
  exists h, ransac_plane_par b thr (Some s) = Some (Ok h) /\ fits_within (bpow radix2 (-44) * K * M) (points3 b m) thr three (spanned_plane ps) samples h.
Proof. exact plane_par_any. Qed.
Print Assumptions C88_plane_parallel_any_partial.
Theorem C88_line_parallel_any_partial : forall b m M thr, has_positions b m -> (bpow radix2 (-150) <= M <= bpow radix2 150)%R -> Forall (below M) (points3 b m) ->
  real_f64 thr -> let ps := map TilesBoxSpec.real_point (points3 b m) in
  forall s samples, (bpow radix2 (-45) * M < number thr)%R -> 2 <= bf_len b ->
  Forall2 (fun d t => exists run rest, d = run ++ rest /\ sample2 (bf_len b) run t) (iterations s) samples -> Forall (apart2 ps) samples ->
  exists h, ransac_line_par b thr (Some s) = Some (Ok h) /\ fits_within (bpow radix2 (-45) * M) (points3 b m) thr two (spanned_line ps) samples h.
Proof. exact line_par_any. Qed.
Print Assumptions C88_line_parallel_any_partial.

(* Without the conditions the sampled points need not be inliers: three points of a line or two equal points give distances 0/0, and
   far from the origin a sampled point is more than half a unit away from its own plane. *)
Theorem C88_collinear_refuted : exists b m e thr run t h, has_positions b m /\ Forall (grid_point e) (points3 b m) /\ real_f64 thr /\ (0 < number thr)%R /\ sample3 (bf_len b) run t
  /\ ransac_plane_serial b thr 1 run = Some (Ok h) /\ ~ incl (three t) (h_inliers h).
Proof. exact collinear_fails. Qed.
Print Assumptions C88_collinear_refuted.
Theorem C88_duplicate_refuted : exists b m e thr run t h, has_positions b m /\ Forall (grid_point e) (points3 b m) /\ real_f64 thr /\ (0 < number thr)%R /\ sample2 (bf_len b) run t
  /\ ransac_line_serial b thr 1 run = Some (Ok h) /\ ~ incl (two t) (h_inliers h).
Proof. exact duplicate_fails. Qed.
Print Assumptions C88_duplicate_refuted.
Theorem C88_rounding_refuted : exists b m thr run t h, has_positions b m /\ real_f64 thr /\ (0 < number thr)%R /\ sample3 (bf_len b) run t
  /\ proper3 (map TilesBoxSpec.real_point (points3 b m)) t /\ ransac_plane_serial b thr 1 run = Some (Ok h) /\ ~ incl (three t) (h_inliers h).
Proof. exact rounding_fails. Qed.
Print Assumptions C88_rounding_refuted.

(* seven points with integer coordinates, two samples each *)
Example C88_example : has_positions (cloud solid) g_pos /\ Forall (grid_point 0) (points3 (cloud solid) g_pos) /\ real_f64 g_half /\ (0 < number g_half)%R
  /\ Forall2 (sample3 (bf_len (cloud solid))) [[0; 0; 1; 2]; [3; 1; 3; 0]] [(0, 1, 2); (3, 1, 0)]
  /\ Forall (proper3 (map TilesBoxSpec.real_point (points3 (cloud solid) g_pos))) [(0, 1, 2); (3, 1, 0)]
  /\ Forall2 (sample2 (bf_len (cloud solid))) [[0; 0; 1]; [2; 3]] [(0, 1); (2, 3)]
  /\ Forall (proper2 (map TilesBoxSpec.real_point (points3 (cloud solid) g_pos))) [(0, 1); (2, 3)].
Proof.
  split; [apply cloud_positions|]. split; [exact solid_grid|]. split; [apply half_real|]. split; [apply half_real|]. split; [exact solid_samples3|].
  split; [exact solid_proper3|]. split; [exact solid_samples2|exact solid_proper2].
Qed.
(* five points of a survey in millimetres, with K = 4 and M = 2^33 *)
Example C88_any_example : has_positions (cloud survey) g_pos /\ Forall (below (bpow radix2 33)) (points3 (cloud survey) g_pos) /\ real_f64 g_half
  /\ (bpow radix2 (-44) * 4 * bpow radix2 33 < number g_half /\ bpow radix2 (-45) * bpow radix2 33 < number g_half)%R
  /\ Forall2 (sample3 (bf_len (cloud survey))) [[0; 0; 1; 2]; [3; 1; 3; 0]] [(0, 1, 2); (3, 1, 0)]
  /\ Forall (shaped3 4 (map TilesBoxSpec.real_point (points3 (cloud survey) g_pos))) [(0, 1, 2); (3, 1, 0)]
  /\ Forall2 (sample2 (bf_len (cloud survey))) [[0; 0; 1]; [2; 3]] [(0, 1); (2, 3)]
  /\ Forall (apart2 (map TilesBoxSpec.real_point (points3 (cloud survey) g_pos))) [(0, 1); (2, 3)].
Proof.
  split; [apply cloud_positions|]. split; [exact survey_below|]. split; [apply half_real|]. split; [exact survey_threshold|]. split; [exact survey_samples3|].
  split; [exact survey_shaped|]. split; [exact survey_samples2|exact survey_apart].
Qed.
