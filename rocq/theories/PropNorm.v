(* C62, C72, C73: normal estimation. *)
From Coq Require Import String List Arith ZArith Lia Reals Lra Bool Permutation SpecFloat.
From Verif Require Import Base MathModel MathSpec SegModel SegSpec SegExamples VoxSpec NormModel NormSpec NormProofs NormProofs2 NormFloat NormProofs3 NormProofs4 NormExamples.
Import ListNotations.
Open Scope R_scope.

(* ---- C62: in exact arithmetic. The neighbours of a point are whatever the kd tree returns. *)

(* One normal for each point, in order. *)
Theorem C62_one_per_point : forall nearest ps k out, compute_normals r_nops nearest ps k = Ok out -> length out = length ps.
Proof. intros nearest ps k out H. exact (proj1 (proj2 (proj2 (normals_entry _ _ _ _ _ _ H)))). Qed.
Print Assumptions C62_one_per_point.

(* Neighbours in a plane: the normal is orthogonal to the plane; it is the zero vector only if they lie on a line. *)
Theorem C62_coplanar : forall nearest ps k out i p n c,
  compute_normals r_nops nearest ps k = Ok out -> nth_error ps i = Some p -> nth_error out i = Some (n, c) ->
  coplanar (nearest ps p k) -> forall a b, In a (nearest ps p k) -> In b (nearest ps p k) -> dot n (minus a b) = 0.
Proof.
  intros nearest ps k out i p n c H P N C a b A B. pose proof (proj2 (proj2 (proj2 (normals_entry _ _ _ _ _ _ H))) i p (n, c) P N) as E.
  rewrite (proj2 (estimation_normal _ _ _ E)). exact (normal_orthogonal _ C a b A B).
Qed.
Print Assumptions C62_coplanar.

Theorem C62_nonzero : forall nearest ps k out i p n c,
  compute_normals r_nops nearest ps k = Ok out -> nth_error ps i = Some p -> nth_error out i = Some (n, c) ->
  ~ collinear (nearest ps p k) -> n <> zero3.
Proof.
  intros nearest ps k out i p n c H P N C. pose proof (proj2 (proj2 (proj2 (normals_entry _ _ _ _ _ _ H))) i p (n, c) P N) as E.
  rewrite (proj2 (estimation_normal _ _ _ E)). exact (normal_nonzero _ C).
Qed.
Print Assumptions C62_nonzero.

(* Other neighbourhoods. Missing: that the normal is an eigenvector for the smallest eigenvalue, which is false; it is an eigenvector
   only if it is parallel to one of the coordinate axes. *)
Theorem C62_axis_partial : forall nearest ps k out i p n c,
  compute_normals r_nops nearest ps k = Ok out -> nth_error ps i = Some p -> nth_error out i = Some (n, c) ->
  ~ coplanar (nearest ps p k) -> eigenvector (covariance_matrix (nearest ps p k)) n -> on_axis n.
Proof.
  intros nearest ps k out i p n c H P N C V. pose proof (proj2 (proj2 (proj2 (normals_entry _ _ _ _ _ _ H))) i p (n, c) P N) as E.
  rewrite (proj2 (estimation_normal _ _ _ E)) in *. exact (proj2 (normal_axis _ C) V).
Qed.
Print Assumptions C62_axis_partial.

(* Eight points for which no normal is an eigenvector, in whatever order the neighbours are found. *)
Theorem C62_refuted : exists ps k, forall nearest, (forall p, Permutation (nearest ps p k) ps) ->
  exists out, compute_normals r_nops nearest ps k = Ok out /\
    forall i p n c, nth_error ps i = Some p -> nth_error out i = Some (n, c) -> ~ eigenvector (covariance_matrix (nearest ps p k)) n.
Proof.
  exists eight, 8%nat. intros nearest PM. destruct (normals_some _ r_nops nearest eight 8) as (out & O); [cbn; lia|lia| |].
  - intros p _. destruct (estimation_some (nearest eight p 8%nat)) as (c & E); [rewrite (Permutation_length (PM p)); cbn; lia|]. eauto.
  - exists out. split; [exact O|]. intros i p n c P N. pose proof (proj2 (proj2 (proj2 (normals_entry _ _ _ _ _ _ O))) i p (n, c) P N) as E.
    exact (proj2 (proj2 (eight_normal _ n c (PM p) E))).
Qed.
Print Assumptions C62_refuted.

Example C62_nonvacuous : coplanar tilted /\ ~ collinear tilted /\ ~ coplanar eight
  /\ (exists out, compute_normals r_nops (@first_points R) tilted 4 = Ok out) /\ (exists out, compute_normals r_nops (@first_points R) eight 8 = Ok out).
Proof.
  split; [exact tilted_coplanar|]. split; [exact tilted_not_collinear|]. split.
  - destruct (estimation_some eight) as (c & E); [cbn; lia|]. exact (proj1 (eight_normal _ _ _ (Permutation_refl _) E)).
  - split; apply exact_some; try apply first_points_ok; cbn; lia.
Qed.

(* ---- C72: the curvature, in exact arithmetic *)

Theorem C72_coplanar : forall nearest ps k out i p n c,
  compute_normals r_nops nearest ps k = Ok out -> nth_error ps i = Some p -> nth_error out i = Some (n, c) ->
  coplanar (nearest ps p k) -> c = 0.
Proof.
  intros nearest ps k out i p n c H P N C. exact (coplanar_curvature _ n c C (proj2 (proj2 (proj2 (normals_entry _ _ _ _ _ _ H))) i p (n, c) P N)).
Qed.
Print Assumptions C72_coplanar.

(* The curvature is zero as well if the determinant of the covariance matrix is less than f64::EPSILON; *)
Theorem C72_small_partial : forall nearest ps k out i p n c,
  compute_normals r_nops nearest ps k = Ok out -> nth_error ps i = Some p -> nth_error out i = Some (n, c) ->
  Rabs (det (covariance_matrix (nearest ps p k))) < / 2 ^ 52 -> c = 0.
Proof.
  intros nearest ps k out i p n c H P N C. exact (small_curvature _ n c C (proj2 (proj2 (proj2 (normals_entry _ _ _ _ _ _ H))) i p (n, c) P N)).
Qed.
Print Assumptions C72_small_partial.

(* in all other cases it is the surface variation times the largest entry of the covariance matrix. Missing: without that factor. *)
Theorem C72_scaled_partial : forall nearest ps k out i p n c,
  compute_normals r_nops nearest ps k = Ok out -> nth_error ps i = Some p -> nth_error out i = Some (n, c) ->
  / 2 ^ 52 <= Rabs (det (covariance_matrix (nearest ps p k))) ->
  exists l s, smallest_eigenvalue (covariance_matrix (nearest ps p k)) l /\ 0 < l /\ largest_entry (covariance_matrix (nearest ps p k)) s
    /\ 0 < trace (covariance_matrix (nearest ps p k)) /\ c = s * (l / trace (covariance_matrix (nearest ps p k))).
Proof.
  intros nearest ps k out i p n c H P N C. exact (regular_curvature _ n c C (proj2 (proj2 (proj2 (normals_entry _ _ _ _ _ _ H))) i p (n, c) P N)).
Qed.
Print Assumptions C72_scaled_partial.

(* Six points on the axes: all curvatures are 2/3, the surface variation is 1/3. *)
Theorem C72_refuted : exists ps k, forall nearest, (forall p, Permutation (nearest ps p k) ps) ->
  exists out, compute_normals r_nops nearest ps k = Ok out /\
    forall i p n c, nth_error ps i = Some p -> nth_error out i = Some (n, c) ->
      c = 2 / 3 /\ surface_variation (covariance_matrix (nearest ps p k)) (1 / 3) /\ ~ surface_variation (covariance_matrix (nearest ps p k)) c.
Proof.
  exists six, 6%nat. intros nearest PM. destruct (normals_some _ r_nops nearest six 6) as (out & O); [cbn; lia|lia| |].
  - intros p _. destruct (estimation_some (nearest six p 6%nat)) as (c & E); [rewrite (Permutation_length (PM p)); cbn; lia|]. eauto.
  - exists out. split; [exact O|]. intros i p n c P N. pose proof (proj2 (proj2 (proj2 (normals_entry _ _ _ _ _ _ O))) i p (n, c) P N) as E.
    destruct (six_curvature _ n c (PM p) E) as (C & S). split; [exact C|]. split; [now apply S|]. rewrite (S c). lra.
Qed.
Print Assumptions C72_refuted.

Example C72_nonvacuous : (exists out, compute_normals r_nops (@first_points R) six 6 = Ok out) /\ / 2 ^ 52 <= Rabs (det (covariance_matrix six)).
Proof.
  split; [apply exact_some; try apply first_points_ok; cbn; lia|]. rewrite six_covariance. unfold det, v3. cbn [px py pz].
  replace (2 * (2 * 2 - 0 * 0) - 0 * (0 * 2 - 0 * 0) + 0 * (0 * 0 - 2 * 0)) with 8 by ring. rewrite Rabs_right by lra.
  apply Rle_trans with (/ 1); [|lra]. apply Rinv_le_contravar; [lra|]. apply pow_R1_Rle. lra.
Qed.

(* ---- C73: panics and NaN *)

(* In exact arithmetic: no panic for at least three points and neighbours. *)
Theorem C73_exact : forall nearest ps k, finds_neighbours nearest -> (3 <= length ps)%nat -> (3 <= k)%nat ->
  exists out, compute_normals r_nops nearest ps k = Ok out.
Proof. exact exact_some. Qed.
Print Assumptions C73_exact.

(* With fewer than three points or neighbours: always a panic, as documented. *)
Theorem C73_few_panics : forall T (o : nops T) nearest ps k, (length ps < 3)%nat \/ (k < 3)%nat -> compute_normals o nearest ps k = Panic.
Proof. exact few. Qed.
Print Assumptions C73_few_panics.

(* In f64: no panic and no NaN among the curvatures for coordinates of absolute value at most 2^64 and at most 2^32 neighbours, if
   sine, cosine and atan2 are within their bounds. The normals are finite if two of the neighbours are not too close together.
   Missing: larger coordinates, and neighbours that are all at one place. *)
Theorem C73_bounded_partial : forall atan2 cos sin nearest ps k,
  libm_ok atan2 cos sin -> finds_neighbours nearest -> (3 <= length ps)%nat -> (3 <= k)%nat -> (Z.of_nat k <= 2 ^ 32)%Z ->
  (forall p, In p ps -> point_within (2 ^ 64) p) ->
  exists out, compute_normals (f64_nops atan2 cos sin) nearest ps k = Ok out /\
    forall i p n c, nth_error ps i = Some p -> nth_error out i = Some (n, c) ->
      (spread (/ 2 ^ 400) (nearest ps p k) -> finite_point n) /\ c <> S754_nan.
Proof. exact f64_some. Qed.
Print Assumptions C73_bounded_partial.

(* Three points with finite coordinates: a panic. Three points at one place: normals of NaN. *)
Theorem C73_refuted : forall atan2 cos sin,
  (exists nearest ps, finds_neighbours nearest /\ length ps = 3%nat /\ (forall p, In p ps -> real_f64 (px p) /\ real_f64 (py p) /\ real_f64 (pz p))
     /\ compute_normals (f64_nops atan2 cos sin) nearest ps 3 = Panic)
  /\ (exists nearest ps out, finds_neighbours nearest /\ length ps = 3%nat /\ (forall p, In p ps -> point_within (2 ^ 64) p)
     /\ compute_normals (f64_nops atan2 cos sin) nearest ps 3 = Ok out /\ forall n c, In (n, c) out -> px n = S754_nan /\ py n = S754_nan /\ pz n = S754_nan).
Proof.
  intros atan2 cos sin. split.
  - exists (@first_points _), far_points. split; [apply first_points_ok|]. split; [reflexivity|]. split; [exact far_finite|]. exact (far_panics atan2 cos sin).
  - exists (@first_points _), same_points, (repeat (nan3, S754_zero false) 3). split; [apply first_points_ok|]. split; [reflexivity|]. split.
    + intros p H. apply repeat_spec in H. subst p. unfold point_within. cbn [f_point px py pz]. repeat match goal with |- _ /\ _ => split end; apply fz_within; lia.
    + split; [exact (same_nan atan2 cos sin)|]. intros n c H. apply repeat_spec in H. inversion H. auto.
Qed.
Print Assumptions C73_refuted.

Example C73_nonvacuous : libm_ok (fun _ _ => fz 0) (fun _ => fz 1) (fun _ => fz 0) /\ finds_neighbours (@first_points spec_float)
  /\ (forall p, In p cloud5 -> point_within (2 ^ 64) p) /\ spread (/ 2 ^ 400) (first_points _ cloud5 (hd nan3 cloud5) 5).
Proof. split; [exact libm_example|]. split; [apply first_points_ok|]. split; [exact cloud5_within|]. exact cloud5_spread. Qed.

(* ---- C89: coordinates that are not finite *)

(* One coordinate of a neighbour is not a number: the centroid and the normal are those of the neighbours with finite coordinates; a panic
   if fewer than three are left. Missing: infinite coordinates when no coordinate is NaN. *)
Theorem C89_nan_partial : forall atan2 cos sin ps qs p, let e := f64_nops atan2 cos sin in
  In p ps -> has_nan p -> only_finite ps qs ->
  (qs <> [] -> compute_centroid e ps = compute_centroid e qs)
  /\ ((3 <= length qs)%nat -> normal_estimation e ps = normal_estimation e qs)
  /\ ((length qs < 3)%nat -> normal_estimation e ps = Panic).
Proof. exact nan_skipped. Qed.
Print Assumptions C89_nan_partial.

(* The same for the entries of the result for a cloud. *)
Theorem C89_normals_partial : forall atan2 cos sin nearest ps k i p n c qs q out, let e := f64_nops atan2 cos sin in
  compute_normals e nearest ps k = Ok out -> nth_error ps i = Some p -> nth_error out i = Some (n, c) ->
  In q (nearest ps p k) -> has_nan q -> only_finite (nearest ps p k) qs -> (3 <= length qs)%nat /\ normal_estimation e qs = Ok (n, c).
Proof. exact normals_skip. Qed.
Print Assumptions C89_normals_partial.

(* An infinite coordinate, and no NaN: the point is not left out. Without it there is a finite normal, with it a panic. *)
Theorem C89_refuted : forall atan2 cos sin, let e := f64_nops atan2 cos sin in
  exists ps qs, only_finite ps qs /\ (exists n c, normal_estimation e qs = Ok (n, c) /\ finite_point n) /\ normal_estimation e ps = Panic
    /\ compute_normals e (@first_points _) ps 5 = Panic.
Proof.
  intros atan2 cos sin e. exists (with_point sky), cloud4. split; [apply with_only_finite; unfold finite_point, sky; cbn; tauto|].
  destruct (sky_normals atan2 cos sin) as (A & B). split; [exact A|]. split; [exact B|]. unfold e. vm_compute. reflexivity.
Qed.
Print Assumptions C89_refuted.

Example C89_nonvacuous : In no_height (with_point no_height) /\ has_nan no_height /\ only_finite (with_point no_height) cloud4 /\ length cloud4 = 4%nat
  /\ exists out, compute_normals (f64_nops (fun _ _ => fz 0) (fun _ => fz 1) (fun _ => fz 0)) (@first_points _) (with_point no_height) 5 = Ok out
       /\ length out = 5%nat /\ forall n c, In (n, c) out -> finite_point n.
Proof.
  split; [cbn; auto|]. split; [unfold has_nan; cbn; auto|]. split; [apply with_only_finite; unfold finite_point, no_height; cbn; tauto|]. split; [reflexivity|].
  eexists. split; [vm_compute; reflexivity|]. split; [reflexivity|]. intros n c H. cbn in H. repeat (destruct H as [H|H]; [inversion H; vm_compute; auto|]). destruct H.
Qed.
