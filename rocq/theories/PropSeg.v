(* C56, C57: RANSAC segmentation. *)
From Coq Require Import String Ascii List ZArith Lia Bool Arith SpecFloat Sorted Reals Lra.
From Verif Require Import Base LayoutModel BufferModel BufferSpec TraitModel TraitSpec NumModel MathModel SegModel SegSpec SegProofs SegProofs2 SegReal SegExamples.
Import ListNotations.
Open Scope nat_scope.

(* C56. For every sequence of random numbers that lets the iterations finish, the result is the last hypothesis with the most
   inliers, with exactly its inliers in increasing order. *)
Theorem C56_plane_is_best : forall b m thr runs samples rest,
  has_positions b m -> 3 <= bf_len b -> runs <> [] -> Forall2 (sample3 (bf_len b)) runs samples ->
  exists h planes, ransac_plane_serial b thr (length runs) (concat runs ++ rest) = Some (Ok h)
    /\ Forall2 (is_plane_of (points3 b m)) samples planes /\ best_of (points3 b m) (distance_point_plane f64_ops) thr planes h.
Proof. exact plane_serial. Qed.
Print Assumptions C56_plane_is_best.
Theorem C56_line_is_best : forall b m thr runs samples rest,
  has_positions b m -> 2 <= bf_len b -> runs <> [] -> Forall2 (sample2 (bf_len b)) runs samples ->
  exists h lines, ransac_line_serial b thr (length runs) (concat runs ++ rest) = Some (Ok h)
    /\ Forall2 (is_line_of (points3 b m)) samples lines /\ best_of (points3 b m) (distance_point_line f64_ops) thr lines h.
Proof. exact line_serial. Qed.
Print Assumptions C56_line_is_best.

(* Every sequence of random numbers with which the search ends is of that form. *)
Theorem C56_plane_finished : forall b m thr n draws r, has_positions b m -> 3 <= bf_len b -> Forall (fun i => i < bf_len b) draws ->
  ransac_plane_serial b thr n draws = Some r ->
  exists runs samples rest, draws = concat runs ++ rest /\ length runs = n /\ Forall2 (sample3 (bf_len b)) runs samples.
Proof. exact plane_finished. Qed.
Print Assumptions C56_plane_finished.
Theorem C56_line_finished : forall b m thr n draws r, has_positions b m -> 2 <= bf_len b -> Forall (fun i => i < bf_len b) draws ->
  ransac_line_serial b thr n draws = Some r ->
  exists runs samples rest, draws = concat runs ++ rest /\ length runs = n /\ Forall2 (sample2 (bf_len b)) runs samples.
Proof. exact line_finished. Qed.
Print Assumptions C56_line_finished.

(* the two ways to panic: too few points, no iterations *)
Theorem C56_panics : forall b thr n draws,
  (bf_len b < 3 \/ n = 0 -> ransac_plane_serial b thr n draws = Some Panic) /\ (bf_len b < 2 \/ n = 0 -> ransac_line_serial b thr n draws = Some Panic)
  /\ ransac_plane_par b thr None = Some Panic /\ ransac_line_par b thr None = Some Panic
  /\ (bf_len b < 3 -> forall s, ransac_plane_par b thr s = Some Panic) /\ (bf_len b < 2 -> forall s, ransac_line_par b thr s = Some Panic).
Proof. exact ransac_panics. Qed.
Print Assumptions C56_panics.

(* Read with real numbers, the formulas are the plane through the sampled points and the Euclidean distances to plane and line. *)
Theorem C56_plane_through_samples : forall a b c : p3 R,
  on_plane (plane_of r_ops a b c) a /\ on_plane (plane_of r_ops a b c) b /\ on_plane (plane_of r_ops a b c) c.
Proof. exact plane_through. Qed.
Print Assumptions C56_plane_through_samples.
Theorem C56_plane_distance : forall a b c p : p3 R, not_collinear a b c ->
  is_distance p (on_plane (plane_of r_ops a b c)) (distance_point_plane r_ops p (plane_of r_ops a b c)).
Proof. exact sampled_plane_distance. Qed.
Print Assumptions C56_plane_distance.
Theorem C56_line_distance : forall (l : line R) (p : p3 R), ln_first l <> ln_second l ->
  is_distance p (on_line l) (distance_point_line r_ops p l).
Proof. exact line_distance. Qed.
Print Assumptions C56_line_distance.

(* two hypotheses: 0, 1 and 4 span the plane y = 0 with 3 inliers, 0, 1 and 2 the plane z = 0 with 4 *)
Example C56_example : has_positions g_buf g_pos /\ Forall2 (sample3 (bf_len g_buf)) [[0; 0; 1; 0; 4]; [0; 1; 1; 2]] [(0, 1, 4); (0, 1, 2)].
Proof.
  split; [exact g_positions|]. repeat constructor.
  - exists [0], [0]. vm_compute. repeat split; auto; try lia; repeat constructor.
  - exists [], [1]. vm_compute. repeat split; auto; try lia; repeat constructor.
Qed.
Example C56_example_result :
  match ransac_plane_serial g_buf g_half 2 [0; 0; 1; 0; 4; 0; 1; 1; 2] with
  | Some (Ok h) => h_ranking h = 4 /\ h_inliers h = [0; 1; 2; 3]
  | _ => False
  end.
Proof. vm_compute. auto. Qed.
Example C56_example_line :
  match ransac_line_serial g_buf g_half 2 [0; 0; 1; 0; 4] with
  | Some (Ok h) => h_ranking h = 2 /\ h_inliers h = [0; 4]
  | _ => False
  end.
Proof. vm_compute. auto. Qed.
Example C56_example_reals : not_collinear (mk_p3 0 0 0)%R (mk_p3 1 0 0)%R (mk_p3 0 1 0)%R.
Proof.
  intros l (NE & (t & A1 & A2 & A3) & (u & B1 & B2 & B3) & (v & C1 & C2 & C3)). cbn [px py pz] in *. apply NE.
  destruct l as [[x y z] [x' y' z']]. cbn [px py pz ln_first ln_second] in *.
  assert (X : ((u - t) * (x' - x) = 1)%R) by lra. assert (Y : ((u - t) * (y' - y) = 0)%R) by lra.
  assert (X2 : ((v - t) * (x' - x) = 0)%R) by lra. assert (Y2 : ((v - t) * (y' - y) = 1)%R) by lra.
  exfalso. assert (((u - t) * (x' - x) * ((v - t) * (y' - y)) = (u - t) * (y' - y) * ((v - t) * (x' - x)))%R) by ring.
  rewrite X, Y, X2, Y2 in H. lra.
Qed.

(* C57. However rayon splits the iterations and combines the results, the answer is the one of the serial search over the same
   samples. *)
Theorem C57_plane_schedule_independent : forall b m thr s samples, has_positions b m -> 3 <= bf_len b ->
  Forall2 (fun d t => exists run rest, d = run ++ rest /\ sample3 (bf_len b) run t) (iterations s) samples ->
  exists h planes, ransac_plane_par b thr (Some s) = Some (Ok h)
    /\ Forall2 (is_plane_of (points3 b m)) samples planes /\ best_of (points3 b m) (distance_point_plane f64_ops) thr planes h
    /\ forall runs rest, Forall2 (sample3 (bf_len b)) runs samples -> ransac_plane_serial b thr (length runs) (concat runs ++ rest) = Some (Ok h).
Proof. exact plane_par. Qed.
Print Assumptions C57_plane_schedule_independent.
Theorem C57_line_schedule_independent : forall b m thr s samples, has_positions b m -> 2 <= bf_len b ->
  Forall2 (fun d t => exists run rest, d = run ++ rest /\ sample2 (bf_len b) run t) (iterations s) samples ->
  exists h lines, ransac_line_par b thr (Some s) = Some (Ok h)
    /\ Forall2 (is_line_of (points3 b m)) samples lines /\ best_of (points3 b m) (distance_point_line f64_ops) thr lines h
    /\ forall runs rest, Forall2 (sample2 (bf_len b)) runs samples -> ransac_line_serial b thr (length runs) (concat runs ++ rest) = Some (Ok h).
Proof. exact line_par. Qed.
Print Assumptions C57_line_schedule_independent.
Example C57_example : let s := Join (Iter [0; 0; 1; 0; 4]) (Join (Iter [0; 1; 1; 2; 7]) (Iter [2; 1; 0])) in
  Forall2 (fun d t => exists run rest, d = run ++ rest /\ sample3 (bf_len g_buf) run t) (iterations s) [(0, 1, 4); (0, 1, 2); (2, 1, 0)].
Proof.
  repeat constructor.
  - exists [0; 0; 1; 0; 4], []. split; [reflexivity|]. exists [0], [0]. vm_compute. repeat split; auto; try lia; repeat constructor.
  - exists [0; 1; 1; 2], [7]. split; [reflexivity|]. exists [], [1]. vm_compute. repeat split; auto; try lia; repeat constructor.
  - exists [2; 1; 0], []. split; [reflexivity|]. exists [], []. vm_compute. repeat split; auto; try lia; repeat constructor.
Qed.
