(* Vocabulary for the properties of the RANSAC segmentation. *)
From Coq Require Import String Ascii List ZArith Lia Bool Arith SpecFloat Sorted Reals.
From Verif Require Import Base LayoutModel BufferModel BufferSpec TraitModel TraitSpec NumModel MathModel SegModel.
Import ListNotations.
Open Scope nat_scope.
Set Implicit Arguments.

(* the positions of the points of a buffer whose attribute m is POSITION_3D *)
Definition points3 (b : buffer) (m : member) : list (p3 spec_float) := map (fun r => vec3_f64 (attr_value m r)) (bf_points b).
Definition has_positions (b : buffer) (m : member) : Prop := bf_wf b /\ In m (l_attrs (bf_layout b)) /\ m_def m = POSITION_3D.

(* Random numbers of one hypothesis: the first number, numbers rejected because they repeat it, a second one, numbers rejected
   because they repeat one of the two, a third one. *)
Definition sample3 (n : nat) (draws : list nat) (t : nat * nat * nat) : Prop :=
  let '(i, j, k) := t in
  exists again1 again2, draws = i :: again1 ++ j :: again2 ++ [k]
    /\ Forall (fun r => r = i) again1 /\ j <> i /\ Forall (fun r => r = i \/ r = j) again2 /\ k <> i /\ k <> j
    /\ i < n /\ j < n /\ k < n.
Definition sample2 (n : nat) (draws : list nat) (t : nat * nat) : Prop :=
  let '(i, j) := t in
  exists again, draws = i :: again ++ [j] /\ Forall (fun r => r = i) again /\ j <> i /\ i < n /\ j < n.

(* the models that the samples describe *)
Definition is_plane_of (pts : list (p3 spec_float)) (t : nat * nat * nat) (pl : plane spec_float) : Prop :=
  let '(i, j, k) := t in
  exists p q r, nth_error pts i = Some p /\ nth_error pts j = Some q /\ nth_error pts k = Some r /\ pl = plane_of f64_ops p q r.
Definition is_line_of (pts : list (p3 spec_float)) (t : nat * nat) (l : line spec_float) : Prop :=
  let '(i, j) := t in exists p q, nth_error pts i = Some p /\ nth_error pts j = Some q /\ l = mk_line p q.

(* l lists, in increasing order, the points that are closer than thr to the model *)
Definition inliers {M} (pts : list (p3 spec_float)) (dist : p3 spec_float -> M -> spec_float) (thr : spec_float) (m : M) (l : list nat) : Prop :=
  StronglySorted Peano.lt l /\ forall i, In i l <-> exists p, nth_error pts i = Some p /\ SFltb (dist p m) thr = true.

(* h is a hypothesis with the most inliers among the models, the last such one *)
Definition best_of {M} (pts : list (p3 spec_float)) (dist : p3 spec_float -> M -> spec_float) (thr : spec_float) (models : list M)
    (h : hypothesis M) : Prop :=
  inliers pts dist thr (h_model h) (h_inliers h) /\ h_ranking h = length (h_inliers h)
  /\ exists k, nth_error models k = Some (h_model h)
     /\ forall k' m' l', nth_error models k' = Some m' -> inliers pts dist thr m' l' ->
          length l' <= h_ranking h /\ (k < k' -> length l' < h_ranking h).

(* the iterations of a schedule, from left to right *)
Fixpoint iterations (s : schedule) : list (list nat) :=
  match s with Iter d => [d] | Join l r => iterations l ++ iterations r end.

(* exact real arithmetic *)
Definition r_ops : ops R := mk_ops Rplus Rminus Rmult Rdiv Ropp Rabs sqrt (fun x y => if Rlt_dec x y then true else false).
Definition on_plane (pl : plane R) (q : p3 R) : Prop := (pl_a pl * px q + pl_b pl * py q + pl_c pl * pz q + pl_d pl = 0)%R.
Definition on_line (l : line R) (q : p3 R) : Prop :=
  exists t : R, (px q = px (ln_first l) + t * (px (ln_second l) - px (ln_first l))
              /\ py q = py (ln_first l) + t * (py (ln_second l) - py (ln_first l))
              /\ pz q = pz (ln_first l) + t * (pz (ln_second l) - pz (ln_first l)))%R.
Definition euclid (p q : p3 R) : R :=
  sqrt ((px p - px q) * (px p - px q) + (py p - py q) * (py p - py q) + (pz p - pz q) * (pz p - pz q))%R.
(* d is the least distance from p to a point of the set S *)
Definition is_distance (p : p3 R) (S : p3 R -> Prop) (d : R) : Prop :=
  (forall q, S q -> d <= euclid p q)%R /\ exists q, S q /\ d = euclid p q.
(* three points that are not on a line *)
Definition not_collinear (a b c : p3 R) : Prop := forall l, ~ (ln_first l <> ln_second l /\ on_line l a /\ on_line l b /\ on_line l c).
