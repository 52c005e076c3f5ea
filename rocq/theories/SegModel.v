(* Model of the RANSAC plane and line segmentation (pasture-algorithms/src/segmentation.rs). Definitions only.
   The arithmetic is a parameter, so that the same code can be read with f64 and with exact real numbers. Random numbers are an
   input: the list of the values that gen_range(0..buffer.len()) returns, in the order of the calls. A loop that has used up the
   list is still running, written None. *)
From Coq Require Import String Ascii List ZArith Lia Bool Arith SpecFloat.
From Verif Require Import Base LayoutModel BufferModel TraitModel NumModel MathModel.
Import ListNotations.
Open Scope nat_scope.
Set Implicit Arguments.

(* the operations of f64 that are used *)
Record ops (T : Type) := mk_ops { o_add : T -> T -> T; o_sub : T -> T -> T; o_mul : T -> T -> T; o_div : T -> T -> T; o_neg : T -> T;
                                  o_abs : T -> T; o_sqrt : T -> T; o_lt : T -> T -> bool }.
Definition f64_ops : ops spec_float := mk_ops f64_add f64_sub f64_mul f64_div SFopp SFabs (SFsqrt 53 1024) SFltb.

Section Formulas.
Variable T : Type.
Variable o : ops T.
Local Notation "x + y" := (o_add o x y).
Local Notation "x - y" := (o_sub o x y).
Local Notation "x * y" := (o_mul o x y).
Local Notation "x / y" := (o_div o x y).

(* nalgebra: subtraction, cross and dot product and norm of Vector3 *)
Definition v_sub (u v : p3 T) : p3 T := mk_p3 (px u - px v) (py u - py v) (pz u - pz v).
Definition v_cross (u v : p3 T) : p3 T :=
  mk_p3 (py u * pz v - pz u * py v) (pz u * px v - px u * pz v) (px u * py v - py u * px v).
Definition v_dot (u v : p3 T) : T := px u * px v + py u * py v + pz u * pz v.
Definition v_norm (u : p3 T) : T := o_sqrt o (v_dot u u).

(* struct Line, segmentation.rs:13-17; struct Plane, 22-28. The field ranking is kept apart in the models below. *)
Record line := mk_line { ln_first : p3 T; ln_second : p3 T }.
Record plane := mk_plane { pl_a : T; pl_b : T; pl_c : T; pl_d : T }.

(* distance_point_plane, segmentation.rs:31-35 *)
Definition distance_point_plane (p : p3 T) (pl : plane) : T :=
  o_abs o (pl_a pl * px p + pl_b pl * py p + pl_c pl * pz p + pl_d pl)
  / o_sqrt o (pl_a pl * pl_a pl + pl_b pl * pl_b pl + pl_c pl * pl_c pl).
(* distance_point_line, segmentation.rs:39-44 *)
Definition distance_point_line (p : p3 T) (l : line) : T :=
  v_norm (v_cross (v_sub (ln_second l) (ln_first l)) (v_sub (ln_first l) p)) / v_norm (v_sub (ln_second l) (ln_first l)).

(* the plane of generate_rng_plane from its three positions, segmentation.rs:64-75 *)
Definition plane_of (a b c : p3 T) : plane :=
  let normal := v_cross (v_sub b a) (v_sub c a) in
  mk_plane (px normal) (py normal) (pz normal) (o_neg o (v_dot normal a)).
End Formulas.

(* a model with its ranking and the indices of its inliers *)
Record hypothesis (M : Type) := mk_hyp { h_model : M; h_ranking : nat; h_inliers : list nat }.

(* the loop "while unwanted(r) { r = rng.gen_range(..) }" after a first draw, segmentation.rs:51-54, 55-59, 83-87 *)
Fixpoint draw_until (unwanted : nat -> bool) (draws : list nat) : option (nat * list nat) :=
  match draws with
  | [] => None
  | r :: rest => if unwanted r then draw_until unwanted rest else Some (r, rest)
  end.
(* the three indices of generate_rng_plane, segmentation.rs:50-59 *)
Definition draw3 (draws : list nat) : option (nat * nat * nat * list nat) :=
  match draws with
  | [] => None
  | rand1 :: rest =>
      match draw_until (fun r => Nat.eqb rand1 r) rest with
      | None => None
      | Some (rand2, rest) =>
          match draw_until (fun r => Nat.eqb rand2 r || Nat.eqb rand1 r) rest with
          | None => None
          | Some (rand3, rest) => Some (rand1, rand2, rand3, rest)
          end
      end
  end.
(* the two indices of generate_rng_line, segmentation.rs:82-87 *)
Definition draw2 (draws : list nat) : option (nat * nat * list nat) :=
  match draws with
  | [] => None
  | rand1 :: rest =>
      match draw_until (fun r => Nat.eqb rand1 r) rest with
      | None => None
      | Some (rand2, rest) => Some (rand1, rand2, rest)
      end
  end.

(* buffer.view_attribute(&POSITION_3D).at(i) as a Vector3<f64> *)
Definition position_at (b : buffer) (i : nat) : res (p3 spec_float) :=
  let* v := attribute_view_at b POSITION_3D Vec3f64 i in Ok (vec3_f64 v).
(* generate_rng_plane, segmentation.rs:60-76, after the draws *)
Definition generate_rng_plane (b : buffer) (r1 r2 r3 : nat) : res (plane spec_float) :=
  let* p_a := position_at b r1 in
  let* p_b := position_at b r2 in
  let* p_c := position_at b r3 in
  Ok (plane_of f64_ops p_a p_b p_c).
(* generate_rng_line, segmentation.rs:88-94, after the draws *)
Definition generate_rng_line (b : buffer) (r1 r2 : nat) : res (line spec_float) :=
  let* f := position_at b r1 in
  let* s := position_at b r2 in
  Ok (mk_line f s).

(* the loop over the points in generate_line_model and generate_plane_model, segmentation.rs:101-112, 125-136 *)
Definition count_inliers (M : Type) (b : buffer) (dist : p3 spec_float -> M -> spec_float) (thr : spec_float) (m : M) : res (hypothesis M) :=
  let* _ := attribute_view (bf_layout b) POSITION_3D Vec3f64 in
  foldM (fun h i =>
           let* p := position_at b i in
           if SFltb (dist p (h_model h)) thr then Ok (mk_hyp (h_model h) (h_ranking h + 1) (h_inliers h ++ [i])) else Ok h)
        (range 0 (bf_len b)) (mk_hyp m 0 []).

(* generate_plane_model, segmentation.rs:117-138; also the draws that are left *)
Definition generate_plane_model (b : buffer) (thr : spec_float) (draws : list nat) : option (res (hypothesis (plane spec_float)) * list nat) :=
  match draw3 draws with
  | None => None
  | Some (r1, r2, r3, rest) =>
      Some (let* pl := generate_rng_plane b r1 r2 r3 in count_inliers b (distance_point_plane f64_ops) thr pl, rest)
  end.
(* generate_line_model, segmentation.rs:96-115 *)
Definition generate_line_model (b : buffer) (thr : spec_float) (draws : list nat) : option (res (hypothesis (line spec_float)) * list nat) :=
  match draw2 draws with
  | None => None
  | Some (r1, r2, rest) =>
      Some (let* l := generate_rng_line b r1 r2 in count_inliers b (distance_point_line f64_ops) thr l, rest)
  end.

Section Search.
Variable M : Type.
Variable generate : list nat -> option (res (hypothesis M) * list nat).

(* the function that Iterator::max_by and ParallelIterator::max_by reduce with, comparing the rankings, segmentation.rs:195, 251, 309, 368 *)
Definition better (x y : hypothesis M) : hypothesis M :=
  match Nat.compare (h_ranking x) (h_ranking y) with Gt => x | _ => y end.

(* (0..n).map(..).max_by(..), segmentation.rs:246-251, 362-368: the best hypothesis so far is best *)
Fixpoint serial_max (n : nat) (draws : list nat) (best : option (hypothesis M)) : option (res (option (hypothesis M))) :=
  match n with
  | 0 => Some (Ok best)
  | S n' =>
      match generate draws with
      | None => None
      | Some (Ok h, rest) => serial_max n' rest (Some (match best with None => h | Some x => better x h end))
      | Some (Err, _) => Some Err
      | Some (Panic, _) => Some Panic
      end
  end.
(* ransac_plane_serial, segmentation.rs:239-253, and ransac_line_serial, 353-370; least is 3 or 2 *)
Definition ransac_serial (least : nat) (b : buffer) (n : nat) (draws : list nat) : option (res (hypothesis M)) :=
  if Nat.ltb (bf_len b) least then Some Panic
  else match serial_max n draws None with
       | None => None
       | Some r => Some (let* best := r in unwrap best)
       end.

(* How rayon splits the range of the iterations and combines the results: a binary tree whose leaves, from left to right, are the
   iterations 0..n. Each leaf carries the draws of its iteration: the threads have generators of their own, so there is no order
   between the draws of two iterations. reduce_with gives None only without any iteration. *)
Inductive schedule := Iter (draws : list nat) | Join (l r : schedule).
Fixpoint tree_max (s : schedule) : option (res (hypothesis M)) :=
  match s with
  | Iter draws => match generate draws with None => None | Some (r, _) => Some r end
  | Join l r =>
      match tree_max l, tree_max r with
      | Some a, Some b => Some (let* x := a in let* y := b in Ok (better x y))
      | _, _ => None
      end
  end.
(* ransac_plane_par, segmentation.rs:180-197, and ransac_line_par, 295-311; None is a range without iterations *)
Definition ransac_par (least : nat) (b : buffer) (s : option schedule) : option (res (hypothesis M)) :=
  if Nat.ltb (bf_len b) least then Some Panic
  else match s with None => Some Panic | Some s => tree_max s end.
End Search.

Definition ransac_plane_serial (b : buffer) (thr : spec_float) (n : nat) (draws : list nat) : option (res (hypothesis (plane spec_float))) :=
  ransac_serial (generate_plane_model b thr) 3 b n draws.
Definition ransac_line_serial (b : buffer) (thr : spec_float) (n : nat) (draws : list nat) : option (res (hypothesis (line spec_float))) :=
  ransac_serial (generate_line_model b thr) 2 b n draws.
Definition ransac_plane_par (b : buffer) (thr : spec_float) (s : option schedule) : option (res (hypothesis (plane spec_float))) :=
  ransac_par (generate_plane_model b thr) 3 b s.
Definition ransac_line_par (b : buffer) (thr : spec_float) (s : option schedule) : option (res (hypothesis (line spec_float))) :=
  ransac_par (generate_line_model b thr) 2 b s.
