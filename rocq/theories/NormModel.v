(* Model of the normal estimation (pasture-algorithms/src/normal_estimation.rs). Definitions only.
   The arithmetic is a parameter, as in SegModel; sine, cosine and atan2 are calls of the C library and parameters for f64 as well.
   The kd tree is the external crate kd_tree: the neighbours it finds are an input. *)
From Coq Require Import String Ascii List ZArith Lia Bool Arith SpecFloat.
From Verif Require Import Base LayoutModel BufferModel TraitModel NumModel ConvModel MathModel SegModel.
Import ListNotations.
Open Scope nat_scope.
Set Implicit Arguments.

(* further operations of f64: <=, ==, usize as f64, the larger of two, is_nan, is_finite, 0.5, EPSILON, atan2, cos, sin *)
Record nops (T : Type) := mk_nops { n_ops : ops T; n_le : T -> T -> bool; n_eq : T -> T -> bool; n_nat : nat -> T; n_max : T -> T -> T;
                                    n_is_nan : T -> bool; n_is_finite : T -> bool; n_half : T; n_eps : T;
                                    n_atan2 : T -> T -> T; n_cos : T -> T; n_sin : T -> T }.
(* the f64 operations. For NaN the larger of two may differ from nalgebra's. *)
Definition f64_nops (atan2 : spec_float -> spec_float -> spec_float) (cos sin : spec_float -> spec_float) : nops spec_float :=
  mk_nops f64_ops SFleb SFeqb (fun k => binary_normalize 53 1024 (Z.of_nat k) 0 false) (fun x y => if SFleb y x then x else y)
    (fun x => match x with S754_nan => true | _ => false end)
    (fun x => match x with S754_nan | S754_infinity _ => false | _ => true end)
    (S754_finite false (2 ^ 52)%positive (-53)) (S754_finite false (2 ^ 52)%positive (-104)) atan2 cos sin.

Section Normals.
Variable T : Type.
Variable e : nops T.
Let o := n_ops e.
Local Notation "x + y" := (o_add o x y).
Local Notation "x - y" := (o_sub o x y).
Local Notation "x * y" := (o_mul o x y).
Local Notation "x / y" := (o_div o x y).
Local Notation zero := (n_nat e 0).
Local Notation two := (n_nat e 2).
Local Notation three := (n_nat e 3).

(* is_dense, normal_estimation.rs:131-138 *)
Definition is_dense (ps : list (p3 T)) : bool :=
  forallb (fun p => negb (n_is_nan e (px p) || n_is_nan e (py p) || n_is_nan e (pz p))) ps.
(* is_finite, normal_estimation.rs:141-146 *)
Definition is_finite (p : p3 T) : bool := n_is_finite e (px p) && n_is_finite e (py p) && n_is_finite e (pz p).
(* the points that are used *)
Definition used (ps : list (p3 T)) : list (p3 T) := if is_dense ps then ps else filter is_finite ps.

(* compute_centroid, normal_estimation.rs:196-235 *)
Definition compute_centroid (ps : list (p3 T)) : res (p3 T) :=
  match ps with
  | [] => Panic
  | _ =>
      let s := fold_left (fun c p => mk_p3 (px c + px p) (py c + py p) (pz c + pz p)) (used ps) (mk_p3 zero zero zero) in
      let n := n_nat e (length (used ps)) in
      Ok (mk_p3 (px s / n) (py s / n) (pz s / n))
  end.

(* a matrix: its rows *)
Definition m3 : Type := p3 (p3 T).
(* one round of the loops in compute_covariance_matrix, normal_estimation.rs:250-266, 270-290; the six entries on and above the diagonal *)
Record upper := mk_upper { u_xx : T; u_xy : T; u_xz : T; u_yy : T; u_yz : T; u_zz : T }.
Definition cov_step (c : p3 T) (u : upper) (p : p3 T) : upper :=
  let dx := px p - px c in
  let dy := py p - py c in
  let dz := pz p - pz c in
  mk_upper (u_xx u + dx * dx) (u_xy u + dy * dx) (u_xz u + dz * dx) (u_yy u + dy * dy) (u_yz u + dy * dz) (u_zz u + dz * dz).
(* compute_covariance_matrix, normal_estimation.rs:238-303. The matrix is not divided by the number of points. *)
Definition compute_covariance_matrix (ps : list (p3 T)) : res m3 :=
  let* c := compute_centroid ps in
  let u := fold_left (cov_step c) (used ps) (mk_upper zero zero zero zero zero zero) in
  if Nat.ltb (length (used ps)) 3 then Err
  else Ok (mk_p3 (mk_p3 (u_xx u) (u_xy u) (u_xz u)) (mk_p3 (u_xy u) (u_yy u) (u_yz u)) (mk_p3 (u_xz u) (u_yz u) (u_zz u))).

(* solve_polynomial_quadratic, normal_estimation.rs:306-323 *)
Definition solve_polynomial_quadratic (c2 c1 : T) : p3 T :=
  let delta := c2 * c2 - n_nat e 4 * c1 in
  let delta := if o_lt o delta zero then zero else delta in
  let s := o_sqrt o delta in
  mk_p3 zero (n_half e * (c2 - s)) (n_half e * (c2 + s)).
(* sort_by with partial_cmp(..).unwrap(), normal_estimation.rs:378-380: a comparison with NaN panics *)
Definition sort3 (a b c : T) : res (p3 T) :=
  let* _ := assert (negb (n_is_nan e a || n_is_nan e b || n_is_nan e c)) in
  let '(a, b) := if o_lt o b a then (b, a) else (a, b) in
  let '(b, c) := if o_lt o c b then (c, b) else (b, c) in
  let '(a, b) := if o_lt o b a then (b, a) else (a, b) in
  Ok (mk_p3 a b c).
(* the coefficients of the characteristic polynomial, normal_estimation.rs:327-341 *)
Definition coefficient_0 (m : m3) : T :=
  px (px m) * py (py m) * pz (pz m) + two * py (px m) * pz (px m) * pz (py m) - px (px m) * pz (py m) * pz (py m)
  - py (py m) * pz (px m) * pz (px m) - pz (pz m) * py (px m) * py (px m).
Definition coefficient_1 (m : m3) : T :=
  px (px m) * py (py m) - py (px m) * py (px m) + px (px m) * pz (pz m) - pz (px m) * pz (px m) + py (py m) * pz (pz m) - pz (py m) * pz (py m).
Definition coefficient_2 (m : m3) : T := px (px m) + py (py m) + pz (pz m).
(* the three roots, normal_estimation.rs:347-375 *)
Definition cubic_roots (c0 c1 c2 : T) : p3 T :=
  let one_third := n_nat e 1 / three in
  let sqrt_3 := o_sqrt o three in
  let c2_third := c2 * one_third in
  let alpha_third := (c1 - c2 * c2_third) * one_third in
  let alpha_third := if o_lt o zero alpha_third then zero else alpha_third in
  let half_beta := n_half e * (c0 + c2_third * (two * c2_third * c2_third - c1)) in
  let q := half_beta * half_beta + alpha_third * alpha_third * alpha_third in
  let q := if o_lt o zero q then zero else q in
  let rho := o_sqrt o (o_neg o alpha_third) in
  let theta := n_atan2 e (o_sqrt o (o_neg o q)) half_beta * one_third in
  let c := n_cos e theta in
  let s := n_sin e theta in
  mk_p3 (c2_third + two * rho * c) (c2_third - rho * (c + sqrt_3 * s)) (c2_third - rho * (c - sqrt_3 * s)).
(* solve_polynomial, normal_estimation.rs:326-390 *)
Definition solve_polynomial (m : m3) : res (p3 T) :=
  let c0 := coefficient_0 m in
  let c1 := coefficient_1 m in
  let c2 := coefficient_2 m in
  if o_lt o (o_abs o c0) (n_eps e) then Ok (solve_polynomial_quadratic c2 c1)
  else
    let r := cubic_roots c0 c1 c2 in
    let* v := sort3 (px r) (py r) (pz r) in
    if n_le e (px v) zero then Ok (solve_polynomial_quadratic c2 c1) else Ok v.

(* get_largest_eigen_vector, normal_estimation.rs:393-424 *)
Definition larger (v w : p3 T) : p3 T := if o_lt o (v_norm o v) (v_norm o w) then w else v.
Definition get_largest_eigen_vector (m : m3) : p3 T :=
  let r0 := v_cross o (px m) (py m) in
  let r1 := v_cross o (px m) (pz m) in
  let r2 := v_cross o (py m) (pz m) in
  larger (larger (larger r0 r0) r1) r2.

(* abs().max() *)
Definition abs_max (m : m3) : T :=
  let a x := o_abs o x in
  fold_left (n_max e) [a (px (py m)); a (px (pz m)); a (py (px m)); a (py (py m)); a (py (pz m)); a (pz (px m)); a (pz (py m)); a (pz (pz m))] (a (px (px m))).
(* covariance_matrix_scaled, normal_estimation.rs:428-437. The subtraction of the eigenvalue from the diagonal, 443-447, changes a
   temporary: diagonal() returns a new vector. *)
Definition scaled_matrix (m : m3) : m3 :=
  let s := abs_max m in
  let row r := mk_p3 (px r / s) (py r / s) (pz r / s) in
  mk_p3 (row (px m)) (row (py m)) (row (pz m)).
(* eigen_3x3, normal_estimation.rs:427-451 *)
Definition eigen_3x3 (m : m3) : res (T * p3 T) :=
  let* v := solve_polynomial m in
  Ok (px v * abs_max m, get_largest_eigen_vector (scaled_matrix m)).
(* solve_plane_parameter, normal_estimation.rs:454-465 *)
Definition solve_plane_parameter (m : m3) : res (p3 T * T) :=
  let* '(value, vector) := eigen_3x3 m in
  let sum := px (px m) + py (py m) + pz (pz m) in
  Ok (vector, if n_eq e sum zero then zero else o_abs o (value / sum)).
(* normal_estimation, normal_estimation.rs:468-474 *)
Definition normal_estimation (ps : list (p3 T)) : res (p3 T * T) :=
  let* m := unwrap (match compute_covariance_matrix ps with Ok m => Some m | _ => None end) in
  solve_plane_parameter m.
(* compute_normals, normal_estimation.rs:77-128; nearest: the positions that KdTree::nearests returns. They are copied to the
   positions of a new buffer with the layout of the cloud. *)
Definition compute_normals (nearest : list (p3 T) -> p3 T -> nat -> list (p3 T)) (ps : list (p3 T)) (k : nat) : res (list (p3 T * T)) :=
  let* _ := assert (negb (Nat.ltb (length ps) 3)) in
  let* _ := assert (negb (Nat.ltb k 3)) in
  mapM (fun p => normal_estimation (nearest ps p k)) ps.
End Normals.
