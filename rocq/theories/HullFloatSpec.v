(* Specification vocabulary for the convex hull in f64 arithmetic. *)
From Coq Require Import List ZArith Reals SpecFloat.
From Flocq Require Import Core.
From Verif Require Import MathModel VoxSpec LasGridSpec.
Open Scope R_scope.

(* coordinates that are whole multiples k * 2^e, |k| <= 2^15 *)
Definition grid_coordinate (e : Z) (x : spec_float) : Prop := real_f64 x /\ exists k, number x = IZR k * bpow radix2 e /\ (Z.abs k <= 2 ^ 15)%Z.
Definition grid_point (e : Z) (p : p3 spec_float) : Prop := grid_coordinate e (px p) /\ grid_coordinate e (py p) /\ grid_coordinate e (pz p).
(* The angle at a between b and c: |ab x ac|^2 >= 2^-46 |ab|^2 |ac|^2, its sine is at least 2^-23. *)
Definition dot3 (u v : p3 R) : R := px u * px v + py u * py v + pz u * pz v.
Definition minus3 (u v : p3 R) : p3 R := mk_p3 (px u - px v) (py u - py v) (pz u - pz v).
Definition cross3 (u v : p3 R) : p3 R := mk_p3 (py u * pz v - pz u * py v) (pz u * px v - px u * pz v) (px u * py v - py u * px v).
Definition wide_angle (a b c : p3 R) : Prop :=
  let ab := minus3 b a in let ac := minus3 c a in
  bpow radix2 (-46) * (dot3 ab ab * dot3 ac ac) <= dot3 (cross3 ab ac) (cross3 ab ac).
