(* What numbers stored in memory mean and when a type contains another. *)
From Coq Require Import List ZArith Bool SpecFloat.
From Verif Require Import Base NumModel.
Import ListNotations.
Open Scope Z_scope.

Definition is_bytes (bs : list Z) : Prop := Forall (fun b => 0 <= b < 256) bs.
(* bs is the memory of one value of type p *)
Definition memory_of (p : prim) (bs : list Z) : Prop := is_bytes bs /\ length bs = prim_size p.

Definition is_int (p : prim) : Prop := exists s, kind p = KInt s.

(* The integer stored in bs: b0 + 256 b1 + 256^2 b2 + .., minus 2^w if the type is signed and the top bit is set. *)
Definition unsigned_value (bs : list Z) : Z := fold_right (fun b acc => b + 256 * acc) 0 bs.
Definition int_value (p : prim) (bs : list Z) : Z :=
  match kind p with
  | KInt true => if unsigned_value bs <? 2 ^ (bits p - 1) then unsigned_value bs else unsigned_value bs - 2 ^ bits p
  | _ => unsigned_value bs
  end.

(* The exponent field of a float is all ones and the mantissa field is not zero. *)
Definition is_nan (p : prim) (bs : list Z) : Prop :=
  match kind p with
  | KFloat prec _ =>
      (unsigned_value bs / 2 ^ (prec - 1)) mod 2 ^ (bits p - prec) = 2 ^ (bits p - prec) - 1
      /\ unsigned_value bs mod 2 ^ (prec - 1) <> 0
  | KInt _ => False
  end.

(* Every value of type a is also a value of type b (for floats: exactly representable). *)
Definition contained_in (a b : prim) : Prop :=
  match kind a, kind b with
  | KInt s, KInt s' => int_min s' (bits b) <= int_min s (bits a) /\ int_max s (bits a) <= int_max s' (bits b)
  | KInt s, KFloat prec _ => - 2 ^ prec <= int_min s (bits a) /\ int_max s (bits a) <= 2 ^ prec
  | KFloat prec emax, KFloat prec' emax' => prec <= prec' /\ emax <= emax'
  | KFloat _ _, KInt _ => False
  end.

(* The number x = m * 2^e (m integer) lies in the half open interval between v and the next integer away from zero,
   that is, v is x rounded toward zero. Both sides are scaled by 2^-e if e is negative. *)
Definition rounds_toward_zero_to (m e v : Z) : Prop :=
  let up := 2 ^ Z.max e 0 in let down := 2 ^ Z.max (- e) 0 in
  (0 <= m -> v * down <= m * up < (v + 1) * down) /\ (m <= 0 -> (v - 1) * down < m * up <= v * down).

(* IEEE 754: sign bit, exponent field and mantissa field of a float of precision prec *)
Definition sign_bit (p : prim) (bs : list Z) : bool := 2 ^ (bits p - 1) <=? unsigned_value bs.
Definition exponent_field (p : prim) (prec : Z) (bs : list Z) : Z := (unsigned_value bs / 2 ^ (prec - 1)) mod 2 ^ (bits p - prec).
Definition mantissa_field (prec : Z) (bs : list Z) : Z := unsigned_value bs mod 2 ^ (prec - 1).
Definition is_infinite (p : prim) (prec : Z) (bs : list Z) : Prop :=
  exponent_field p prec bs = 2 ^ (bits p - prec) - 1 /\ mantissa_field prec bs = 0.
(* The memory holds the finite number m * 2^e: (-1)^sign * 1.mantissa * 2^(exponent - bias), or
   (-1)^sign * 0.mantissa * 2^(1 - bias) if the exponent field is zero; the bias is emax - 1. *)
Definition finite_float (p : prim) (prec emax : Z) (bs : list Z) (m e : Z) : Prop :=
  exponent_field p prec bs <> 2 ^ (bits p - prec) - 1
  /\ m = (if sign_bit p bs then -1 else 1)
         * (mantissa_field prec bs + if exponent_field p prec bs =? 0 then 0 else 2 ^ (prec - 1))
  /\ e = Z.max 1 (exponent_field p prec bs) - (emax - 1) - (prec - 1).
(* v clamped to the values of an integer type *)
Definition clamped (s : bool) (w v r : Z) : Prop :=
  int_min s w <= r <= int_max s w
  /\ (int_min s w <= v <= int_max s w -> r = v)
  /\ (v < int_min s w -> r = int_min s w) /\ (int_max s w < v -> r = int_max s w).
