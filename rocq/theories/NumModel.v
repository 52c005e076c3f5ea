(* Numbers in memory and the `as` operator of Rust, as used by the attribute converters
   (pasture-core/src/layout/conversion/attribute_conversion.rs:301-345 via num_traits::AsPrimitive). *)
From Coq Require Import String List ZArith Bool SpecFloat.
From Verif Require Import Base.
Import ListNotations.
Set Implicit Arguments.
Open Scope Z_scope.

(* Little endian integers (x86-64, the only platform modelled). *)
Fixpoint le_dec (bs : list Z) : Z :=
  match bs with [] => 0 | b :: bs' => b + 256 * le_dec bs' end.
Fixpoint le_enc (n : nat) (v : Z) : list Z :=
  match n with O => [] | S n' => v mod 256 :: le_enc n' (v / 256) end.

(* The primitive types a converter is instantiated with, attribute_conversion.rs:194-264 *)
Inductive prim : Type := PU8 | PU16 | PU32 | PU64 | PI8 | PI16 | PI32 | PI64 | PF32 | PF64.

(* std::mem::size_of *)
Definition prim_size (p : prim) : nat :=
  match p with
  | PU8 | PI8 => 1 | PU16 | PI16 => 2 | PU32 | PI32 | PF32 => 4 | PU64 | PI64 | PF64 => 8
  end.

(* Integers are signed or not; floats have a precision and a largest exponent (IEEE 754 binary32 / binary64). *)
Inductive prim_kind : Type := KInt (signed : bool) | KFloat (prec emax : Z).
Definition kind (p : prim) : prim_kind :=
  match p with
  | PU8 | PU16 | PU32 | PU64 => KInt false
  | PI8 | PI16 | PI32 | PI64 => KInt true
  | PF32 => KFloat 24 128
  | PF64 => KFloat 53 1024
  end.
Definition bits (p : prim) : Z := 8 * Z.of_nat (prim_size p).

(* A value of a primitive type. Simplification: a NaN has no payload and no sign. *)
Inductive num : Type := NInt (v : Z) | NFlt (f : spec_float).

(* two's complement *)
Definition wrap (signed : bool) (w v : Z) : Z :=
  let u := v mod 2 ^ w in if signed && (2 ^ (w - 1) <=? u) then u - 2 ^ w else u.

(* f32::from_bits / f64::from_bits, for mw = prec - 1 explicit mantissa bits and w bits in total *)
Definition float_of_bits (prec emax w : Z) (u : Z) : spec_float :=
  let mw := prec - 1 in
  let ew := w - prec in
  let s := (2 ^ (w - 1) <=? u) in
  let ex := (u / 2 ^ mw) mod 2 ^ ew in
  let m := u mod 2 ^ mw in
  if ex =? 0 then
    match m with Zpos p => S754_finite s p (emin prec emax) | _ => S754_zero s end
  else if ex =? 2 ^ ew - 1 then
    (if m =? 0 then S754_infinity s else S754_nan)
  else match m + 2 ^ mw with
       | Zpos p => S754_finite s p (ex + emin prec emax - 1)
       | _ => S754_nan
       end.
(* f32::to_bits / f64::to_bits; a NaN is the quiet NaN *)
Definition bits_of_float (prec emax w : Z) (f : spec_float) : Z :=
  let mw := prec - 1 in
  let ew := w - prec in
  let sgn (s : bool) := if s then 2 ^ (w - 1) else 0 in
  match f with
  | S754_zero s => sgn s
  | S754_infinity s => sgn s + (2 ^ ew - 1) * 2 ^ mw
  | S754_nan => (2 ^ ew - 1) * 2 ^ mw + 2 ^ (mw - 1)
  | S754_finite s m e =>
      if Zpos m <? 2 ^ mw then sgn s + Zpos m
      else sgn s + (e - emin prec emax + 1) * 2 ^ mw + (Zpos m - 2 ^ mw)
  end.

(* ptr::read_unaligned *)
Definition dec_num (p : prim) (bs : list Z) : num :=
  match kind p with
  | KInt s => NInt (wrap s (bits p) (le_dec bs))
  | KFloat prec emax => NFlt (float_of_bits prec emax (bits p) (le_dec bs))
  end.
(* ptr::write_unaligned *)
Definition enc_num (p : prim) (n : num) : list Z :=
  match kind p, n with
  | KInt _, NInt v => le_enc (prim_size p) (v mod 2 ^ bits p)
  | KFloat prec emax, NFlt f => le_enc (prim_size p) (bits_of_float prec emax (bits p) f)
  | _, _ => []
  end.

(* the integer part of a finite float *)
Definition trunc_float (s : bool) (m : positive) (e : Z) : Z :=
  let a := if 0 <=? e then Zpos m * 2 ^ e else Zpos m / 2 ^ (- e) in if s then - a else a.

(* smallest and largest value of an integer type *)
Definition int_min (s : bool) (w : Z) : Z := if s then - 2 ^ (w - 1) else 0.
Definition int_max (s : bool) (w : Z) : Z := if s then 2 ^ (w - 1) - 1 else 2 ^ w - 1.

(* `value as To` (the Rust reference, "Numeric cast"): between integers two's complement truncation or extension; integer
   to float and float to float round to nearest even; float to integer rounds toward zero, saturates, NaN is 0. *)
Definition as_cast (to : prim) (n : num) : num :=
  match kind to, n with
  | KInt s, NInt v => NInt (wrap s (bits to) v)
  | KInt s, NFlt f =>
      NInt (match f with
            | S754_nan | S754_zero _ => 0
            | S754_infinity true => int_min s (bits to)
            | S754_infinity false => int_max s (bits to)
            | S754_finite sg m e => Z.max (int_min s (bits to)) (Z.min (int_max s (bits to)) (trunc_float sg m e))
            end)
  | KFloat prec emax, NInt v => NFlt (binary_normalize prec emax v 0 false)
  | KFloat prec emax, NFlt f =>
      NFlt (match f with S754_finite s m e => binary_round prec emax s m e | _ => f end)
  end.

(* convert_scalar_using_as, attribute_conversion.rs:310-322. The target memory has room for a value of type To
   (contract of the unsafe function), the result is its new content. *)
Definition convert_scalar_using_as (from to : prim) (bs : list Z) : list Z :=
  enc_num to (as_cast to (dec_num from bs)).

(* convert_vec3_using_as, attribute_conversion.rs:332-345 *)
Definition convert_vec3_using_as (from to : prim) (bs : list Z) : list Z :=
  let component k := sub bs (k * prim_size from) (prim_size from) in
  convert_scalar_using_as from to (component 0%nat)
  ++ convert_scalar_using_as from to (component 1%nat)
  ++ convert_scalar_using_as from to (component 2%nat).

(* convert_unit, attribute_conversion.rs:297-299 *)
Definition convert_unit (bs : list Z) : list Z := bs.
