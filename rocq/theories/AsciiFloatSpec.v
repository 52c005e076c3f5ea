(* What is read back from the floating point columns of a written ASCII file. *)
From Coq Require Import String Ascii List ZArith QArith Qabs Bool Arith SpecFloat.
From Verif Require Import Base LayoutModel LayoutSpec BufferModel BufferSpec TraitModel TraitSpec NumModel AsciiModel AsciiSpec.
Import ListNotations.
Open Scope nat_scope.

(* a delimiter that can not be taken for a part of a number, of NaN or of inf, or for the end of a line *)
Definition float_delimiter (d : text) : Prop :=
  (exists c, In c d /\ ~ In c (txt "-0123456789.NaNinf")) /\ ~ In 10%Z d /\ ~ In 13%Z d.

(* 1 / 10^prec *)
Definition unit_of (prec : nat) : Q := 1 # Z.to_pos (10 ^ Z.of_nat prec).
(* x is what some text with at most prec decimal places is read as: the number k / 10^prec, with k below 2^52 *)
Definition short_decimal (prec : nat) (x : spec_float) : Prop :=
  exists t q k, parse_f64 t = Some x /\ decimal_value t = Some q /\ (q == inject_Z k * unit_of prec)%Q /\ (Z.abs k < 2 ^ 52)%Z.

(* n' is what n is read back as if it is written with prec decimal places: integers, NaN and the infinities are the same, another number
   differs by at most a unit of the last place that was written, and not at all if it has at most prec decimal places *)
Definition read_back (prec : nat) (n n' : num) : Prop :=
  match n, n' with
  | NInt v, NInt v' => v' = v
  | NFlt S754_nan, NFlt y => y = S754_nan
  | NFlt (S754_infinity s), NFlt y => y = S754_infinity s
  | NFlt x, NFlt y => exists v w, float_Q x = Some v /\ float_Q y = Some w /\ (Qabs (w - v) <= unit_of prec)%Q
                                  /\ ((prec <= 300)%nat -> short_decimal prec x -> w == v)%Q
  | _, _ => False
  end.
(* the columns of p2 are what those of p1 are read back as, where both layouts have them *)
Definition columns_read_back (prec : nat) (format : text) (l1 : layout) (p1 : list Z) (l2 : layout) (p2 : list Z) : Prop :=
  forall c a o pr flag bs2, In c format -> meaning_of c = Some (Field a o pr flag) -> field_bytes l2 p2 a o pr = Some bs2 ->
    exists bs1, field_bytes l1 p1 a o pr = Some bs1 /\ read_back prec (dec_num pr bs1) (dec_num pr bs2).
