(* Bounding boxes, minima and maxima, bit helpers
   (pasture-core/src/math/{bounds,minmax,bitmanip}.rs; arithmetic.rs is in LayoutModel; pasture-algorithms/src/{minmax,bounds}.rs). Definitions only. *)
From Coq Require Import String List ZArith Bool Arith SpecFloat.
From Verif Require Import Base LayoutModel BufferModel TraitModel NumModel ConvModel.
Import ListNotations.
Set Implicit Arguments.
Open Scope Z_scope.

(* ------------------------------------------------------------------ boxes *)

(* Point3 / Vector3 *)
Record p3 (T : Type) : Type := mk_p3 { px : T; py : T; pz : T }.
(* AABB, bounds.rs:9-12 *)
Record aabb (T : Type) : Type := mk_aabb { b_min : p3 T; b_max : p3 T }.

Section Boxes.
Variable T : Type.
(* PartialOrd::partial_cmp of the coordinate type *)
Variable pcmp : T -> T -> option comparison.

(* the operators < <= > >= *)
Definition lt (x y : T) : bool := match pcmp x y with Some Lt => true | _ => false end.
Definition le (x y : T) : bool := match pcmp x y with Some Lt | Some Eq => true | _ => false end.
Definition gt (x y : T) : bool := match pcmp x y with Some Gt => true | _ => false end.
Definition ge (x y : T) : bool := match pcmp x y with Some Gt | Some Eq => true | _ => false end.

(* AABB::from_min_max, bounds.rs:21-26 *)
Definition from_min_max (mn mx : p3 T) : res (aabb T) :=
  if gt (px mn) (px mx) || gt (py mn) (py mx) || gt (pz mn) (pz mx) then Panic else Ok (mk_aabb mn mx).

(* AABB::intersects, bounds.rs:77-81 *)
Definition intersects (a b : aabb T) : bool :=
  (le (px (b_min a)) (px (b_max b)) && ge (px (b_max a)) (px (b_min b)))
  && (le (py (b_min a)) (py (b_max b)) && ge (py (b_max a)) (py (b_min b)))
  && (le (pz (b_min a)) (pz (b_max b)) && ge (pz (b_max a)) (pz (b_min b))).

(* AABB::contains, bounds.rs:90-97 *)
Definition contains (b : aabb T) (p : p3 T) : bool :=
  ge (px p) (px (b_min b)) && le (px p) (px (b_max b))
  && ge (py p) (py (b_min b)) && le (py p) (py (b_max b))
  && ge (pz p) (pz (b_min b)) && le (pz p) (pz (b_max b)).

(* AABB::union, bounds.rs:109-122 *)
Definition union (a b : aabb T) : aabb T :=
  let min_x := if lt (px (b_min a)) (px (b_min b)) then px (b_min a) else px (b_min b) in
  let min_y := if lt (py (b_min a)) (py (b_min b)) then py (b_min a) else py (b_min b) in
  let min_z := if lt (pz (b_min a)) (pz (b_min b)) then pz (b_min a) else pz (b_min b) in
  let max_x := if gt (px (b_max a)) (px (b_max b)) then px (b_max a) else px (b_max b) in
  let max_y := if gt (py (b_max a)) (py (b_max b)) then py (b_max a) else py (b_max b) in
  let max_z := if gt (pz (b_max a)) (pz (b_max b)) then pz (b_max a) else pz (b_max b) in
  mk_aabb (mk_p3 min_x min_y min_z) (mk_p3 max_x max_y max_z).

(* AABB::extend_with_point, bounds.rs:132-169 *)
Definition extend_with_point (b : aabb T) (p : p3 T) : aabb T :=
  let min_x := if lt (px (b_min b)) (px p) then px (b_min b) else px p in
  let min_y := if lt (py (b_min b)) (py p) then py (b_min b) else py p in
  let min_z := if lt (pz (b_min b)) (pz p) then pz (b_min b) else pz p in
  let max_x := if gt (px (b_max b)) (px p) then px (b_max b) else px p in
  let max_y := if gt (py (b_max b)) (py p) then py (b_max b) else py p in
  let max_z := if gt (pz (b_max b)) (pz p) then pz (b_max b) else pz p in
  mk_aabb (mk_p3 min_x min_y min_z) (mk_p3 max_x max_y max_z).

(* FromIterator for AABB<f64>, bounds.rs:269-285; tmax and tmin are f64::MAX and f64::MIN *)
Definition from_iter (tmax tmin : T) (points : list (p3 T)) : res (aabb T) :=
  let start := (mk_p3 tmax tmax tmax, mk_p3 tmin tmin tmin) in
  let '(mn, mx) :=
    fold_left (fun (acc : p3 T * p3 T) p =>
      let (mn, mx) := acc in
      (mk_p3 (if lt (px mn) (px p) then px mn else px p)
             (if lt (py mn) (py p) then py mn else py p)
             (if lt (pz mn) (pz p) then pz mn else pz p),
       mk_p3 (if gt (px mx) (px p) then px mx else px p)
             (if gt (py mx) (py p) then py mx else py p)
             (if gt (pz mx) (pz p) then pz mx else pz p))) points start in
  from_min_max mn mx.

(* the loop of calculate_bounds_from_default_positions and calculate_bounds_from_custom_positions,
   pasture-algorithms/src/bounds.rs:32-54, 60-85 *)
Definition bounds_of (tmax tmin : T) (points : list (p3 T)) : res (aabb T) :=
  let start := (mk_p3 tmax tmax tmax, mk_p3 tmin tmin tmin) in
  let '(mn, mx) :=
    fold_left (fun (acc : p3 T * p3 T) p =>
      let (mn, mx) := acc in
      (mk_p3 (if lt (px p) (px mn) then px p else px mn)
             (if lt (py p) (py mn) then py p else py mn)
             (if lt (pz p) (pz mn) then pz p else pz mn),
       mk_p3 (if gt (px p) (px mx) then px p else px mx)
             (if gt (py p) (py mx) then py p else py mx)
             (if gt (pz p) (pz mx) then pz p else pz mx))) points start in
  from_min_max mn mx.

(* MinMax for f32 and f64, minmax.rs:52-88 *)
Definition infimum_f (x y : T) : T := if lt x y then x else y.
Definition supremum_f (x y : T) : T := if gt x y then x else y.

(* Operations that compute with coordinates: + - /2 and unary minus, and FloatOrd's total order for max *)
Variables (add sub_ : T -> T -> T) (half neg : T -> T) (float_ord_max : T -> T -> T).

(* AABB::extent, bounds.rs:64-66 *)
Definition extent (b : aabb T) : p3 T :=
  mk_p3 (sub_ (px (b_max b)) (px (b_min b))) (sub_ (py (b_max b)) (py (b_min b))) (sub_ (pz (b_max b)) (pz (b_min b))).
(* AABB::center, bounds.rs:179-185, 219-225 *)
Definition center (b : aabb T) : p3 T :=
  mk_p3 (half (add (px (b_min b)) (px (b_max b)))) (half (add (py (b_min b)) (py (b_max b)))) (half (add (pz (b_min b)) (pz (b_max b)))).
(* AABB::contains_approx, bounds.rs:228-242 *)
Definition contains_approx (b : aabb T) (p : p3 T) (eps : T) : bool :=
  negb (lt (sub_ (px p) (px (b_min b))) (neg eps) || gt (sub_ (px p) (px (b_max b))) eps
        || lt (sub_ (py p) (py (b_min b))) (neg eps) || gt (sub_ (py p) (py (b_max b))) eps
        || lt (sub_ (pz p) (pz (b_min b))) (neg eps) || gt (sub_ (pz p) (pz (b_max b))) eps).
(* AABB::as_cubic, bounds.rs:196-209, 253-266 *)
Definition as_cubic (b : aabb T) : aabb T :=
  let e := extent b in
  let max_axis := float_ord_max (px e) (float_ord_max (py e) (pz e)) in
  let h := half max_axis in
  let c := center b in
  mk_aabb (mk_p3 (sub_ (px c) h) (sub_ (py c) h) (sub_ (pz c) h)) (mk_p3 (add (px c) h) (add (py c) h) (add (pz c) h)).
End Boxes.

(* f64: comparison, constants and arithmetic *)
Definition f64_cmp : spec_float -> spec_float -> option comparison := SFcompare.
Definition F64_MAX : spec_float := S754_finite false (2 ^ 53 - 1)%positive 971.
Definition F64_MIN : spec_float := S754_finite true (2 ^ 53 - 1)%positive 971.
Definition f64_add := SFadd 53 1024.
Definition f64_sub := SFsub 53 1024.
Definition f64_mul := SFmul 53 1024.
Definition f64_div := SFdiv 53 1024.
Definition f64_two : spec_float := S754_finite false (2 ^ 52)%positive (-51).
Definition f64_half (x : spec_float) : spec_float := f64_div x f64_two.
(* std::cmp::max of FloatOrd, which orders like the numbers and NaN above everything; the second argument wins ties.
   Simplification: FloatOrd places -0.0 below 0.0; the model does not distinguish them here. *)
Definition f64_float_ord_max (x y : spec_float) : spec_float :=
  match x, y with
  | _, S754_nan => y
  | S754_nan, _ => x
  | _, _ => if gt f64_cmp x y then x else y
  end.
Definition f64_as_cubic : aabb spec_float -> aabb spec_float := as_cubic f64_add f64_sub f64_half f64_float_ord_max.

(* ------------------------------------------------------------------ attributes of buffers *)

(* partial_cmp of the primitive types; both values have the same type *)
Definition num_cmp (x y : num) : option comparison :=
  match x, y with NInt a, NInt b => Some (a ?= b) | NFlt f, NFlt g => SFcompare f g | _, _ => None end.

(* MinMax: integers use cmp::min / cmp::max, which return the first (min) or second (max) argument if equal, minmax.rs:36-50;
   floats see above *)
Definition infimum (x y : num) : num :=
  match x, y with NInt a, NInt b => NInt (Z.min a b) | _, _ => infimum_f num_cmp x y end.
Definition supremum (x y : num) : num :=
  match x, y with NInt a, NInt b => NInt (Z.max a b) | _, _ => supremum_f num_cmp x y end.

(* The values of a type T: MinMax, as the list of its components: a scalar or a Vector3 of a scalar *)
Definition minmax_type (t : datatype) : option (prim * nat) :=
  match t with
  | U8 => Some (PU8, 1%nat) | U16 => Some (PU16, 1%nat) | U32 => Some (PU32, 1%nat) | U64 => Some (PU64, 1%nat)
  | I8 => Some (PI8, 1%nat) | I16 => Some (PI16, 1%nat) | I32 => Some (PI32, 1%nat) | I64 => Some (PI64, 1%nat)
  | F32 => Some (PF32, 1%nat) | F64 => Some (PF64, 1%nat)
  | Vec3u8 => Some (PU8, 3%nat) | Vec3u16 => Some (PU16, 3%nat) | Vec3i32 => Some (PI32, 3%nat)
  | Vec3f32 => Some (PF32, 3%nat) | Vec3f64 => Some (PF64, 3%nat)
  | _ => None
  end.
Definition components (p : prim) (n : nat) (bs : list Z) : list num :=
  map (fun k => dec_num p (sub bs (k * prim_size p)%nat (prim_size p))) (seq 0 n).
(* MinMax for Vector3, minmax.rs:90-106, and for scalars *)
Definition infimums (x y : list num) : list num := map (fun p => infimum (fst p) (snd p)) (combine x y).
Definition supremums (x y : list num) : list num := map (fun p => supremum (fst p) (snd p)) (combine x y).

(* iterating over an attribute view *)
Definition view_values (b : buffer) (at_ : nat -> res (list Z)) : res (list (list Z)) := mapM at_ (seq 0 (bf_len b)).

(* minmax_attribute::<T> for the type T with datatype t, pasture-algorithms/src/minmax.rs:13-51. The converting branch calls
   view_attribute_with_conversion, whose Err is turned into None by ok()?. Constructing the view checks its types also if there is no
   point, so the view is made before iterating. *)
Definition minmax_attribute (b : buffer) (a : attr_def) (t : datatype) : res (option (list num * list num)) :=
  let* _ := assert (has_attribute_with_name (bf_layout b) (ad_name a)) in
  let* '(p, n) := unwrap (minmax_type t) in
  let step (acc : option (list num * list num)) (v : list num) :=
    match acc with
    | None => Some (v, v)
    | Some (lo, hi) => Some (infimums v lo, supremums v hi)
    end in
  if datatype_eqb t (ad_type a) then
    let* _ := attribute_view (bf_layout b) a t in
    let* vs := view_values b (attribute_view_at b a t) in
    Ok (fold_left step (map (components p n) vs) None)
  else
    match converting_view (bf_layout b) a t with
    | Panic => Panic
    | Err => Ok None
    | Ok _ =>
        let* vs := view_values b (converting_view_at b a t) in
        Ok (fold_left step (map (components p n) vs) None)
    end.

(* Vector3<f64> from its bytes *)
Definition vec3_f64 (bs : list Z) : p3 spec_float :=
  let c k := match dec_num PF64 (sub bs (k * 8)%nat 8%nat) with NFlt f => f | NInt _ => S754_nan end in
  mk_p3 (c 0%nat) (c 1%nat) (c 2%nat).

(* calculate_bounds, pasture-algorithms/src/bounds.rs:11-29 *)
Definition calculate_bounds (b : buffer) : res (option (aabb spec_float)) :=
  if Nat.eqb (bf_len b) 0 then Ok None
  else match get_attribute_by_name (bf_layout b) (ad_name POSITION_3D) with
       | None => Ok None
       | Some m =>
           if datatype_eqb (m_type m) (ad_type POSITION_3D) then
             let* _ := attribute_view (bf_layout b) POSITION_3D Vec3f64 in
             let* vs := view_values b (attribute_view_at b POSITION_3D Vec3f64) in
             let* r := bounds_of f64_cmp F64_MAX F64_MIN (map vec3_f64 vs) in Ok (Some r)
           else
             match (let* _ := converting_view (bf_layout b) POSITION_3D Vec3f64 in
                    let* vs := view_values b (converting_view_at b POSITION_3D Vec3f64) in
                    bounds_of f64_cmp F64_MAX F64_MIN (map vec3_f64 vs)) with
             | Ok r => Ok (Some r)
             | Err => Ok None
             | Panic => Panic
             end
       end.

(* ------------------------------------------------------------------ bits *)

(* u64 << n: bits shifted out are lost *)
Definition shl64 (v n : Z) : Z := Z.shiftl v n mod 2 ^ 64.
(* expand_bits_by_3, bitmanip.rs:2-10 *)
Definition expand_bits_by_3 (val : Z) : Z :=
  let val := Z.land val 0x1FFFFF in
  let val := Z.land (Z.lor val (shl64 val 32)) 0x00FF00000000FFFF in
  let val := Z.land (Z.lor val (shl64 val 16)) 0x00FF0000FF0000FF in
  let val := Z.land (Z.lor val (shl64 val 8)) 0xF00F00F00F00F00F in
  let val := Z.land (Z.lor val (shl64 val 4)) 0x30C30C30C30C30C3 in
  Z.land (Z.lor val (shl64 val 2)) 0x1249249249249249.

(* REVERSE_BITS_LOOKUP, bitmanip.rs:12-29 *)
Definition REVERSE_BITS_LOOKUP : list Z := [
    0x00; 0x80; 0x40; 0xC0; 0x20; 0xA0; 0x60; 0xE0; 0x10; 0x90; 0x50; 0xD0; 0x30; 0xB0; 0x70; 0xF0;
    0x08; 0x88; 0x48; 0xC8; 0x28; 0xA8; 0x68; 0xE8; 0x18; 0x98; 0x58; 0xD8; 0x38; 0xB8; 0x78; 0xF8;
    0x04; 0x84; 0x44; 0xC4; 0x24; 0xA4; 0x64; 0xE4; 0x14; 0x94; 0x54; 0xD4; 0x34; 0xB4; 0x74; 0xF4;
    0x0C; 0x8C; 0x4C; 0xCC; 0x2C; 0xAC; 0x6C; 0xEC; 0x1C; 0x9C; 0x5C; 0xDC; 0x3C; 0xBC; 0x7C; 0xFC;
    0x02; 0x82; 0x42; 0xC2; 0x22; 0xA2; 0x62; 0xE2; 0x12; 0x92; 0x52; 0xD2; 0x32; 0xB2; 0x72; 0xF2;
    0x0A; 0x8A; 0x4A; 0xCA; 0x2A; 0xAA; 0x6A; 0xEA; 0x1A; 0x9A; 0x5A; 0xDA; 0x3A; 0xBA; 0x7A; 0xFA;
    0x06; 0x86; 0x46; 0xC6; 0x26; 0xA6; 0x66; 0xE6; 0x16; 0x96; 0x56; 0xD6; 0x36; 0xB6; 0x76; 0xF6;
    0x0E; 0x8E; 0x4E; 0xCE; 0x2E; 0xAE; 0x6E; 0xEE; 0x1E; 0x9E; 0x5E; 0xDE; 0x3E; 0xBE; 0x7E; 0xFE;
    0x01; 0x81; 0x41; 0xC1; 0x21; 0xA1; 0x61; 0xE1; 0x11; 0x91; 0x51; 0xD1; 0x31; 0xB1; 0x71; 0xF1;
    0x09; 0x89; 0x49; 0xC9; 0x29; 0xA9; 0x69; 0xE9; 0x19; 0x99; 0x59; 0xD9; 0x39; 0xB9; 0x79; 0xF9;
    0x05; 0x85; 0x45; 0xC5; 0x25; 0xA5; 0x65; 0xE5; 0x15; 0x95; 0x55; 0xD5; 0x35; 0xB5; 0x75; 0xF5;
    0x0D; 0x8D; 0x4D; 0xCD; 0x2D; 0xAD; 0x6D; 0xED; 0x1D; 0x9D; 0x5D; 0xDD; 0x3D; 0xBD; 0x7D; 0xFD;
    0x03; 0x83; 0x43; 0xC3; 0x23; 0xA3; 0x63; 0xE3; 0x13; 0x93; 0x53; 0xD3; 0x33; 0xB3; 0x73; 0xF3;
    0x0B; 0x8B; 0x4B; 0xCB; 0x2B; 0xAB; 0x6B; 0xEB; 0x1B; 0x9B; 0x5B; 0xDB; 0x3B; 0xBB; 0x7B; 0xFB;
    0x07; 0x87; 0x47; 0xC7; 0x27; 0xA7; 0x67; 0xE7; 0x17; 0x97; 0x57; 0xD7; 0x37; 0xB7; 0x77; 0xF7;
    0x0F; 0x8F; 0x4F; 0xCF; 0x2F; 0xAF; 0x6F; 0xEF; 0x1F; 0x9F; 0x5F; 0xDF; 0x3F; 0xBF; 0x7F; 0xFF ].
(* indexing the table; an index out of range would panic, but val & 0xFF is in range (proved) *)
Definition reverse_byte (b : Z) : res Z := unwrap (nth_error REVERSE_BITS_LOOKUP (Z.to_nat b)).
(* reverse_bits, bitmanip.rs:32-41 *)
Definition reverse_bits (val : Z) : res Z :=
  let* r0 := reverse_byte (Z.land val 0xFF) in
  let* r1 := reverse_byte (Z.land (Z.shiftr val 8) 0xFF) in
  let* r2 := reverse_byte (Z.land (Z.shiftr val 16) 0xFF) in
  let* r3 := reverse_byte (Z.land (Z.shiftr val 24) 0xFF) in
  let* r4 := reverse_byte (Z.land (Z.shiftr val 32) 0xFF) in
  let* r5 := reverse_byte (Z.land (Z.shiftr val 40) 0xFF) in
  let* r6 := reverse_byte (Z.land (Z.shiftr val 48) 0xFF) in
  let* r7 := reverse_byte (Z.land (Z.shiftr val 56) 0xFF) in
  Ok (Z.lor (Z.lor (Z.lor (Z.lor (Z.lor (Z.lor (Z.lor (shl64 r0 56) (shl64 r1 48)) (shl64 r2 40)) (shl64 r3 32))
       (shl64 r4 24)) (shl64 r5 16)) (shl64 r6 8)) r7).
