(* Property theorems about numeric conversions: C25. *)
From Coq Require Import List ZArith Bool SpecFloat Lia.
From Verif Require Import Base NumModel NumSpec NumProofs NumProofs2 NumProofs3.
Import ListNotations.
Open Scope Z_scope.

(* ---- C25 ---- *)
(* Between integer types: the value modulo the width of the target. *)
Theorem C25_integer_conversion_is_modular :
  forall (from to : prim) (bs : list Z), is_int from -> is_int to -> memory_of from bs ->
  memory_of to (convert_scalar_using_as from to bs)
  /\ int_value to (convert_scalar_using_as from to bs) mod 2 ^ bits to = int_value from bs mod 2 ^ bits to.
Proof. exact int_conversion. Qed.
Print Assumptions C25_integer_conversion_is_modular.

Example C25_modular_nonvacuous :
  is_int PI16 /\ is_int PU8 /\ memory_of PI16 [253; 255] /\ int_value PI16 [253; 255] = -3
  /\ convert_scalar_using_as PI16 PU8 [253; 255] = [253].
Proof.
  split; [exists true; reflexivity|]. split; [exists false; reflexivity|].
  split; [split; [repeat constructor; lia|reflexivity]|]. split; vm_compute; reflexivity.
Qed.

(* To a type containing the source's values and back: the identity on the stored bytes. *)
Theorem C25_widening_is_lossless :
  forall (from to : prim) (bs : list Z), contained_in from to -> memory_of from bs -> ~ is_nan from bs ->
  convert_scalar_using_as to from (convert_scalar_using_as from to bs) = bs.
Proof. exact conversion_lossless. Qed.
Print Assumptions C25_widening_is_lossless.

(* 32 bit integers through f64; the smallest positive f32 through f64; u64 is not contained in f64 *)
Example C25_lossless_nonvacuous :
  contained_in PI32 PF64 /\ memory_of PI32 [0; 0; 0; 128] /\ ~ is_nan PI32 [0; 0; 0; 128]
  /\ convert_scalar_using_as PI32 PF64 [0; 0; 0; 128] = [0; 0; 0; 0; 0; 0; 224; 193]
  /\ contained_in PF32 PF64 /\ memory_of PF32 [1; 0; 0; 0] /\ ~ is_nan PF32 [1; 0; 0; 0]
  /\ convert_scalar_using_as PF32 PF64 [1; 0; 0; 0] = [0; 0; 0; 0; 0; 0; 160; 54]
  /\ ~ contained_in PU64 PF64.
Proof.
  split; [vm_compute; split; discriminate|]. split; [split; [repeat constructor; lia|reflexivity]|].
  split; [intros []|]. split; [vm_compute; reflexivity|]. split; [vm_compute; split; discriminate|].
  split; [split; [repeat constructor; lia|reflexivity]|]. split; [intros [E _]; vm_compute in E; discriminate E|].
  split; [vm_compute; reflexivity|]. intros [_ E]. vm_compute in E. apply E. reflexivity.
Qed.

(* Float to integer: rounded toward zero and clamped, 0 for NaN, the extreme values for the infinities. *)
Theorem C25_float_to_integer :
  forall (from to : prim) (prec emax : Z) (s : bool) (bs : list Z),
  kind from = KFloat prec emax -> kind to = KInt s -> memory_of from bs ->
  let r := convert_scalar_using_as from to bs in
  memory_of to r
  /\ (is_nan from bs -> int_value to r = 0)
  /\ (is_infinite from prec bs -> int_value to r = if sign_bit from bs then int_min s (bits to) else int_max s (bits to))
  /\ (forall m e, finite_float from prec emax bs m e ->
        exists v, rounds_toward_zero_to m e v /\ clamped s (bits to) v (int_value to r)).
Proof. exact float_to_int. Qed.
Print Assumptions C25_float_to_integer.

(* -2.75 = -11 * 2^-2, scaled by the mantissa width: converted to -2 *)
Example C25_float_nonvacuous :
  kind PF32 = KFloat 24 128 /\ memory_of PF32 [0; 0; 48; 192]
  /\ finite_float PF32 24 128 [0; 0; 48; 192] (- 11 * 2 ^ 20) (-22)
  /\ int_value PI8 (convert_scalar_using_as PF32 PI8 [0; 0; 48; 192]) = -2.
Proof.
  split; [reflexivity|]. split; [split; [repeat constructor; lia|reflexivity]|].
  split; [split; [vm_compute; discriminate|split; vm_compute; reflexivity]|vm_compute; reflexivity].
Qed.

(* Vectors: component by component. *)
Theorem C25_vectors_convert_componentwise :
  forall (from to : prim) (bs : list Z) (k : nat), (k < 3)%nat ->
  length (convert_vec3_using_as from to bs) = (3 * prim_size to)%nat
  /\ sub (convert_vec3_using_as from to bs) (k * prim_size to) (prim_size to)
     = convert_scalar_using_as from to (sub bs (k * prim_size from) (prim_size from)).
Proof. exact (fun from to bs k Hk => conj (vec3_length from to bs) (vec3_components from to bs k Hk)). Qed.
Print Assumptions C25_vectors_convert_componentwise.

Theorem C25_vector_widening_is_lossless :
  forall (from to : prim) (bs : list Z), contained_in from to ->
  length bs = (3 * prim_size from)%nat -> is_bytes bs ->
  (forall k, (k < 3)%nat -> ~ is_nan from (sub bs (k * prim_size from) (prim_size from))) ->
  convert_vec3_using_as to from (convert_vec3_using_as from to bs) = bs.
Proof. exact vec3_lossless. Qed.
Print Assumptions C25_vector_widening_is_lossless.

Example C25_vector_nonvacuous :
  contained_in PU16 PI32 /\ is_bytes [1; 2; 3; 4; 255; 255]
  /\ (forall k, (k < 3)%nat -> ~ is_nan PU16 (sub [1; 2; 3; 4; 255; 255] (k * 2) 2))
  /\ convert_vec3_using_as PU16 PI32 [1; 2; 3; 4; 255; 255] = [1; 2; 0; 0; 3; 4; 0; 0; 255; 255; 0; 0].
Proof.
  split; [vm_compute; split; discriminate|]. split; [repeat constructor; lia|].
  split; [intros k _ []|vm_compute; reflexivity].
Qed.
