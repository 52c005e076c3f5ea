(* Specification vocabulary for derive(PointType): what the documentation (pasture-derive/src/lib.rs:385-421) and Rust say about a struct. *)
From Coq Require Import String List ZArith Bool Arith.
From Verif Require Import Base LayoutModel LayoutSpec DeriveModel.
Import ListNotations.
Local Open Scope string_scope.
Open Scope nat_scope.
Local Open Scope list_scope.

(* ---- types ---- *)
Definition plain (name : string) : ty := TPath false false [mk_segment name NoArguments].
Definition scalars : list (string * prim_type) :=
  [("u8", PtU8); ("i8", PtI8); ("u16", PtU16); ("i16", PtI16); ("u32", PtU32); ("i32", PtI32); ("u64", PtU64); ("i64", PtI64); ("f32", PtF32); ("f64", PtF64)].
Definition vectors : list (string * string * prim_type) :=
  [("Vector3", "u8", PtVec3u8); ("Vector3", "u16", PtVec3u16); ("Vector3", "i32", PtVec3i32); ("Vector3", "f32", PtVec3f32); ("Vector3", "f64", PtVec3f64);
   ("Vector4", "u8", PtVec4u8)].
Definition vector_segment (v x : string) : segment := mk_segment v (AngleBracketed [GType (plain x)]).
(* the type written without the path of its crate *)
Inductive short_type : ty -> prim_type -> Prop :=
| short_scalar x p : In (x, p) scalars -> short_type (plain x) p
| short_vector v x p : In (v, x, p) vectors -> short_type (TPath false false [vector_segment v x]) p.
(* the types of Rust that are Pasture primitive types: vectors are from the crate nalgebra *)
Inductive primitive : ty -> prim_type -> Prop :=
| primitive_short t p : short_type t p -> primitive t p
| primitive_path v x p leading : In (v, x, p) vectors -> primitive (TPath false leading [mk_segment "nalgebra" NoArguments; vector_segment v x]) p.

(* ---- names ---- *)
Definition builtins : list (string * attr_def) :=
  [("BUILTIN_POSITION_3D", POSITION_3D); ("BUILTIN_INTENSITY", INTENSITY); ("BUILTIN_RETURN_NUMBER", RETURN_NUMBER);
   ("BUILTIN_NUMBER_OF_RETURNS", NUMBER_OF_RETURNS); ("BUILTIN_CLASSIFICATION_FLAGS", CLASSIFICATION_FLAGS);
   ("BUILTIN_SCANNER_CHANNEL", SCANNER_CHANNEL); ("BUILTIN_SCAN_DIRECTION_FLAG", SCAN_DIRECTION_FLAG);
   ("BUILTIN_EDGE_OF_FLIGHT_LINE", EDGE_OF_FLIGHT_LINE); ("BUILTIN_CLASSIFICATION", CLASSIFICATION);
   ("BUILTIN_SCAN_ANGLE_RANK", SCAN_ANGLE_RANK); ("BUILTIN_SCAN_ANGLE", SCAN_ANGLE); ("BUILTIN_USER_DATA", USER_DATA);
   ("BUILTIN_POINT_SOURCE_ID", POINT_SOURCE_ID); ("BUILTIN_COLOR_RGB", COLOR_RGB); ("BUILTIN_GPS_TIME", GPS_TIME); ("BUILTIN_NIR", NIR);
   ("BUILTIN_WAVE_PACKET_DESCRIPTOR_INDEX", WAVE_PACKET_DESCRIPTOR_INDEX); ("BUILTIN_WAVEFORM_DATA_OFFSET", WAVEFORM_DATA_OFFSET);
   ("BUILTIN_WAVEFORM_PACKET_SIZE", WAVEFORM_PACKET_SIZE); ("BUILTIN_RETURN_POINT_WAVEFORM_LOCATION", RETURN_POINT_WAVEFORM_LOCATION);
   ("BUILTIN_WAVEFORM_PARAMETERS", WAVEFORM_PARAMETERS); ("BUILTIN_POINT_ID", POINT_ID); ("BUILTIN_NORMAL", NORMAL)].
(* #[pasture(X)] *)
Definition pasture_attribute (x : meta) : attribute := mk_attribute ["pasture"] (Ok (MList ["pasture"] [NMeta x])).
(* the attribute of a field, and the name of the point attribute it stands for *)
Inductive names : attribute -> string -> Prop :=
| names_builtin x d : In (x, d) builtins -> names (pasture_attribute (MPath [x])) (ad_name d)
| names_custom s : names (pasture_attribute (MNameValue ["attribute"] (LStr s))) s.

(* ---- repr ---- *)
Definition named (n : string) (a : attribute) : Prop := a_path a = [n].
(* one argument of #[repr(..)] as Rust reads it *)
Inductive repr_argument : nested -> repr_arg -> Prop :=
| ra_c : repr_argument (NMeta (MPath ["C"])) ReprC
| ra_packed : repr_argument (NMeta (MPath ["packed"])) (ReprPacked 1)
| ra_packed_n n : (0 < n < 2 ^ 64)%Z -> repr_argument (NMeta (MList ["packed"] [NLit (LInt n)])) (ReprPacked (Z.to_nat n))
| ra_align n : (0 < n < 2 ^ 64)%Z -> repr_argument (NMeta (MList ["align"] [NLit (LInt n)])) (ReprAlign (Z.to_nat n))
| ra_transparent : repr_argument (NMeta (MPath ["transparent"])) ReprTransparent.
(* `packed` or `packed(..)`, and the arguments of an attribute *)
Inductive packed_argument : nested -> Prop :=
| packed_alone : packed_argument (NMeta (MPath ["packed"]))
| packed_list args : packed_argument (NMeta (MList ["packed"] args)).
Definition lists (a : attribute) (args : list nested) : Prop := exists p, a_meta a = Ok (MList p args).
(* all arguments of all repr attributes of a struct: Rust takes them together *)
Inductive repr_arguments : list attribute -> list repr_arg -> Prop :=
| ras_nil : repr_arguments [] []
| ras_other a attrs args : ~ named "repr" a -> repr_arguments attrs args -> repr_arguments (a :: attrs) args
| ras_repr inner attrs here args : Forall2 repr_argument inner here -> repr_arguments attrs args ->
    repr_arguments (mk_attribute ["repr"] (Ok (MList ["repr"] inner)) :: attrs) (here ++ args).

(* The fields of a struct as the documentation wants them, with the names of their point attributes and their types. *)
Definition documented_field (f : field) (d : field_desc) : Prop :=
  primitive (f_type f) (fd_type d) /\ exists a, In a (f_attrs f) /\ names a (fd_name d) /\ forall b, In b (f_attrs f) -> named "pasture" b -> b = a.
(* as above, with nothing but the attribute #[pasture(..)] on the field, and with short names of types *)
Definition bare_field (f : field) (d : field_desc) : Prop :=
  short_type (f_type f) (fd_type d) /\ exists a, f_attrs f = [a] /\ names a (fd_name d).
(* only one repr attribute *)
Definition one_repr (attrs : list attribute) : Prop :=
  exists before r after, attrs = before ++ r :: after /\ named "repr" r /\ (forall a, In a before \/ In a after -> ~ named "repr" a).

(* A type written as one name with at most one argument: the form of all primitive types without a path. *)
Inductive regular : ty -> Prop :=
| regular_other : regular TOther
| regular_plain x q : regular (TPath q false [mk_segment x NoArguments])
| regular_fn x q : regular (TPath q false [mk_segment x Parenthesized])
| regular_generic x g q : (match g with GType (TPath true _ _) => False | _ => True end) -> regular (TPath q false [mk_segment x (AngleBracketed [g])]).
