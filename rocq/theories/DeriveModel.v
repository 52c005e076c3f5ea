(* Model of the macro derive(PointType) on the syntax of a struct: pasture-derive/src/lib.rs and layout.rs. The syntax trees are those of the
   crate syn, as far as the macro looks at them. *)
From Coq Require Import String List ZArith Bool Arith.
From Verif Require Import Base LayoutModel.
Import ListNotations.
Set Implicit Arguments.
Local Open Scope string_scope.
Open Scope nat_scope.
Local Open Scope list_scope.

(* ------------------------------------------------------------------ syntax *)
(* syn::Lit: strings, integers, all others *)
Inductive lit : Type := LStr (s : string) | LInt (n : Z) | LOther.
(* syn::Meta and syn::NestedMeta. A path in an attribute is its list of identifiers; simplified: without a leading `::`. *)
Inductive meta : Type :=
| MPath (p : list string)
| MList (p : list string) (args : list nested)
| MNameValue (p : list string) (l : lit)
with nested : Type := NMeta (m : meta) | NLit (l : lit).
(* syn::Attribute: its path, and what parse_meta() makes of it (Err for tokens that are no Meta). A doc comment `/// text` is the attribute
   #[doc = "text"]. *)
Record attribute : Type := mk_attribute { a_path : list string; a_meta : res meta }.
(* syn::Path::get_ident for paths in attributes *)
Definition get_ident (p : list string) : option string := match p with [x] => Some x | _ => None end.

(* syn::Type: paths (qself: `<T as Trait>::..`; leading: `::..`), and all others, such as arrays, tuples and references *)
Inductive ty : Type :=
| TPath (qself leading : bool) (segments : list segment)
| TOther
with segment : Type := mk_segment (ident : string) (arguments : path_arguments)
with path_arguments : Type := NoArguments | AngleBracketed (args : list generic_argument) | Parenthesized
with generic_argument : Type := GType (t : ty) | GOther.
(* syn::Path::get_ident for paths of types *)
Definition type_ident (leading : bool) (segments : list segment) : option string :=
  match segments with
  | [mk_segment x NoArguments] => if leading then None else Some x
  | _ => None
  end.

(* syn::Field, syn::Data, syn::DeriveInput; the name of the struct and of its fields do not matter *)
Record field : Type := mk_struct_field { f_type : ty; f_attrs : list attribute }.
Inductive data : Type := Struct (fields : list field) | EnumOrUnion.
Record item : Type := mk_item { it_attrs : list attribute; it_generics : nat; it_data : data }.

(* ------------------------------------------------------------------ the repr attribute *)
(* is_repr_attribute, layout.rs:11-17 *)
Definition is_repr_attribute (a : attribute) : bool := match get_ident (a_path a) with Some x => String.eqb x "repr" | None => false end.
(* arg_is_c, layout.rs:19-26 *)
Definition arg_is_c (arg : nested) : bool :=
  match arg with
  | NMeta (MPath p) => match get_ident p with Some x => String.eqb x "C" | None => false end
  | _ => false
  end.
(* arg_is_packed, layout.rs:28-44 *)
Definition arg_is_packed (arg : nested) : bool :=
  match arg with
  | NMeta (MPath p) => match get_ident p with Some x => String.eqb x "packed" | None => false end
  | NMeta (MList p _) => match get_ident p with Some x => String.eqb x "packed" | None => false end
  | _ => false
  end.
(* get_packing_from_arg, layout.rs:46-94. An identifier (lines 57-73) is never a number: it does not start with a digit. *)
Definition get_packing_from_arg (arg : nested) : res nat :=
  match arg with
  | NMeta (MPath _) => Ok 1
  | NMeta (MList _ args) =>
      match args with
      | [] => Err
      | NMeta _ :: _ => Err
      | NLit (LInt n) :: _ => if (n <? 2 ^ 64)%Z then Ok (Z.to_nat n) else Err
      | NLit _ :: _ => Err
      end
  | _ => Err
  end.
(* get_struct_member_layout, layout.rs:96-144 *)
Definition struct_layout_of (attrs : list attribute) : res struct_member_layout :=
  match find is_repr_attribute attrs with
  | None => Err
  | Some repr =>
      let* m := a_meta repr in
      match m with
      | MList _ args =>
          match find arg_is_packed args with
          | Some arg => let* n := get_packing_from_arg arg in Ok (SmlPacked n)
          | None => if existsb arg_is_c args then Ok SmlC else Err
          end
      | _ => Err
      end
  end.

(* ------------------------------------------------------------------ types of fields *)
(* get_primitive_type_for_ident_type, lib.rs:112-131 *)
Definition primitive_of_ident (name : string) : res prim_type :=
  if String.eqb name "u8" then Ok PtU8
  else if String.eqb name "u16" then Ok PtU16
  else if String.eqb name "u32" then Ok PtU32
  else if String.eqb name "u64" then Ok PtU64
  else if String.eqb name "i8" then Ok PtI8
  else if String.eqb name "i16" then Ok PtI16
  else if String.eqb name "i32" then Ok PtI32
  else if String.eqb name "i64" then Ok PtI64
  else if String.eqb name "f32" then Ok PtF32
  else if String.eqb name "f64" then Ok PtF64
  else Err.
(* get_primitive_type_for_non_ident_type, lib.rs:133-194 *)
Definition primitive_of_path (segments : list segment) : res prim_type :=
  match segments with
  | [] => Err
  | mk_segment name arguments :: _ =>
      if negb (String.eqb name "Vector3" || String.eqb name "Vector4") then Err else
      match arguments with
      | AngleBracketed (GType (TPath _ leading inner) :: _) =>
          match type_ident leading inner with
          | None => Err
          | Some x =>
              if String.eqb name "Vector3" then
                if String.eqb x "u8" then Ok PtVec3u8
                else if String.eqb x "u16" then Ok PtVec3u16
                else if String.eqb x "f32" then Ok PtVec3f32
                else if String.eqb x "f64" then Ok PtVec3f64
                else if String.eqb x "i32" then Ok PtVec3i32
                else Err
              else if String.eqb x "u8" then Ok PtVec4u8 else Err
          end
      | _ => Err
      end
  end.
(* type_path_to_primitive_type, lib.rs:196-215 *)
Definition primitive_of_type (t : ty) : res prim_type :=
  match t with
  | TPath qself leading segments =>
      if qself then Err else
      match type_ident leading segments with
      | Some x => primitive_of_ident x
      | None => primitive_of_path segments
      end
  | TOther => Err
  end.

(* ------------------------------------------------------------------ names of attributes *)
(* the table in get_attribute_name_from_field, lib.rs:249-285 *)
Definition builtin_name (x : string) : res string :=
  if String.eqb x "BUILTIN_POSITION_3D" then Ok "Position3D"
  else if String.eqb x "BUILTIN_INTENSITY" then Ok "Intensity"
  else if String.eqb x "BUILTIN_RETURN_NUMBER" then Ok "ReturnNumber"
  else if String.eqb x "BUILTIN_NUMBER_OF_RETURNS" then Ok "NumberOfReturns"
  else if String.eqb x "BUILTIN_CLASSIFICATION_FLAGS" then Ok "ClassificationFlags"
  else if String.eqb x "BUILTIN_SCANNER_CHANNEL" then Ok "ScannerChannel"
  else if String.eqb x "BUILTIN_SCAN_DIRECTION_FLAG" then Ok "ScanDirectionFlag"
  else if String.eqb x "BUILTIN_EDGE_OF_FLIGHT_LINE" then Ok "EdgeOfFlightLine"
  else if String.eqb x "BUILTIN_CLASSIFICATION" then Ok "Classification"
  else if String.eqb x "BUILTIN_SCAN_ANGLE_RANK" then Ok "ScanAngleRank"
  else if String.eqb x "BUILTIN_SCAN_ANGLE" then Ok "ScanAngle"
  else if String.eqb x "BUILTIN_USER_DATA" then Ok "UserData"
  else if String.eqb x "BUILTIN_POINT_SOURCE_ID" then Ok "PointSourceID"
  else if String.eqb x "BUILTIN_COLOR_RGB" then Ok "ColorRGB"
  else if String.eqb x "BUILTIN_GPS_TIME" then Ok "GpsTime"
  else if String.eqb x "BUILTIN_NIR" then Ok "NIR"
  else if String.eqb x "BUILTIN_WAVE_PACKET_DESCRIPTOR_INDEX" then Ok "WavePacketDescriptorIndex"
  else if String.eqb x "BUILTIN_WAVEFORM_DATA_OFFSET" then Ok "WaveformDataOffset"
  else if String.eqb x "BUILTIN_WAVEFORM_PACKET_SIZE" then Ok "WaveformPacketSize"
  else if String.eqb x "BUILTIN_RETURN_POINT_WAVEFORM_LOCATION" then Ok "ReturnPointWaveformLocation"
  else if String.eqb x "BUILTIN_WAVEFORM_PARAMETERS" then Ok "WaveformParameters"
  else if String.eqb x "BUILTIN_POINT_ID" then Ok "PointID"
  else if String.eqb x "BUILTIN_NORMAL" then Ok "Normal"
  else Err.
(* get_attribute_name_from_field, lib.rs:217-304 *)
Definition attribute_name_of_field (attrs : list attribute) : res string :=
  match attrs with
  | [a] =>
      let* m := a_meta a in
      match m with
      | MList _ (NMeta (MPath p) :: _) => match get_ident p with Some x => builtin_name x | None => Err end
      | MList _ (NMeta (MNameValue p l) :: _) =>
          match get_ident p with
          | Some x => if negb (String.eqb x "attribute") then Err else match l with LStr s => Ok s | _ => Err end
          | None => Err
          end
      | _ => Err
      end
  | _ => Err
  end.
(* get_field_layout_descriptions, lib.rs:313-329 *)
Definition field_descriptions (fields : list field) : res (list field_desc) :=
  mapM (fun f => let* p := primitive_of_type (f_type f) in
                 let* n := attribute_name_of_field (f_attrs f) in
                 Ok (mk_field n p)) fields.

(* ------------------------------------------------------------------ the macro *)
(* derive_point_type, lib.rs:423-475, with field_parameters, lib.rs:331-346, and calculate_offsets_and_alignment, lib.rs:348-383: the members
   and the alignment in the generated code. Err: the macro reports an error, Panic: it panics; the struct does not compile in both cases. *)
Definition derive_point_type (i : item) : res (list member * nat) :=
  if negb (Nat.eqb (it_generics i) 0) then Err else
  match it_data i with
  | EnumOrUnion => Err
  | Struct fields =>
      let* ds := field_descriptions fields in
      let* sml := struct_layout_of (it_attrs i) in
      let* '(os, al) := derive_offsets sml ds 0 1 in
      Ok (map (fun '(f, o) => at_offset_in_type (mk_def (fd_name f) (pt_datatype (fd_type f))) o) (combine ds os), al)
  end.
(* the generated PointType::layout(), lib.rs:462-472; it runs when the program does *)
Definition generated_layout (members : list member) (alignment : nat) : res layout := from_members_and_alignment members alignment.

(* PrimitiveType::data_type for the Rust types, pasture-core/src/layout/point_layout.rs:188-268 *)
Definition data_type_of (p : prim_type) : datatype :=
  match p with
  | PtU8 => U8 | PtU16 => U16 | PtU32 => U32 | PtU64 => U64 | PtI8 => I8 | PtI16 => I16 | PtI32 => I32 | PtI64 => I64 | PtF32 => F32 | PtF64 => F64
  | PtVec3u8 => Vec3u8 | PtVec3u16 => Vec3u16 | PtVec3i32 => Vec3i32 | PtVec3f32 => Vec3f32 | PtVec3f64 => Vec3f64
  | PtVec4u8 => Vec4u8
  end.
