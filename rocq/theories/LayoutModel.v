(* Model of pasture-core/src/layout/point_layout.rs and pasture-core/src/math/arithmetic.rs,
   and of the offset computation of pasture-derive/src/lib.rs. Definitions only. *)
From Coq Require Import String List ZArith Lia Bool Arith.
From Verif Require Import Base.
Import ListNotations.
Set Implicit Arguments.

(* pasture-core/src/layout/point_layout.rs:46-91. The Uuid of a custom type is a number. *)
Inductive datatype : Type :=
| U8 | I8 | U16 | I16 | U32 | I32 | U64 | I64 | F32 | F64
| Vec3u8 | Vec3u16 | Vec3f32 | Vec3i32 | Vec3f64 | Vec4u8
| ByteArray (len : nat)
| Custom (size min_alignment : nat) (uuid : Z).

(* derive(PartialEq) on PointAttributeDataType, point_layout.rs:44 *)
Definition datatype_eq_dec (a b : datatype) : {a = b} + {a <> b}.
Proof. decide equality; try apply Nat.eq_dec; apply Z.eq_dec. Defined.
Definition datatype_eqb (a b : datatype) : bool := if datatype_eq_dec a b then true else false.

(* PointAttributeDataType::size, point_layout.rs:95-120 *)
Definition dt_size (d : datatype) : nat :=
  match d with
  | U8 | I8 => 1
  | U16 | I16 => 2
  | U32 | I32 => 4
  | U64 | I64 => 8
  | F32 => 4
  | F64 => 8
  | Vec3u8 => 3
  | Vec3u16 => 6
  | Vec3i32 => 12
  | Vec3f32 => 12
  | Vec3f64 => 24
  | Vec4u8 => 4
  | ByteArray n => n
  | Custom s _ _ => s
  end.

(* PointAttributeDataType::min_alignment, point_layout.rs:123-149. align_of of the nalgebra
   vectors is that of their component type; u64/f64 are 8-aligned (64 bit targets). *)
Definition dt_align (d : datatype) : nat :=
  match d with
  | U8 | I8 => 1
  | U16 | I16 => 2
  | U32 | I32 => 4
  | U64 | I64 => 8
  | F32 => 4
  | F64 => 8
  | Vec3u8 => 1
  | Vec3u16 => 2
  | Vec3i32 => 4
  | Vec3f32 => 4
  | Vec3f64 => 8
  | Vec4u8 => 1
  | ByteArray _ => 1
  | Custom _ a _ => a
  end.

(* PointAttributeDefinition, point_layout.rs:284-287 *)
Record attr_def : Type := mk_def { ad_name : string; ad_type : datatype }.

(* derive(PartialEq) on PointAttributeDefinition, point_layout.rs:282; also the comparison
   "name == name && datatype == datatype" used by the lookups *)
Definition attr_def_eqb (a b : attr_def) : bool :=
  String.eqb (ad_name a) (ad_name b) && datatype_eqb (ad_type a) (ad_type b).

(* PointAttributeMember, point_layout.rs:376-380 *)
Record member : Type := mk_member { m_def : attr_def; m_offset : nat; m_size : nat }.

(* PointAttributeMember::name / datatype, point_layout.rs:409-423 *)
Definition m_name (m : member) : string := ad_name (m_def m).
Definition m_type (m : member) : datatype := ad_type (m_def m).

(* derive(PartialEq) on PointAttributeMember, point_layout.rs:374 *)
Definition member_eqb (a b : member) : bool :=
  attr_def_eqb (m_def a) (m_def b) && Nat.eqb (m_offset a) (m_offset b)
  && Nat.eqb (m_size a) (m_size b).

(* PointAttributeDefinition::with_custom_datatype, point_layout.rs:340-345 *)
Definition with_custom_datatype (a : attr_def) (d : datatype) : attr_def := mk_def (ad_name a) d.

(* PointAttributeDefinition::at_offset_in_type, point_layout.rs:357-363 *)
Definition at_offset_in_type (a : attr_def) (offset : nat) : member :=
  mk_member a offset (dt_size (ad_type a)).

(* The end of PointAttributeMember::byte_range_within_point, point_layout.rs:449-453 *)
Definition m_end (m : member) : nat := m_offset m + m_size m.

(* Built-in attributes, point_layout.rs:477-621 *)
Definition POSITION_3D := mk_def "Position3D" Vec3f64.
Definition INTENSITY := mk_def "Intensity" U16.
Definition RETURN_NUMBER := mk_def "ReturnNumber" U8.
Definition NUMBER_OF_RETURNS := mk_def "NumberOfReturns" U8.
Definition CLASSIFICATION_FLAGS := mk_def "ClassificationFlags" U8.
Definition SCANNER_CHANNEL := mk_def "ScannerChannel" U8.
Definition SCAN_DIRECTION_FLAG := mk_def "ScanDirectionFlag" U8.
Definition EDGE_OF_FLIGHT_LINE := mk_def "EdgeOfFlightLine" U8.
Definition CLASSIFICATION := mk_def "Classification" U8.
Definition SCAN_ANGLE_RANK := mk_def "ScanAngleRank" I8.
Definition SCAN_ANGLE := mk_def "ScanAngle" I16.
Definition USER_DATA := mk_def "UserData" U8.
Definition POINT_SOURCE_ID := mk_def "PointSourceID" U16.
Definition COLOR_RGB := mk_def "ColorRGB" Vec3u16.
Definition GPS_TIME := mk_def "GpsTime" F64.
Definition NIR := mk_def "NIR" U16.
Definition WAVE_PACKET_DESCRIPTOR_INDEX := mk_def "WavePacketDescriptorIndex" U8.
Definition WAVEFORM_DATA_OFFSET := mk_def "WaveformDataOffset" U64.
Definition WAVEFORM_PACKET_SIZE := mk_def "WaveformPacketSize" U32.
Definition RETURN_POINT_WAVEFORM_LOCATION := mk_def "ReturnPointWaveformLocation" F32.
Definition WAVEFORM_PARAMETERS := mk_def "WaveformParameters" Vec3f32.
Definition POINT_ID := mk_def "PointID" U64.
Definition NORMAL := mk_def "Normal" Vec3f32.

(* FieldAlignment, point_layout.rs:624-629 *)
Inductive field_alignment : Type := Default | Packed (max_alignment : nat).

(* PointLayout, point_layout.rs:671-675; the std Layout is its size and alignment *)
Record layout : Type := mk_layout { l_attrs : list member; l_size : nat; l_align : nat }.

(* Alignable::align_to, math/arithmetic.rs:43-51 (u64), on unbounded integers.
   The fixed width versions, with overflow, are align_to_debug / align_to_release below. *)
Definition align_to (x a : nat) : nat :=
  if Nat.eqb a 0 then x else ((x + a - 1) / a) * a.

(* Alignable::align_to, math/arithmetic.rs:13-71, for an unsigned type of w bits compiled with
   overflow checks: an intermediate result outside the range panics. *)
Definition align_to_debug (w x a : Z) : res Z :=
  (if a =? 0 then Ok x
   else if 2 ^ w <=? x + a then Panic
   else let r := ((x + a - 1) / a) * a in
        if 2 ^ w <=? r then Panic else Ok r)%Z.

(* The same compiled without overflow checks: every operation wraps modulo 2^w. *)
Definition align_to_release (w x a : Z) : Z :=
  (if a =? 0 then x
   else let s := (((x + a) mod 2 ^ w) - 1) mod 2 ^ w in
        ((s / a) * a) mod 2 ^ w)%Z.

(* std::alloc::Layout::from_size_align(..).expect(..): the alignment must be a power of two and the
   size rounded up to it must not exceed isize::MAX (64 bit). *)
Definition is_pow2 (n : nat) : bool := Nat.eqb n (2 ^ Nat.log2 n).
Definition mem_layout_ok (size align : nat) : bool :=
  is_pow2 align && (Z.of_nat size + Z.of_nat align <=? 2 ^ 63)%Z.

(* PointLayout::default, point_layout.rs:1041-1046 *)
Definition layout_default : layout := mk_layout [] 0 1.

(* PointLayout::get_attribute_by_name, point_layout.rs:910-914 *)
Definition get_attribute_by_name (l : layout) (n : string) : option member :=
  find (fun m => String.eqb (m_name m) n) (l_attrs l).

(* PointLayout::has_attribute_with_name, point_layout.rs:854-858 *)
Definition has_attribute_with_name (l : layout) (n : string) : bool :=
  existsb (fun m => String.eqb (m_name m) n) (l_attrs l).

(* PointLayout::has_attribute, point_layout.rs:873-878 *)
Definition has_attribute (l : layout) (a : attr_def) : bool :=
  existsb (fun m => String.eqb (m_name m) (ad_name a) && datatype_eqb (m_type m) (ad_type a))
          (l_attrs l).

(* PointLayout::get_attribute, point_layout.rs:891-899 *)
Definition get_attribute (l : layout) (a : attr_def) : option member :=
  find (fun m => String.eqb (m_name m) (ad_name a) && datatype_eqb (m_type m) (ad_type a))
       (l_attrs l).

(* PointLayout::at, point_layout.rs:921-923 *)
Definition layout_at (l : layout) (i : nat) : res member := unwrap (nth_error (l_attrs l) i).

(* Iterator::position *)
Fixpoint position {A : Type} (p : A -> bool) (l : list A) : option nat :=
  match l with
  | [] => None
  | a :: l' => if p a then Some 0 else option_map S (position p l')
  end.

(* PointLayout::index_of, point_layout.rs:974-979 *)
Definition index_of (l : layout) (a : attr_def) : option nat :=
  position (fun m => String.eqb (m_name m) (ad_name a) && datatype_eqb (m_type m) (ad_type a))
           (l_attrs l).

(* PointLayout::offset_of, point_layout.rs:998-1006 *)
Definition offset_of (l : layout) (a : attr_def) : option nat :=
  option_map m_offset
    (find (fun m => String.eqb (m_name m) (ad_name a) && datatype_eqb (m_type m) (ad_type a))
          (l_attrs l)).

(* PointLayout::compare_without_offsets, point_layout.rs:983-994 *)
Definition compare_without_offsets (l o : layout) : bool :=
  if negb (Nat.eqb (length (l_attrs l)) (length (l_attrs o))) then false
  else forallb (fun m =>
         match get_attribute_by_name o (m_name m) with
         | Some om => datatype_eqb (m_type om) (m_type m)
         | None => false
         end) (l_attrs l).

(* derive(PartialEq) on PointLayout, point_layout.rs:669 *)
Fixpoint members_eqb (a b : list member) : bool :=
  match a, b with
  | [], [] => true
  | x :: a', y :: b' => member_eqb x y && members_eqb a' b'
  | _, _ => false
  end.
Definition layout_eqb (a b : layout) : bool :=
  members_eqb (l_attrs a) (l_attrs b) && Nat.eqb (l_size a) (l_size b)
  && Nat.eqb (l_align a) (l_align b).

(* PointLayout::packed_offset_of_next_field, point_layout.rs:1010-1019 *)
Definition packed_offset_of_next_field (l : layout) : nat :=
  match rev (l_attrs l) with
  | [] => 0
  | last_attribute :: _ => m_offset last_attribute + m_size last_attribute
  end.

(* PointLayout::add_attribute, point_layout.rs:801-845 *)
Definition add_attribute (l : layout) (a : attr_def) (fa : field_alignment) : res layout :=
  match get_attribute_by_name l (ad_name a) with
  | Some _ => Panic
  | None =>
    let field_align :=
      match fa with
      | Default => dt_align (ad_type a)
      | Packed n => Nat.min n (dt_align (ad_type a))
      end in
    let offset := align_to (packed_offset_of_next_field l) field_align in
    let new_max_align :=
      match fa with
      | Default => Nat.max (l_align l) (dt_align (ad_type a))
      | Packed n => Nat.min n (l_align l)
      end in
    let attribute_end := offset + dt_size (ad_type a) in
    let new_size := align_to (Nat.max (l_size l) attribute_end) new_max_align in
    if mem_layout_ok new_size new_max_align
    then Ok (mk_layout (l_attrs l ++ [at_offset_in_type a offset]) new_size new_max_align)
    else Panic
  end.

(* FromIterator<PointAttributeDefinition> for PointLayout and PointLayout::from_attributes,
   point_layout.rs:1049-1057, 692-694 *)
Definition from_attributes (attrs : list attr_def) : res layout :=
  foldM (fun l a => add_attribute l a Default) attrs layout_default.

(* PointLayout::from_attributes_packed, point_layout.rs:716-725 *)
Definition from_attributes_packed (attrs : list attr_def) (n : nat) : res layout :=
  foldM (fun l a => add_attribute l a (Packed n)) attrs layout_default.

(* slice::sort_by with a comparison of keys (stable); std's implementation is represented by
   insertion sort, any stable sort gives the same list. *)
Fixpoint insert_by_start (r : nat * nat) (l : list (nat * nat)) : list (nat * nat) :=
  match l with
  | [] => [r]
  | x :: l' => if Nat.leb (fst r) (fst x) then r :: x :: l' else x :: insert_by_start r l'
  end.
Definition sort_by_start (l : list (nat * nat)) : list (nat * nat) := fold_right insert_by_start [] l.

(* the loop point_layout.rs:760-766 over adjacent ranges *)
Fixpoint adjacent_ok (l : list (nat * nat)) : bool :=
  match l with
  | a :: ((b :: _) as l') => negb (Nat.ltb (fst b) (snd a)) && adjacent_ok l'
  | _ => true
  end.

(* Iterator::max_by on offsets: the last of the maximal elements, point_layout.rs:768-771 *)
Fixpoint last_max_by_offset (l : list member) : option member :=
  match l with
  | [] => None
  | m :: l' =>
    match last_max_by_offset l' with
    | None => Some m
    | Some m' => if Nat.ltb (m_offset m') (m_offset m) then Some m else Some m'
    end
  end.

(* Itertools::unique().count(), point_layout.rs:748-749: the number of different names *)
Fixpoint unique_count (l : list string) : nat :=
  match l with
  | [] => 0
  | x :: l' => if existsb (String.eqb x) l' then unique_count l' else S (unique_count l')
  end.

(* PointLayout::from_members_and_alignment, point_layout.rs:742-782 *)
Definition from_members_and_alignment (ms : list member) (type_alignment : nat) : res layout :=
  if negb (Nat.eqb (unique_count (map m_name ms)) (length ms)) then Panic
  else if negb (adjacent_ok (sort_by_start (map (fun m => (m_offset m, m_offset m + m_size m)) ms)))
  then Panic
  else
    let unaligned_size :=
      match last_max_by_offset ms with
      | Some m => m_offset m + m_size m
      | None => 0
      end in
    let size := align_to unaligned_size type_alignment in
    if mem_layout_ok size type_alignment then Ok (mk_layout ms size type_alignment) else Panic.

(* ---- derive(PointType), pasture-derive/src ---- *)

(* PasturePrimitiveType, pasture-derive/src/lib.rs:16-33 *)
Inductive prim_type : Type :=
| PtU8 | PtI8 | PtU16 | PtI16 | PtU32 | PtI32 | PtU64 | PtI64 | PtF32 | PtF64
| PtVec3u8 | PtVec3u16 | PtVec3f32 | PtVec3f64 | PtVec3i32 | PtVec4u8.

(* PasturePrimitiveType::min_alignment, pasture-derive/src/lib.rs:36-55 *)
Definition pt_align (p : prim_type) : nat :=
  match p with
  | PtU8 => 1 | PtI8 => 1 | PtU16 => 2 | PtI16 => 2 | PtU32 => 4 | PtI32 => 4
  | PtU64 => 8 | PtI64 => 8 | PtF32 => 4 | PtF64 => 8
  | PtVec3u8 => 1 | PtVec3u16 => 2 | PtVec3f32 => 4 | PtVec3f64 => 8 | PtVec3i32 => 4
  | PtVec4u8 => 1
  end.

(* PasturePrimitiveType::size, pasture-derive/src/lib.rs:57-76 *)
Definition pt_size (p : prim_type) : nat :=
  match p with
  | PtU8 => 1 | PtI8 => 1 | PtU16 => 2 | PtI16 => 2 | PtU32 => 4 | PtI32 => 4
  | PtU64 => 8 | PtI64 => 8 | PtF32 => 4 | PtF64 => 8
  | PtVec3u8 => 3 | PtVec3u16 => 6 | PtVec3f32 => 12 | PtVec3f64 => 24 | PtVec3i32 => 12
  | PtVec4u8 => 4
  end.

(* PasturePrimitiveType::as_token_stream, pasture-derive/src/lib.rs:78-109 *)
Definition pt_datatype (p : prim_type) : datatype :=
  match p with
  | PtU8 => U8 | PtI8 => I8 | PtU16 => U16 | PtI16 => I16 | PtU32 => U32 | PtI32 => I32
  | PtU64 => U64 | PtI64 => I64 | PtF32 => F32 | PtF64 => F64
  | PtVec3u8 => Vec3u8 | PtVec3u16 => Vec3u16 | PtVec3f32 => Vec3f32 | PtVec3f64 => Vec3f64
  | PtVec3i32 => Vec3i32 | PtVec4u8 => Vec4u8
  end.

(* FieldLayoutDescription, pasture-derive/src/lib.rs:306-309. Simplified: the parsing of the field's
   type and of its #[pasture(..)] attribute into this pair is not modelled. *)
Record field_desc : Type := mk_field { fd_name : string; fd_type : prim_type }.

(* The arguments of #[repr(..)] on structs, pasture-derive/src/layout.rs:113-121 *)
Inductive repr_arg : Type := ReprC | ReprPacked (n : nat) | ReprAlign (n : nat) | ReprTransparent.

(* StructMemberLayout, pasture-derive/src/layout.rs *)
Inductive struct_member_layout : Type := SmlC | SmlPacked (n : nat).

(* get_struct_member_layout, pasture-derive/src/layout.rs:97-144; `packed` is `packed(1)`.
   Simplified: the repr attribute is given as its parsed list of arguments. *)
Definition get_struct_member_layout (args : list repr_arg) : res struct_member_layout :=
  match find (fun a => match a with ReprPacked _ => true | _ => false end) args with
  | Some (ReprPacked n) => Ok (SmlPacked n)
  | _ =>
    if existsb (fun a => match a with ReprC => true | _ => false end) args then Ok SmlC else Err
  end.

(* the loop of calculate_offsets_and_alignment, pasture-derive/src/lib.rs:363-380. A zero alignment
   (packed(0)) divides by zero and panics. *)
Fixpoint derive_offsets (sml : struct_member_layout) (fields : list field_desc)
         (current_offset max_alignment : nat) : res (list nat * nat) :=
  match fields with
  | [] => Ok ([], max_alignment)
  | f :: fs =>
    let min_alignment :=
      match sml with
      | SmlC => pt_align (fd_type f)
      | SmlPacked n => Nat.min n (pt_align (fd_type f))
      end in
    if Nat.eqb min_alignment 0 then Panic else
    let max_alignment' := Nat.max min_alignment max_alignment in
    let aligned_offset := ((current_offset + min_alignment - 1) / min_alignment) * min_alignment in
    let* '(os, al) := derive_offsets sml fs (aligned_offset + pt_size (fd_type f)) max_alignment' in
    Ok (aligned_offset :: os, al)
  end.

(* derive_point_type, pasture-derive/src/lib.rs:423-475: the generated layout() *)
Definition derive_layout (args : list repr_arg) (fields : list field_desc) : res layout :=
  let* sml := get_struct_member_layout args in
  let* '(os, al) := derive_offsets sml fields 0 1 in
  from_members_and_alignment
    (map (fun '(f, o) => at_offset_in_type (mk_def (fd_name f) (pt_datatype (fd_type f))) o)
         (combine fields os)) al.
