(* LAS point formats, layouts, flag bits, strings and extra bytes descriptions
   (pasture-io/src/las/{las_layout,las_types,write_helpers,read_helpers,las_metadata}.rs). Definitions only. *)
From Coq Require Import String List ZArith Bool Arith Ascii.
From Verif Require Import Base LayoutModel NumModel.
Import ListNotations.
Set Implicit Arguments.
Open Scope nat_scope.

(* ------------------------------------------------------------------ point formats *)

(* las::point::Format of the external crate las 0.8: its public fields. is_compressed has no influence on anything below. *)
Record format : Type := mk_format {
  has_gps_time : bool; has_color : bool; is_extended : bool; has_waveform : bool; has_nir : bool; extra_bytes : nat }.

(* las::point::Format::new (external crate, trusted): the flags of point format n of the LAS specification *)
Definition format_new (n : nat) : res format :=
  if Nat.leb n 10 then
    Ok (mk_format (Nat.eqb n 1 || Nat.leb 3 n)
                  (Nat.eqb n 2 || Nat.eqb n 3 || Nat.eqb n 5 || Nat.eqb n 7 || Nat.eqb n 8 || Nat.eqb n 10)
                  (Nat.leb 6 n)
                  (Nat.eqb n 4 || Nat.eqb n 5 || Nat.eqb n 9 || Nat.eqb n 10)
                  (Nat.eqb n 8 || Nat.eqb n 10)
                  0)
  else Err.
(* las::point::Format::to_u8 (external crate, trusted) *)
Definition format_to_u8 (f : format) : res nat :=
  if is_extended f then
    if has_gps_time f then
      if has_color f then
        if has_nir f then Ok (if has_waveform f then 10 else 8)
        else if has_waveform f then Err else Ok 7
      else if has_nir f then Err
      else Ok (if has_waveform f then 9 else 6)
    else Err
  else if has_nir f then Err
  else if has_waveform f then
    if has_gps_time f then Ok (if has_color f then 5 else 4) else Err
  else Ok ((if has_gps_time f then 1 else 0) + (if has_color f then 2 else 0)).
(* las::point::Format::len (external crate, trusted) *)
Definition format_len (f : format) : nat :=
  (if is_extended f then 22 else 20)
  + (if has_gps_time f then 8 else 0) + (if has_color f then 6 else 0) + (if has_nir f then 2 else 0)
  + (if has_waveform f then 29 else 0) + extra_bytes f.
Definition with_extra_bytes (f : format) (n : nat) : format :=
  mk_format (has_gps_time f) (has_color f) (is_extended f) (has_waveform f) (has_nir f) n.

(* offset_to_extra_bytes, las_layout.rs:28-34 *)
Definition offset_to_extra_bytes (f : format) : option nat :=
  if Nat.eqb (extra_bytes f) 0 then None else Some (format_len f - extra_bytes f).

(* ------------------------------------------------------------------ layouts *)

(* las_layout.rs:37-48 *)
Definition ATTRIBUTE_BASIC_FLAGS : attr_def := mk_def "LASBasicFlags" U8.
Definition ATTRIBUTE_EXTENDED_FLAGS : attr_def := mk_def "LASExtendedFlags" U16.
Definition ATTRIBUTE_LOCAL_LAS_POSITION : attr_def := mk_def "LASLocalPosition" Vec3i32.

(* the attributes added one by one in las_layout.rs:70-105 *)
Definition exact_attributes (f : format) : list attr_def :=
  [ATTRIBUTE_LOCAL_LAS_POSITION; INTENSITY; (if is_extended f then ATTRIBUTE_EXTENDED_FLAGS else ATTRIBUTE_BASIC_FLAGS); CLASSIFICATION]
  ++ (if is_extended f then [USER_DATA; SCAN_ANGLE] else [SCAN_ANGLE_RANK; USER_DATA])
  ++ [POINT_SOURCE_ID]
  ++ (if has_gps_time f then [GPS_TIME] else [])
  ++ (if has_color f then [COLOR_RGB] else [])
  ++ (if has_nir f then [NIR] else [])
  ++ (if has_waveform f
      then [WAVE_PACKET_DESCRIPTOR_INDEX; WAVEFORM_DATA_OFFSET; WAVEFORM_PACKET_SIZE; RETURN_POINT_WAVEFORM_LOCATION; WAVEFORM_PARAMETERS]
      else []).

(* The structs LasPointFormat0 .. LasPointFormat10, las_types.rs:15-601: fields with the #[pasture(BUILTIN_..)] attribute and their Rust type *)
Definition fields_0 : list field_desc :=
  [mk_field "Position3D" PtVec3f64; mk_field "Intensity" PtU16; mk_field "ReturnNumber" PtU8; mk_field "NumberOfReturns" PtU8;
   mk_field "ScanDirectionFlag" PtU8; mk_field "EdgeOfFlightLine" PtU8; mk_field "Classification" PtU8; mk_field "ScanAngleRank" PtI8;
   mk_field "UserData" PtU8; mk_field "PointSourceID" PtU16].
Definition fields_6 : list field_desc :=
  [mk_field "Position3D" PtVec3f64; mk_field "Intensity" PtU16; mk_field "ReturnNumber" PtU8; mk_field "NumberOfReturns" PtU8;
   mk_field "ClassificationFlags" PtU8; mk_field "ScannerChannel" PtU8; mk_field "ScanDirectionFlag" PtU8; mk_field "EdgeOfFlightLine" PtU8;
   mk_field "Classification" PtU8; mk_field "UserData" PtU8; mk_field "ScanAngle" PtI16; mk_field "PointSourceID" PtU16; mk_field "GpsTime" PtF64].
Definition field_gps : field_desc := mk_field "GpsTime" PtF64.
Definition field_color : field_desc := mk_field "ColorRGB" PtVec3u16.
Definition field_nir : field_desc := mk_field "NIR" PtU16.
Definition fields_wave : list field_desc :=
  [mk_field "WavePacketDescriptorIndex" PtU8; mk_field "WaveformDataOffset" PtU64; mk_field "WaveformPacketSize" PtU32;
   mk_field "ReturnPointWaveformLocation" PtF32; mk_field "WaveformParameters" PtVec3f32].
Definition las_type_fields (n : nat) : option (list field_desc) :=
  match n with
  | 0 => Some fields_0
  | 1 => Some (fields_0 ++ [field_gps])
  | 2 => Some (fields_0 ++ [field_color])
  | 3 => Some (fields_0 ++ [field_gps; field_color])
  | 4 => Some (fields_0 ++ [field_gps] ++ fields_wave)
  | 5 => Some (fields_0 ++ [field_gps; field_color] ++ fields_wave)
  | 6 => Some fields_6
  | 7 => Some (fields_6 ++ [field_color])
  | 8 => Some (fields_6 ++ [field_color; field_nir])
  | 9 => Some (fields_6 ++ fields_wave)
  | 10 => Some (fields_6 ++ [field_color; field_nir] ++ fields_wave)
  | _ => None
  end.
(* LasPointFormatN::layout(), generated for #[repr(C, packed)] structs *)
Definition las_type_layout (n : nat) : res layout :=
  match las_type_fields n with
  | Some fs => derive_layout [ReprC; ReprPacked 1] fs
  | None => Err
  end.

(* point_layout_from_las_point_format, las_layout.rs:64-125 *)
Definition point_layout_from_las_point_format (f : format) (exact : bool) : res layout :=
  let* n := format_to_u8 f in
  if exact then foldM (fun l a => add_attribute l a (Packed 1)) (exact_attributes f) layout_default
  else las_type_layout n.

(* ------------------------------------------------------------------ extra bytes *)

(* ExtraBytesDataType, las_metadata.rs:197-213 *)
Inductive eb_type : Type :=
| EbUndocumented | EbU8 | EbI8 | EbU16 | EbI16 | EbU32 | EbI32 | EbU64 | EbI64 | EbF32 | EbF64 | EbDeprecated (v : Z) | EbReserved (v : Z).
(* size, las_metadata.rs:218-234 *)
Definition eb_size (t : eb_type) : option nat :=
  match t with
  | EbU8 | EbI8 => Some 1 | EbU16 | EbI16 => Some 2 | EbU32 | EbI32 | EbF32 => Some 4 | EbU64 | EbI64 | EbF64 => Some 8
  | EbUndocumented | EbDeprecated _ | EbReserved _ => None
  end.
(* las_metadata.rs:236-248 *)
Definition eb_is_unsigned (t : eb_type) : bool := match t with EbU8 | EbU16 | EbU32 | EbU64 => true | _ => false end.
Definition eb_is_signed (t : eb_type) : bool := match t with EbI8 | EbI16 | EbI32 | EbI64 => true | _ => false end.
Definition eb_is_floating_point (t : eb_type) : bool := match t with EbF32 | EbF64 => true | _ => false end.
(* From<u8>, las_metadata.rs:251-268 *)
Definition eb_of_u8 (v : Z) : eb_type :=
  (if v =? 0 then EbUndocumented else if v =? 1 then EbU8 else if v =? 2 then EbI8 else if v =? 3 then EbU16 else if v =? 4 then EbI16
   else if v =? 5 then EbU32 else if v =? 6 then EbI32 else if v =? 7 then EbU64 else if v =? 8 then EbI64 else if v =? 9 then EbF32
   else if v =? 10 then EbF64 else if v <=? 30 then EbDeprecated v else EbReserved v)%Z.
(* From<ExtraBytesDataType> for u8, las_metadata.rs:271-289 *)
Definition eb_to_u8 (t : eb_type) : Z :=
  match t with
  | EbUndocumented => 0 | EbU8 => 1 | EbI8 => 2 | EbU16 => 3 | EbI16 => 4 | EbU32 => 5 | EbI32 => 6 | EbU64 => 7 | EbI64 => 8 | EbF32 => 9
  | EbF64 => 10 | EbDeprecated v => v | EbReserved v => v
  end%Z.
(* TryFrom<ExtraBytesDataType> for PointAttributeDataType, las_metadata.rs:291-315 *)
Definition eb_datatype (t : eb_type) : res datatype :=
  match t with
  | EbU8 => Ok U8 | EbI8 => Ok I8 | EbU16 => Ok U16 | EbI16 => Ok I16 | EbU32 => Ok U32 | EbI32 => Ok I32 | EbU64 => Ok U64 | EbI64 => Ok I64
  | EbF32 => Ok F32 | EbF64 => Ok F64
  | EbUndocumented | EbDeprecated _ | EbReserved _ => Err
  end.

(* The UTF-8 bytes of a Rust string. Names of point attributes are strings in the layout model; both views are related by bytes_of. *)
Definition bytes_of (s : string) : list Z := map (fun c => Z.of_N (N_of_ascii c)) (list_ascii_of_string s).
Definition string_of_bytes (bs : list Z) : string := string_of_list_ascii (map (fun b => ascii_of_N (Z.to_N b)) bs).

(* ExtraBytesEntry, las_metadata.rs:362-373. options is the bit set; scale and offset are the bytes of the f64; the values are 8 bytes. *)
Record eb_entry : Type := mk_eb {
  eb_dt : eb_type; eb_options : Z; eb_name : list Z; eb_scale : list Z; eb_offset : list Z; eb_description : list Z;
  eb_min : list Z; eb_max : list Z; eb_no_data : list Z }.

(* ExtraBytesOptions, las_metadata.rs:323-332: getters and setters (set to true) of the bits *)
Definition opt_get (o : Z) (bit : Z) : bool := Z.testbit o bit.
Definition opt_set (o : Z) (bit : Z) : Z := Z.lor o (2 ^ bit).
Definition BIT_NO_DATA : Z := 0%Z.
Definition BIT_MIN : Z := 1%Z.
Definition BIT_MAX : Z := 2%Z.
Definition BIT_SCALE : Z := 3%Z.
Definition BIT_OFFSET : Z := 4%Z.

(* ExtraBytesEntryBuilder::new, las_metadata.rs:619-633 *)
Definition eb_new (t : eb_type) (name description : list Z) : eb_entry :=
  mk_eb t 0 name (repeat 0%Z 8) (repeat 0%Z 8) description (repeat 0%Z 8) (repeat 0%Z 8) (repeat 0%Z 8).
(* the methods of the builder, las_metadata.rs:635-663 *)
Definition eb_with_offset (e : eb_entry) (v : list Z) : eb_entry :=
  mk_eb (eb_dt e) (opt_set (eb_options e) BIT_OFFSET) (eb_name e) (eb_scale e) v (eb_description e) (eb_min e) (eb_max e) (eb_no_data e).
Definition eb_with_scale (e : eb_entry) (v : list Z) : eb_entry :=
  mk_eb (eb_dt e) (opt_set (eb_options e) BIT_SCALE) (eb_name e) v (eb_offset e) (eb_description e) (eb_min e) (eb_max e) (eb_no_data e).
Definition eb_with_min (e : eb_entry) (v : list Z) : eb_entry :=
  mk_eb (eb_dt e) (opt_set (eb_options e) BIT_MIN) (eb_name e) (eb_scale e) (eb_offset e) (eb_description e) v (eb_max e) (eb_no_data e).
Definition eb_with_max (e : eb_entry) (v : list Z) : eb_entry :=
  mk_eb (eb_dt e) (opt_set (eb_options e) BIT_MAX) (eb_name e) (eb_scale e) (eb_offset e) (eb_description e) (eb_min e) v (eb_no_data e).
Definition eb_with_no_data (e : eb_entry) (v : list Z) : eb_entry :=
  mk_eb (eb_dt e) (opt_set (eb_options e) BIT_NO_DATA) (eb_name e) (eb_scale e) (eb_offset e) (eb_description e) (eb_min e) (eb_max e) v.

(* accessors scale and offset, las_metadata.rs:397-412 *)
Definition eb_get_scale (e : eb_entry) : option (list Z) := if opt_get (eb_options e) BIT_SCALE then Some (eb_scale e) else None.
Definition eb_get_offset (e : eb_entry) : option (list Z) := if opt_get (eb_options e) BIT_OFFSET then Some (eb_offset e) else None.
(* min_as_unsigned, max_as_unsigned, no_data_value_as_unsigned: las_metadata.rs:418-425, 449-456, 480-487. v is the field. *)
Definition as_unsigned (e : eb_entry) (v : list Z) : res Z := if negb (eb_is_unsigned (eb_dt e)) then Err else Ok (le_dec v).
(* .._as_signed: las_metadata.rs:427-434, 458-465, 489-496 *)
Definition as_signed (e : eb_entry) (v : list Z) : res Z := if negb (eb_is_signed (eb_dt e)) then Err else Ok (wrap true 64 (le_dec v)).
(* .._as_float: las_metadata.rs:436-443, 467-474, 498-505. The check is is_unsigned, not is_floating_point. *)
Definition as_float (e : eb_entry) (v : list Z) : res (list Z) := if negb (eb_is_unsigned (eb_dt e)) then Err else Ok v.

(* Display, las_metadata.rs:518-574: which number is shown for min / max / no-data. The number formatting itself is not modelled;
   None: nothing is shown. *)
Inductive shown : Type := ShownFloat (bits : list Z) | ShownInt (v : Z) | ShownRaw (bytes : list Z).
Definition expect {A : Type} (r : res A) : res A := match r with Ok a => Ok a | _ => Panic end.
Definition show_value (e : eb_entry) (relevant : bool) (v : list Z) (raw : list Z) : res (option shown) :=
  if negb relevant then Ok None
  else if eb_is_floating_point (eb_dt e) then let* f := expect (as_float e v) in Ok (Some (ShownFloat f))
  else if eb_is_signed (eb_dt e) then let* i := expect (as_signed e v) in Ok (Some (ShownInt i))
  else if eb_is_unsigned (eb_dt e) then let* i := expect (as_unsigned e v) in Ok (Some (ShownInt i))
  else Ok (Some (ShownRaw raw)).
Definition eb_display (e : eb_entry) : res (option shown * option shown * option shown) :=
  let* mn := show_value e (opt_get (eb_options e) BIT_MIN) (eb_min e) (eb_min e) in
  let* mx := show_value e (opt_get (eb_options e) BIT_MAX) (eb_max e) (eb_max e) in
  (* the raw bytes shown for no-data are those of min, las_metadata.rs:561 *)
  let* nd := show_value e (opt_get (eb_options e) BIT_NO_DATA) (eb_no_data e) (eb_min e) in
  Ok (mn, mx, nd).

(* get_point_attribute, las_metadata.rs:508-515 *)
Definition eb_attribute (e : eb_entry) : res attr_def :=
  let* d := eb_datatype (eb_dt e) in Ok (mk_def (string_of_bytes (eb_name e)) d).

(* ------------------------------------------------------------------ layout from metadata, format from layout *)

(* point_layout_from_las_metadata, las_layout.rs:134-184. entries: the entries of the Extra Bytes VLR if there is one. The subtraction
   panics when it overflows (overflow checks on). The byte array gets num_described_bytes bytes. *)
Definition point_layout_from_las_metadata (f : format) (entries : option (list eb_entry)) (exact : bool) : res layout :=
  let* base_layout := point_layout_from_las_point_format f exact in
  if Nat.eqb (extra_bytes f) 0 then Ok base_layout
  else
    let* extra_byte_attributes := mapM eb_attribute (match entries with Some es => es | None => [] end) in
    let num_described_bytes := fold_right Nat.add 0 (map (fun a => dt_size (ad_type a)) extra_byte_attributes) in
    let* l := foldM (fun l a => add_attribute l a (Packed 1)) extra_byte_attributes base_layout in
    let* _ := assert (Nat.leb num_described_bytes (extra_bytes f)) in
    let num_undescribed_bytes := extra_bytes f - num_described_bytes in
    if Nat.ltb 0 num_undescribed_bytes
    then add_attribute l (mk_def "UndescribedExtraBytes" (ByteArray num_described_bytes)) (Packed 1)
    else Ok l.

(* las_point_format_from_point_layout, las_layout.rs:202-232 *)
Definition las_point_format_from_point_layout (l : layout) : format :=
  let has a := has_attribute_with_name l (ad_name a) in
  mk_format (has GPS_TIME) (has COLOR_RGB)
            (has NIR || has SCAN_ANGLE || has SCANNER_CHANNEL || has CLASSIFICATION_FLAGS)
            (has WAVE_PACKET_DESCRIPTOR_INDEX || has WAVEFORM_DATA_OFFSET || has WAVEFORM_PACKET_SIZE
             || has RETURN_POINT_WAVEFORM_LOCATION || has WAVEFORM_PARAMETERS)
            (has NIR) 0.

(* is_known_las_attribute, las_layout.rs:240-270 *)
Definition known_las_attribute_names : list string :=
  map ad_name [POSITION_3D; INTENSITY; RETURN_NUMBER; NUMBER_OF_RETURNS; CLASSIFICATION_FLAGS; SCANNER_CHANNEL; SCAN_DIRECTION_FLAG;
               EDGE_OF_FLIGHT_LINE; CLASSIFICATION; USER_DATA; SCAN_ANGLE; SCAN_ANGLE_RANK; POINT_SOURCE_ID; GPS_TIME; COLOR_RGB; NIR;
               WAVEFORM_DATA_OFFSET; WAVEFORM_PACKET_SIZE; WAVEFORM_PARAMETERS; WAVE_PACKET_DESCRIPTOR_INDEX; RETURN_POINT_WAVEFORM_LOCATION].
Definition is_known_las_attribute (a : attr_def) : bool := existsb (String.eqb (ad_name a)) known_las_attribute_names.

(* ------------------------------------------------------------------ flag bits *)

(* BitAttributes, las_types.rs:603-625; the fields are u8 *)
Inductive bit_attributes : Type :=
| Regular (return_number number_of_returns scan_direction_flag edge_of_flight_line : Z)
| Extended (return_number number_of_returns classification_flags scanner_channel scan_direction_flag edge_of_flight_line : Z).

(* `x << n` on u8 *)
Definition shl8 (x n : Z) : Z := (Z.shiftl x n mod 256)%Z.

(* write_las_bit_attributes, write_helpers.rs:26-51: the bytes written *)
Definition write_las_bit_attributes (b : bit_attributes) : list Z :=
  (match b with
   | Regular rn nr sd eof =>
       [Z.lor (Z.lor (Z.lor (Z.land rn 7) (shl8 (Z.land nr 7) 3)) (shl8 (Z.land sd 1) 6)) (shl8 (Z.land eof 1) 7)]
   | Extended rn nr cf sc sd eof =>
       [Z.lor (Z.land rn 15) (shl8 (Z.land nr 15) 4);
        Z.lor (Z.lor (Z.lor (Z.land cf 15) (shl8 (Z.land sc 3) 4)) (shl8 (Z.land sd 1) 6)) (shl8 (Z.land eof 1) 7)]
   end)%Z.

(* The closures of get_default_las_converter, raw_readers.rs:68-164, on u8 (basic flags) and on u16 (extended flags, little endian) *)
Definition basic_field (shift mask : Z) (flags : list Z) : list Z := le_enc 1 (Z.land (Z.shiftr (le_dec flags) shift) mask).
Definition extended_field (shift mask : Z) (flags : list Z) : list Z := le_enc 2 (Z.land (Z.shiftr (le_dec flags) shift) mask).

(* ------------------------------------------------------------------ strings *)

(* write_rust_string_into_las_ascii_array, write_helpers.rs:56-67: the new content of the array *)
Definition write_rust_string (s : list Z) (arr : list Z) : list Z :=
  let n := length arr in
  if Nat.leb n (length s) then firstn n s else s ++ skipn (length s) arr.

(* std::str::from_utf8 (standard library, trusted): well-formed UTF-8 as of Table 3-7 of the Unicode standard *)
Definition in_range (lo hi b : Z) : bool := (lo <=? b)%Z && (b <=? hi)%Z.
Fixpoint utf8_valid (bs : list Z) : bool :=
  match bs with
  | [] => true
  | b :: t =>
    if in_range 0 127 b then utf8_valid t
    else if in_range 194 223 b then
      match t with c :: t => in_range 128 191 c && utf8_valid t | _ => false end
    else if in_range 224 239 b then
      match t with
      | c :: d :: t => in_range (if Z.eqb b 224 then 160 else 128) (if Z.eqb b 237 then 159 else 191) c && in_range 128 191 d && utf8_valid t
      | _ => false
      end
    else if in_range 240 244 b then
      match t with
      | c :: d :: e :: t => in_range (if Z.eqb b 240 then 144 else 128) (if Z.eqb b 244 then 143 else 191) c && in_range 128 191 d
                            && in_range 128 191 e && utf8_valid t
      | _ => false
      end
    else false
  end.
Definition from_utf8 (bs : list Z) : res (list Z) := if utf8_valid bs then Ok bs else Err.

(* las_string_to_rust_string, read_helpers.rs:494-504 *)
Definition las_string_to_rust_string (arr : list Z) : res (list Z) :=
  match position (fun c => Z.eqb c 0) arr with
  | Some i => from_utf8 (firstn i arr)
  | None => from_utf8 arr
  end.

(* ------------------------------------------------------------------ extra bytes records *)

(* From<&ExtraBytesEntry> for RawExtraBytesEntry and its bytes (repr(C), no padding), las_metadata.rs:335-359, 595-610 *)
Definition eb_to_raw (e : eb_entry) : list Z :=
  repeat 0%Z 2 ++ [eb_to_u8 (eb_dt e)] ++ [eb_options e] ++ write_rust_string (eb_name e) (repeat 0%Z 32) ++ repeat 0%Z 4
  ++ eb_no_data e ++ repeat 0%Z 16 ++ eb_min e ++ repeat 0%Z 16 ++ eb_max e ++ repeat 0%Z 16
  ++ eb_scale e ++ repeat 0%Z 16 ++ eb_offset e ++ repeat 0%Z 16 ++ write_rust_string (eb_description e) (repeat 0%Z 32).
(* TryFrom<&RawExtraBytesEntry>, las_metadata.rs:576-593 *)
Definition eb_of_raw (r : list Z) : res eb_entry :=
  let* description := las_string_to_rust_string (sub r 160 32) in
  let* name := las_string_to_rust_string (sub r 4 32) in
  Ok (mk_eb (eb_of_u8 (nth 2 r 0%Z)) (nth 3 r 0%Z) name (sub r 112 8) (sub r 136 8) description (sub r 64 8) (sub r 88 8) (sub r 40 8)).

(* las::Vlr: user_id, record_id and data are used *)
Record vlr : Type := mk_vlr { v_user : string; v_record : Z; v_data : list Z }.
(* TryFrom<&Vlr> for ExtraBytesVlr, las_metadata.rs:692-722. bytemuck::cast_slice panics unless the data is 8-aligned: memory allocated on
   the heap is (trusted), the pointer of an empty Vec<u8> is not. *)
Definition eb_of_vlr (v : vlr) : res (list eb_entry) :=
  if negb (String.eqb (v_user v) "LASF_Spec") then Err
  else if negb (Z.eqb (v_record v) 4) then Err
  else if negb (Nat.eqb (length (v_data v) mod 192) 0) then Err
  else let* _ := assert (negb (Nat.eqb (length (v_data v)) 0)) in
       mapM (fun i => eb_of_raw (sub (v_data v) (i * 192) 192)) (seq 0 (length (v_data v) / 192)).
(* TryInto<Vlr> for &ExtraBytesVlr, las_metadata.rs:724-751 *)
Definition eb_to_vlr (es : list eb_entry) : res vlr :=
  let data := concat (map eb_to_raw es) in
  let* _ := assert (Nat.eqb (length data mod 192) 0) in
  if (Z.of_nat (length data) <=? 65535)%Z then Ok (mk_vlr "LASF_Spec" 4 data) else Err.

(* String::from_utf8_lossy (core::str::Utf8Chunks, trusted): a sequence that breaks off is replaced by one U+FFFD as far as it was right *)
Definition replacement : list Z := [239; 191; 189]%Z.
Fixpoint from_utf8_lossy (bs : list Z) : list Z :=
  match bs with
  | [] => []
  | b :: t =>
    if in_range 0 127 b then b :: from_utf8_lossy t
    else if in_range 194 223 b then
      match t with
      | c :: u => if in_range 128 191 c then b :: c :: from_utf8_lossy u else replacement ++ from_utf8_lossy t
      | [] => replacement
      end
    else if in_range 224 239 b then
      match t with
      | c :: u =>
        if in_range (if Z.eqb b 224 then 160 else 128) (if Z.eqb b 237 then 159 else 191) c then
          match u with
          | d :: w => if in_range 128 191 d then b :: c :: d :: from_utf8_lossy w else replacement ++ from_utf8_lossy u
          | [] => replacement
          end
        else replacement ++ from_utf8_lossy t
      | [] => replacement
      end
    else if in_range 240 244 b then
      match t with
      | c :: u =>
        if in_range (if Z.eqb b 240 then 144 else 128) (if Z.eqb b 244 then 143 else 191) c then
          match u with
          | d :: w =>
            if in_range 128 191 d then
              match w with
              | e :: y => if in_range 128 191 e then b :: c :: d :: e :: from_utf8_lossy y else replacement ++ from_utf8_lossy w
              | [] => replacement
              end
            else replacement ++ from_utf8_lossy u
          | [] => replacement
          end
        else replacement ++ from_utf8_lossy t
      | [] => replacement
      end
    else replacement ++ from_utf8_lossy t
  end.
(* ClassificationLookup, las_metadata.rs:79-140: class number and description, made of all 15 bytes *)
Definition classification_of_vlr (v : vlr) : res (list (Z * list Z)) :=
  if negb (String.eqb (v_user v) "LASF_Spec") then Err
  else if negb (Z.eqb (v_record v) 0) then Err
  else if negb (Nat.eqb (length (v_data v)) (256 * 16)) then Err
  else Ok (map (fun i => let e := sub (v_data v) (i * 16) 16 in (nth 0 e 0%Z, from_utf8_lossy (sub e 1 15))) (seq 0 256)).
(* TextAreaDescription, las_metadata.rs:161-182 *)
Definition text_of_vlr (v : vlr) : res (list Z) :=
  if negb (String.eqb (v_user v) "LASF_Spec") then Err
  else if negb (Z.eqb (v_record v) 3) then Err
  else from_utf8 (v_data v).

(* ------------------------------------------------------------------ file types *)

(* std::path::Path::extension (standard library, trusted) on the file name: the part after the last dot, none without a dot or if the
   only dot starts the name *)
Fixpoint after_last_dot (s : string) : option string :=
  match s with
  | EmptyString => None
  | String c s' => match after_last_dot s' with
                   | Some e => Some e
                   | None => if Ascii.eqb c "."%char then Some s' else None
                   end
  end.
Definition extension (file_name : string) : option string :=
  match file_name with
  | EmptyString => None
  | String _ s => if String.eqb file_name ".." then None else after_last_dot s
  end.
(* str::to_lowercase on the letters A-Z. Simplification: the Unicode letters whose lower case is an ASCII letter (the Kelvin sign) are ignored. *)
Definition lower_char (c : ascii) : ascii :=
  let n := nat_of_ascii c in if Nat.leb 65 n && Nat.leb n 90 then ascii_of_nat (n + 32) else c.
Fixpoint to_lowercase (s : string) : string :=
  match s with EmptyString => EmptyString | String c s' => String (lower_char c) (to_lowercase s') end.

(* SupportedFileExtensions and get_extension_lookup, pasture-io/src/base/io_factory.rs:21-46 *)
Inductive file_kind : Type := KindLas | KindTiles3D.
Definition get_extension_lookup (file_name : string) : res file_kind :=
  match extension file_name with
  | None => Err
  | Some e => if String.eqb (to_lowercase e) "las" || String.eqb (to_lowercase e) "laz" then Ok KindLas
              else if String.eqb (to_lowercase e) "pnts" then Ok KindTiles3D
              else Err
  end.
(* path_is_compressed_las_file, las_metadata.rs:67-75 *)
Definition path_is_compressed_las_file (file_name : string) : res bool :=
  match extension file_name with
  | None => Err
  | Some e => Ok (String.eqb e "laz")
  end.
