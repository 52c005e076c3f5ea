(* Property theorems C34 (flag bits), C35 (exact layouts), C36 (layouts from metadata), C37 (formats from layouts), C43 (extra bytes),
   C44 (strings) and C45 (file types). *)
From Coq Require Import String List ZArith Lia Bool Arith Ascii.
From Verif Require Import Base LayoutModel NumModel LasModel LasSpec LasProofs LasProofs2.
Import ListNotations.
Open Scope nat_scope.

(* ---- C34: f is what the writer stores, the masks and shifts are those of the reader ---- *)
Theorem C34_basic_flags_survive :
  forall rn nr sd eof, let f := write_las_bit_attributes (Regular rn nr sd eof) in
  length f = 1 /\ Forall is_byte f
  /\ basic_field 0 7 f = [rn mod 8]%Z /\ basic_field 3 7 f = [nr mod 8]%Z /\ basic_field 6 1 f = [sd mod 2]%Z /\ basic_field 7 1 f = [eof mod 2]%Z.
Proof. exact basic_flags. Qed.
Print Assumptions C34_basic_flags_survive.

Theorem C34_extended_flags_survive :
  forall rn nr cf sc sd eof, let f := write_las_bit_attributes (Extended rn nr cf sc sd eof) in
  length f = 2 /\ Forall is_byte f
  /\ extended_field 0 15 f = [rn mod 16; 0]%Z /\ extended_field 4 15 f = [nr mod 16; 0]%Z /\ extended_field 8 15 f = [cf mod 16; 0]%Z
  /\ extended_field 12 3 f = [sc mod 4; 0]%Z /\ extended_field 14 1 f = [sd mod 2; 0]%Z /\ extended_field 15 1 f = [eof mod 2; 0]%Z.
Proof. exact extended_flags. Qed.
Print Assumptions C34_extended_flags_survive.

Example C34_ex : basic_field 3 7 (write_las_bit_attributes (Regular 255 5 0 1)) = [5%Z]
  /\ extended_field 12 3 (write_las_bit_attributes (Extended 15 9 8 2 1 0)) = [2; 0]%Z.
Proof. split; vm_compute; reflexivity. Qed.

(* ---- C35 ---- *)
Theorem C35_exact_layouts_match_the_specification :
  forall n f x, format_new n = Ok f ->
  exists l, point_layout_from_las_point_format (with_extra_bytes f x) true = Ok l
  /\ map described (l_attrs l) = las_record n /\ l_size l = record_length n /\ l_align l = 1
  /\ contiguous 0 (record_length n) (las_record n).
Proof. exact exact_layout. Qed.
Print Assumptions C35_exact_layouts_match_the_specification.

Theorem C35_default_layouts_hold_the_attributes :
  forall n f x, format_new n = Ok f ->
  exists l, point_layout_from_las_point_format (with_extra_bytes f x) false = Ok l /\ las_type_layout n = Ok l
  /\ contiguous 0 (l_size l) (map described (l_attrs l))
  /\ (forall a, In a (map m_name (l_attrs l)) <-> In a (las_attribute_names n))
  /\ l_size l = nth n [35; 43; 41; 49; 72; 78; 46; 52; 54; 75; 83] 0 /\ l_align l = 1.
Proof. exact default_layout. Qed.
Print Assumptions C35_default_layouts_hold_the_attributes.

Theorem C35_eleven_formats : forall n, (exists f, format_new n = Ok f) <-> n <= 10.
Proof. intros n. split; [intros [f H]; exact (format_new_iff n f H)|exact (format_new_total n)]. Qed.
Print Assumptions C35_eleven_formats.

(* ---- C36 ---- *)
Theorem C36_record_length_refuted :
  exists f es l, format_new 0 = Ok f /\ (forall e, In e es -> documented (eb_dt e)) /\ described_bytes es <= 3
  /\ point_layout_from_las_metadata (with_extra_bytes f 3) (Some es) true = Ok l
  /\ l_size l <> record_length 0 + 3.
Proof.
  eexists. exists [mk_eb EbU8 0 (bytes_of "a") (repeat 0%Z 8) (repeat 0%Z 8) [] (repeat 0%Z 8) (repeat 0%Z 8) (repeat 0%Z 8)]. eexists.
  split; [reflexivity|]. split; [intros e [<-|[]]; exact I|]. split; [vm_compute; auto|]. split; [vm_compute; reflexivity|]. vm_compute. discriminate.
Qed.
Print Assumptions C36_record_length_refuted.

(* without extra bytes, whatever the VLR says *)
Theorem C36_no_extra_bytes_partial :
  forall n f es, format_new n = Ok f -> exists l, point_layout_from_las_metadata f es true = Ok l /\ l_size l = record_length n.
Proof. exact metadata_layout_no_extra. Qed.
Print Assumptions C36_no_extra_bytes_partial.

(* the exact size otherwise: the layout covers a record if and only if all extra bytes are described, or exactly half of them *)
Theorem C36_layout_with_extra_bytes_partial :
  forall n f x es,
  format_new n = Ok f -> 0 < x -> (Z.of_nat x < 2 ^ 16)%Z ->
  (forall e, In e es -> documented (eb_dt e)) ->
  NoDup (map (fun e => string_of_bytes (eb_name e)) es) ->
  (forall e, In e es -> ~ In (string_of_bytes (eb_name e)) ("UndescribedExtraBytes"%string :: map (fun t => fst (fst t)) (las_record n))) ->
  described_bytes es <= x ->
  exists l, point_layout_from_las_metadata (with_extra_bytes f x) (Some es) true = Ok l
  /\ l_size l = record_length n + described_bytes es + (if Nat.eqb (described_bytes es) x then 0 else described_bytes es)
  /\ map m_name (l_attrs l) = map (fun t => fst (fst t)) (las_record n) ++ map (fun e => string_of_bytes (eb_name e)) es
       ++ (if Nat.eqb (described_bytes es) x then [] else ["UndescribedExtraBytes"%string]).
Proof. exact metadata_layout. Qed.
Print Assumptions C36_layout_with_extra_bytes_partial.

(* names are taken from the file: a description called like a LAS field makes the reader panic *)
Theorem C36_name_clash_refuted :
  exists f e, format_new 0 = Ok f /\ documented (eb_dt e) /\ described_bytes [e] = 2
  /\ point_layout_from_las_metadata (with_extra_bytes f 2) (Some [e]) true = Panic.
Proof.
  eexists. exists (mk_eb EbU16 0 (bytes_of "Intensity") (repeat 0%Z 8) (repeat 0%Z 8) [] (repeat 0%Z 8) (repeat 0%Z 8) (repeat 0%Z 8)).
  split; [reflexivity|]. split; [exact I|]. split; vm_compute; reflexivity.
Qed.
Print Assumptions C36_name_clash_refuted.

Example C36_ex : exists f l, format_new 3 = Ok f
  /\ point_layout_from_las_metadata (with_extra_bytes f 9)
       (Some [mk_eb EbF64 0 (bytes_of "Height") (repeat 0%Z 8) (repeat 0%Z 8) [] (repeat 0%Z 8) (repeat 0%Z 8) (repeat 0%Z 8);
              mk_eb EbU8 0 (bytes_of "Echo") (repeat 0%Z 8) (repeat 0%Z 8) [] (repeat 0%Z 8) (repeat 0%Z 8) (repeat 0%Z 8)]) true = Ok l
  /\ l_size l = 43.
Proof. eexists. eexists. split; [reflexivity|]. split; vm_compute; reflexivity. Qed.

(* ---- C37 ---- *)
Theorem C37_valid_format_refuted :
  exists l, from_attributes [POSITION_3D; SCAN_ANGLE] = Ok l /\ format_to_u8 (las_point_format_from_point_layout l) = Err.
Proof. eexists. split; vm_compute; reflexivity. Qed.
Print Assumptions C37_valid_format_refuted.

Theorem C37_holds_every_attribute_refuted :
  exists l n s, from_attributes [POSITION_3D; SCAN_ANGLE_RANK; SCAN_ANGLE; GPS_TIME] = Ok l
  /\ format_to_u8 (las_point_format_from_point_layout l) = Ok n
  /\ In s known_las_attribute_names /\ asks l s /\ ~ In s (las_attribute_names n).
Proof.
  eexists. eexists. exists "ScanAngleRank"%string. split; [vm_compute; reflexivity|]. split; [vm_compute; reflexivity|].
  split; [vm_compute; tauto|]. split; [vm_compute; tauto|]. vm_compute. intuition discriminate.
Qed.
Print Assumptions C37_holds_every_attribute_refuted.

Theorem C37_layout_of_a_format :
  forall n l, n <= 10 -> las_type_layout n = Ok l ->
  format_to_u8 (las_point_format_from_point_layout l) = Ok n /\ format_new n = Ok (las_point_format_from_point_layout l).
Proof. exact format_of_layout. Qed.
Print Assumptions C37_layout_of_a_format.

(* which layouts get one of the eleven formats *)
Theorem C37_valid_format_partial :
  forall l, is_ok (format_to_u8 (las_point_format_from_point_layout l)) = true <->
  if_extended l (asks l "GpsTime"%string /\ (asks l "ColorRGB"%string -> asks_wave l -> asks l "NIR"%string)
                 /\ (asks l "NIR"%string -> asks l "ColorRGB"%string))
              (asks_wave l -> asks l "GpsTime"%string).
Proof. exact valid_format_iff. Qed.
Print Assumptions C37_valid_format_partial.

(* and then the format has every LAS attribute of the layout, except that an extended format has no scan angle rank *)
Theorem C37_holds_every_attribute_partial :
  forall l n s, format_to_u8 (las_point_format_from_point_layout l) = Ok n -> In s known_las_attribute_names ->
  In s (map m_name (l_attrs l)) -> ~ (s = "ScanAngleRank"%string /\ 6 <= n) ->
  n <= 10 /\ In s (las_attribute_names n).
Proof. exact format_holds_layout. Qed.
Print Assumptions C37_holds_every_attribute_partial.

Example C37_ex : exists l, from_attributes [INTENSITY; NIR; COLOR_RGB; GPS_TIME; WAVEFORM_PARAMETERS] = Ok l
  /\ format_to_u8 (las_point_format_from_point_layout l) = Ok 10.
Proof. eexists. split; vm_compute; reflexivity. Qed.

(* ---- C43 ---- *)
Theorem C43_record_round_trip_partial :
  forall e, entry_ok e -> storable e -> eb_of_raw (eb_to_raw e) = Ok e /\ length (eb_to_raw e) = 192.
Proof. intros e H S. split; [exact (raw_round_trip e H S)|exact (length_raw e H)]. Qed.
Print Assumptions C43_record_round_trip_partial.

Theorem C43_vlr_round_trip_partial :
  forall es, es <> [] -> length es <= 341 -> (forall e, In e es -> entry_ok e /\ storable e) ->
  exists v, eb_to_vlr es = Ok v /\ v_user v = "LASF_Spec"%string /\ v_record v = 4%Z /\ length (v_data v) = 192 * length es
  /\ eb_of_vlr v = Ok es.
Proof. exact vlr_round_trip. Qed.
Print Assumptions C43_vlr_round_trip_partial.

(* an empty description list is written but cannot be read *)
Theorem C43_empty_vlr_refuted : exists v, eb_to_vlr [] = Ok v /\ eb_of_vlr v = Panic.
Proof. eexists. split; vm_compute; reflexivity. Qed.
Print Assumptions C43_empty_vlr_refuted.

Theorem C43_type_codes :
  (forall v, is_byte v -> eb_to_u8 (eb_of_u8 v) = v)
  /\ (forall t, match t with EbDeprecated v => (11 <= v <= 30)%Z | EbReserved v => (31 <= v <= 255)%Z | _ => True end -> eb_of_u8 (eb_to_u8 t) = t).
Proof. split; [exact eb_code_decode|exact eb_decode_code]. Qed.
Print Assumptions C43_type_codes.

(* the data types are those of table 25 *)
Theorem C43_type_table :
  forall code, is_byte code -> let t := eb_of_u8 code in
  match extra_bytes_type code with
  | Some (d, n, k) => eb_datatype t = Ok d /\ eb_size t = Some n /\ dt_size d = n
      /\ (eb_is_unsigned t = true <-> k = Unsigned) /\ (eb_is_signed t = true <-> k = Signed) /\ (eb_is_floating_point t = true <-> k = Floating)
  | None => eb_datatype t = Err /\ eb_size t = None /\ eb_is_unsigned t = false /\ eb_is_signed t = false /\ eb_is_floating_point t = false
  end.
Proof. exact type_table. Qed.
Print Assumptions C43_type_table.

Theorem C43_type_codes_refuted : exists t, is_byte (eb_to_u8 t) /\ eb_of_u8 (eb_to_u8 t) <> t.
Proof. exists (EbDeprecated 5). split; [vm_compute; split; congruence|discriminate]. Qed.
Print Assumptions C43_type_codes_refuted.

(* what the builder set is what the entry has: the last call counts, and a value is marked as relevant iff it was set *)
Theorem C43_builder :
  forall t name description calls, let e := eb_build t name description calls in
  eb_dt e = t /\ eb_name e = name /\ eb_description e = description
  /\ eb_scale e = or_zeros (last_set scale_arg calls) /\ eb_offset e = or_zeros (last_set offset_arg calls)
  /\ eb_min e = or_zeros (last_set min_arg calls) /\ eb_max e = or_zeros (last_set max_arg calls)
  /\ eb_no_data e = or_zeros (last_set no_data_arg calls)
  /\ opt_get (eb_options e) BIT_SCALE = is_some (last_set scale_arg calls)
  /\ opt_get (eb_options e) BIT_OFFSET = is_some (last_set offset_arg calls)
  /\ opt_get (eb_options e) BIT_MIN = is_some (last_set min_arg calls)
  /\ opt_get (eb_options e) BIT_MAX = is_some (last_set max_arg calls)
  /\ opt_get (eb_options e) BIT_NO_DATA = is_some (last_set no_data_arg calls).
Proof. exact built_entry. Qed.
Print Assumptions C43_builder.

Theorem C43_scale_offset_accessors :
  forall t name description calls, let e := eb_build t name description calls in
  eb_get_scale e = last_set scale_arg calls /\ eb_get_offset e = last_set offset_arg calls.
Proof. exact built_scale_offset. Qed.
Print Assumptions C43_scale_offset_accessors.

Theorem C43_integer_accessors :
  forall e v, (eb_is_unsigned (eb_dt e) = true -> as_unsigned e (le_enc 8 v) = Ok (v mod 2 ^ 64)%Z)
  /\ (eb_is_signed (eb_dt e) = true -> (- 2 ^ 63 <= v < 2 ^ 63)%Z -> as_signed e (le_enc 8 v) = Ok v).
Proof. exact integer_accessors. Qed.
Print Assumptions C43_integer_accessors.

(* but no float value can be read, for any entry of a float type, and showing one panics *)
Theorem C43_float_accessors_refuted :
  (exists e, eb_is_floating_point (eb_dt e) = true /\ entry_ok e /\ storable e)
  /\ forall e v, eb_is_floating_point (eb_dt e) = true -> as_float e v = Err.
Proof. split; [exists (eb_new EbF64 (bytes_of "h") []); split; [reflexivity|exact float_entry_ok]|exact float_accessors_fail]. Qed.
Print Assumptions C43_float_accessors_refuted.

Theorem C43_display_refuted :
  (forall e, eb_is_floating_point (eb_dt e) = true ->
    (opt_get (eb_options e) BIT_MIN || opt_get (eb_options e) BIT_MAX || opt_get (eb_options e) BIT_NO_DATA = true)%bool ->
    eb_display e = Panic)
  /\ exists v, eb_display (eb_build EbF64 (bytes_of "h") [] [SetMin v]) = Panic.
Proof. split; [exact display_panics|exists (repeat 0%Z 8); vm_compute; reflexivity]. Qed.
Print Assumptions C43_display_refuted.

Theorem C43_display_partial : forall e, eb_is_floating_point (eb_dt e) = false -> exists s, eb_display e = Ok s.
Proof. exact display_total. Qed.
Print Assumptions C43_display_partial.

Example C43_ex : let e := eb_build EbI32 (bytes_of "Height") (bytes_of "above ground") [SetScale (repeat 1%Z 8); SetMin (le_enc 8 (-5))] in
  eb_of_raw (eb_to_raw e) = Ok e /\ as_signed e (eb_min e) = Ok (-5)%Z /\ eb_get_offset e = None.
Proof. vm_compute. auto. Qed.

(* ---- C44 ---- *)
Theorem C44_fitting_strings_survive :
  forall s N, utf8_valid s = true -> length s <= N ->
  stored_string s N = Ok (before_nul s) /\ (~ In 0%Z s -> stored_string s N = Ok s).
Proof. intros s N V L. split; [exact (string_fits s N V L)|]. intros H. rewrite (string_fits s N V L), (before_nul_id s H). reflexivity. Qed.
Print Assumptions C44_fitting_strings_survive.

Theorem C44_never_unreadable_refuted :
  exists s N, utf8_valid s = true /\ stored_string s N = Err.
Proof. exists [195; 169]%Z, 1. split; vm_compute; reflexivity. Qed.
Print Assumptions C44_never_unreadable_refuted.

(* a string that is too long comes back as a prefix if the cut is between two characters (or after a NUL), and only then *)
Theorem C44_long_strings_partial :
  forall s N, utf8_valid s = true -> N <= length s ->
  (char_boundary s N \/ In 0%Z (firstn N s) -> stored_string s N = Ok (before_nul (firstn N s)))
  /\ (~ char_boundary s N -> ~ In 0%Z (firstn N s) -> stored_string s N = Err).
Proof. intros s N V L. split; [exact (string_cut_ok s N V L)|exact (string_cut_err s N V L)]. Qed.
Print Assumptions C44_long_strings_partial.

Theorem C44_before_nul_is_a_prefix : forall s, exists r, s = before_nul s ++ r.
Proof. exact before_nul_prefix. Qed.
Print Assumptions C44_before_nul_is_a_prefix.

Example C44_ex : stored_string (bytes_of "Height above ground, in metres, of the point") 32 = Ok (bytes_of "Height above ground, in metres, ")
  /\ stored_string [226; 130; 172; 49]%Z 8 = Ok [226; 130; 172; 49]%Z.
Proof. split; vm_compute; reflexivity. Qed.

(* ---- C45 ---- *)
Theorem C45_kind_by_extension :
  forall stem ext, stem <> EmptyString -> ext <> EmptyString -> no_dot ext ->
  (same_up_to_case ext "las" \/ same_up_to_case ext "laz" -> get_extension_lookup (named stem ext) = Ok KindLas)
  /\ (same_up_to_case ext "pnts" -> get_extension_lookup (named stem ext) = Ok KindTiles3D)
  /\ (~ same_up_to_case ext "las" -> ~ same_up_to_case ext "laz" -> ~ same_up_to_case ext "pnts" -> get_extension_lookup (named stem ext) = Err).
Proof. exact kind_of_named. Qed.
Print Assumptions C45_kind_by_extension.

Theorem C45_no_extension : forall name, no_dot name -> get_extension_lookup name = Err /\ path_is_compressed_las_file name = Err.
Proof. exact no_extension. Qed.
Print Assumptions C45_no_extension.

Theorem C45_compressed_refuted :
  exists name, get_extension_lookup name = Ok KindLas /\ path_is_compressed_las_file name = Ok false
  /\ exists stem ext, name = named stem ext /\ same_up_to_case ext "laz".
Proof. exists "a.LAZ"%string. split; [reflexivity|]. split; [reflexivity|]. exists "a"%string, "LAZ"%string. split; [reflexivity|].
  unfold same_up_to_case, same_letter. vm_compute. intuition lia. Qed.
Print Assumptions C45_compressed_refuted.

Theorem C45_compressed_partial :
  forall stem ext, stem <> EmptyString -> ext <> EmptyString -> no_dot ext ->
  path_is_compressed_las_file (named stem ext) = Ok (String.eqb ext "laz").
Proof. exact compressed_of_named. Qed.
Print Assumptions C45_compressed_partial.

Example C45_ex : get_extension_lookup "scan.v2.LaS" = Ok KindLas /\ path_is_compressed_las_file "scan.laz" = Ok true /\ get_extension_lookup ".las" = Err.
Proof. repeat split. Qed.
