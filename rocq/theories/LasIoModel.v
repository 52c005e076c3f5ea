(* Reading and writing the point records of LAS and LAZ files
   (pasture-io/src/las/{raw_readers,raw_writers,read_helpers,write_helpers}.rs, pasture-io/src/base/{mod,reader,seek}.rs). Definitions only.

   The header and the VLRs are read and written by the external crate las, records are compressed and decompressed by the external crate
   laz. Here a file is a header record and the bytes from the first point record on; for LAZ these are the bytes of the uncompressed records.
   Files have version 1.4 (with the large_file counts). Errors of the operating system are not modelled, only reading past the end. *)
From Coq Require Import String List ZArith Bool Arith SpecFloat.
From Verif Require Import Base LayoutModel BufferModel TraitModel NumModel ConvModel MathModel LasModel.
Import ListNotations.
Set Implicit Arguments.
Open Scope nat_scope.

(* scale and offset of the three axes, las::Transform *)
Record transforms : Type := mk_tr { t_scale : p3 spec_float; t_offset : p3 spec_float }.

(* The fields of las::raw::Header that are used. Counts are u64 and u32 numbers. h_entries: the Extra Bytes VLR. *)
Record las_header : Type := mk_header {
  h_format : format; h_entries : option (list eb_entry); h_tr : transforms;
  h_total : Z; h_returns : list Z;                (* large_file: number_of_point_records, number_of_points_by_return *)
  h_legacy_total : Z; h_legacy_returns : list Z;  (* number_of_point_records, number_of_points_by_return *)
  h_min : p3 spec_float; h_max : p3 spec_float }.
(* point_data_record_length *)
Definition h_record_length (h : las_header) : nat := format_len (h_format h).

(* A file: its header and what follows offset_to_point_data *)
Record las_file : Type := mk_file { f_laz : bool; f_header : las_header; f_data : list Z }.

(* ------------------------------------------------------------------ writing one record *)

(* `((p - offset) / scale) as i64` and try_into::<i32>().expect(..), write_helpers.rs:15-17 *)
Definition local_coordinate (p offset scale : spec_float) : res Z :=
  match as_cast PI64 (NFlt (f64_div (f64_sub p offset) scale)) with
  | NInt v => if ((- 2 ^ 31 <=? v) && (v <? 2 ^ 31))%Z then Ok v else Panic
  | NFlt _ => Panic
  end.
(* write_position_as_las_position, write_helpers.rs:10-23: the bytes written *)
Definition write_position_as_las_position (t : transforms) (p : p3 spec_float) : res (list Z) :=
  let* x := local_coordinate (px p) (px (t_offset t)) (px (t_scale t)) in
  let* y := local_coordinate (py p) (py (t_offset t)) (py (t_scale t)) in
  let* z := local_coordinate (pz p) (pz (t_offset t)) (pz (t_scale t)) in
  Ok (enc_num PI32 (NInt x) ++ enc_num PI32 (NInt y) ++ enc_num PI32 (NInt z)).

(* The values read from a point before they are written: the local variables of raw_writers.rs:221-331 and the results of the readers in
   raw_writers.rs:458-573, as bytes *)
Record las_values : Type := mk_values {
  v_position : list Z; v_intensity : list Z; v_return_number : list Z; v_number_of_returns : list Z; v_classification_flags : list Z;
  v_scanner_channel : list Z; v_scan_direction_flag : list Z; v_edge_of_flight_line : list Z; v_classification : list Z;
  v_user_data : list Z; v_scan_angle : list Z; v_point_source_id : list Z; v_gps_time : list Z; v_color : list Z; v_nir : list Z;
  v_wave_descriptor : list Z; v_wave_offset : list Z; v_wave_size : list Z; v_wave_location : list Z; v_wave_parameters : list Z }.

(* The writes of raw_writers.rs:226-331 and 460-573 (LAS) and of 747-857 and 996-1104 (LAZ): the bytes of one record *)
Definition write_record (f : format) (t : transforms) (v : las_values) : res (list Z) :=
  let* position := write_position_as_las_position t (vec3_f64 (v_position v)) in
  Ok (position ++ v_intensity v
      ++ write_las_bit_attributes
           (if is_extended f
            then Extended (le_dec (v_return_number v)) (le_dec (v_number_of_returns v)) (le_dec (v_classification_flags v))
                          (le_dec (v_scanner_channel v)) (le_dec (v_scan_direction_flag v)) (le_dec (v_edge_of_flight_line v))
            else Regular (le_dec (v_return_number v)) (le_dec (v_number_of_returns v))
                         (le_dec (v_scan_direction_flag v)) (le_dec (v_edge_of_flight_line v)))
      ++ v_classification v
      ++ (if is_extended f then v_user_data v ++ v_scan_angle v else v_scan_angle v ++ v_user_data v)
      ++ v_point_source_id v
      ++ (if has_gps_time f then v_gps_time v else [])
      ++ (if has_color f then v_color v else [])
      ++ (if has_nir f then v_nir v else [])
      ++ (if has_waveform f
          then v_wave_descriptor v ++ v_wave_offset v ++ v_wave_size v ++ v_wave_location v ++ v_wave_parameters v else [])).

(* Cursor::read_exact of n bytes *)
Definition rd (n : nat) (c : list Z) : res (list Z * list Z) :=
  if Nat.leb n (length c) then Ok (firstn n c, skipn n c) else Err.
Definition rd_if (b : bool) (n : nat) (c : list Z) : res (list Z * list Z) := if b then rd n c else Ok ([], c).

(* The reads of one point in the default layout, raw_writers.rs:222-322 and LAZ 743-847: extra bytes are not read *)
Definition read_default_values (f : format) (c : list Z) : res (las_values * list Z) :=
  let* '(pos, c) := rd 24 c in
  let* '(intensity, c) := rd 2 c in
  let* '(rn, c) := rd 1 c in
  let* '(nr, c) := rd 1 c in
  let* '(cf, c) := rd_if (is_extended f) 1 c in
  let* '(sc, c) := rd_if (is_extended f) 1 c in
  let* '(sdf, c) := rd 1 c in
  let* '(eof, c) := rd 1 c in
  let* '(cl, c) := rd 1 c in
  let* '(user1, c) := rd_if (is_extended f) 1 c in
  let* '(angle, c) := rd (if is_extended f then 2 else 1) c in
  let* '(user2, c) := rd_if (negb (is_extended f)) 1 c in
  let* '(source, c) := rd 2 c in
  let* '(gps, c) := rd_if (has_gps_time f) 8 c in
  let* '(color, c) := rd_if (has_color f) 6 c in
  let* '(nir, c) := rd_if (has_nir f) 2 c in
  let* '(wd, c) := rd_if (has_waveform f) 1 c in
  let* '(wo, c) := rd_if (has_waveform f) 8 c in
  let* '(ws, c) := rd_if (has_waveform f) 4 c in
  let* '(wl, c) := rd_if (has_waveform f) 4 c in
  let* '(wp, c) := rd_if (has_waveform f) 12 c in
  Ok (mk_values pos intensity rn nr cf sc sdf eof cl (user1 ++ user2) angle source gps color nir wd wo ws wl wp, c).
(* n points, one after the other *)
Fixpoint read_default_points (f : format) (n : nat) (c : list Z) : res (list las_values) :=
  match n with
  | 0 => Ok []
  | S n => let* '(v, c) := read_default_values f c in let* vs := read_default_points f n c in Ok (v :: vs)
  end.

(* get_.._reader and calling the reader, read_helpers.rs:23-303 and make_get_reader_fn 305-347: the value of attribute a of point i in the
   chunk. Simplification: the reader is made when it is used; the writers make all of them before the first point. *)
Definition read_attribute (l : layout) (a : attr_def) (chunk : list Z) (i : nat) : res (list Z) :=
  match get_attribute_by_name l (ad_name a) with
  | None => Ok (repeat 0%Z (dt_size (ad_type a)))
  | Some m =>
      let start := i * l_size l + m_offset m in
      if datatype_eqb (m_type m) (ad_type a) then
        if Nat.leb (start + dt_size (ad_type a)) (length chunk) then Ok (sub chunk start (dt_size (ad_type a))) else Err
      else
        let* o := get_converter_for_attributes (m_def m) a in
        match o with
        | None => Panic
        | Some c => let* s := slice_get chunk start (start + m_size m) in Ok (conv_into c s (repeat 0%Z (dt_size (ad_type a))))
        end
  end.
Definition read_attribute_if (b : bool) (l : layout) (a : attr_def) (chunk : list Z) (i : nat) : res (list Z) :=
  if b then read_attribute l a chunk i else Ok [].
(* The reads of one point in a custom layout, raw_writers.rs:376-437 and 458-573, LAZ 913-... *)
Definition read_custom_values (f : format) (l : layout) (chunk : list Z) (i : nat) : res las_values :=
  let get a := read_attribute l a chunk i in
  let get_if b a := read_attribute_if b l a chunk i in
  let* pos := get POSITION_3D in
  let* intensity := get INTENSITY in
  let* rn := get RETURN_NUMBER in
  let* nr := get NUMBER_OF_RETURNS in
  let* cf := get_if (is_extended f) CLASSIFICATION_FLAGS in
  let* sc := get_if (is_extended f) SCANNER_CHANNEL in
  let* sdf := get SCAN_DIRECTION_FLAG in
  let* eof := get EDGE_OF_FLIGHT_LINE in
  let* cl := get CLASSIFICATION in
  let* user := get USER_DATA in
  let* angle := get (if is_extended f then SCAN_ANGLE else SCAN_ANGLE_RANK) in
  let* source := get POINT_SOURCE_ID in
  let* gps := get_if (has_gps_time f) GPS_TIME in
  let* color := get_if (has_color f) COLOR_RGB in
  let* nir := get_if (has_nir f) NIR in
  let* wd := get_if (has_waveform f) WAVE_PACKET_DESCRIPTOR_INDEX in
  let* wo := get_if (has_waveform f) WAVEFORM_DATA_OFFSET in
  let* ws := get_if (has_waveform f) WAVEFORM_PACKET_SIZE in
  let* wl := get_if (has_waveform f) RETURN_POINT_WAVEFORM_LOCATION in
  let* wp := get_if (has_waveform f) WAVEFORM_PARAMETERS in
  Ok (mk_values pos intensity rn nr cf sc sdf eof cl user angle source gps color nir wd wo ws wl wp).

(* ------------------------------------------------------------------ the header while writing *)

Definition with_bounds (h : las_header) (mn mx : p3 spec_float) : las_header :=
  mk_header (h_format h) (h_entries h) (h_tr h) (h_total h) (h_returns h) (h_legacy_total h) (h_legacy_returns h) mn mx.
Definition with_counts (h : las_header) (total : Z) (returns : list Z) : las_header :=
  mk_header (h_format h) (h_entries h) (h_tr h) total returns (h_legacy_total h) (h_legacy_returns h) (h_min h) (h_max h).
Definition with_legacy (h : las_header) (total : Z) (returns : list Z) : las_header :=
  mk_header (h_format h) (h_entries h) (h_tr h) (h_total h) (h_returns h) total returns (h_min h) (h_max h).

(* update_bounds_in_las_header, raw_writers.rs:28-47 *)
Definition update_bounds_in_las_header (p : p3 spec_float) (h : las_header) : las_header :=
  let mn := h_min h in
  let mx := h_max h in
  let lower (x m : spec_float) := if lt f64_cmp x m then x else m in
  let higher (x m : spec_float) := if gt f64_cmp x m then x else m in
  with_bounds h (mk_p3 (lower (px p) (px mn)) (lower (py p) (py mn)) (lower (pz p) (pz mn)))
                (mk_p3 (higher (px p) (px mx)) (higher (py p) (py mx)) (higher (pz p) (pz mx))).

(* points_by_return: a map from 1..15 to counters, here the list of the counters (raw_writers.rs:201-209, 233-235) *)
Definition no_returns : list Z := repeat 0%Z 15.
Definition count_return (counts : list Z) (rn : Z) : list Z :=
  if ((1 <=? rn) && (rn <=? 15))%Z
  then let i := Z.to_nat (rn - 1) in firstn i counts ++ [(nth i counts 0 + 1)%Z] ++ skipn (i + 1) counts
  else counts.
(* update_point_counts_in_las_header, raw_writers.rs:50-66 *)
Definition update_point_counts_in_las_header (n : nat) (counts : list Z) (h : las_header) : las_header :=
  with_counts h (h_total h + Z.of_nat n)%Z (map (fun p => (fst p + snd p)%Z) (combine (h_returns h) counts)).
(* finalize_las_header, raw_writers.rs:69-92 *)
Definition finalize_las_header (h : las_header) : las_header :=
  if (2 ^ 32 - 1 <? h_total h)%Z then h
  else match format_to_u8 (h_format h) with
       | Ok n => if Nat.ltb 5 n then h
                 else with_legacy h (h_total h mod 2 ^ 32)%Z (map (fun c => (c mod 2 ^ 32)%Z) (firstn 5 (h_returns h)))
       | _ => h
       end.

(* ------------------------------------------------------------------ writers *)

(* RawLASWriter and RawLAZWriter, raw_writers.rs:94-101, 616-622. w_file: the header at the start of the file; w_data and w_position: the
   bytes from offset_to_point_data on and the position of the stream in them (LAZ: the records given to the compressor); w_evlrs: the bytes
   of the extended VLRs. *)
Record las_writer : Type := mk_writer {
  w_laz : bool; w_default_layout : layout; w_header : las_header; w_evlrs : list Z; w_requires_flush : bool;
  w_file : las_header; w_data : list Z; w_position : nat }.

(* bytes written to a stream that contains data, at a position inside of it *)
Definition put (data : list Z) (pos : nat) (bytes : list Z) : list Z := firstn pos data ++ bytes ++ skipn (pos + length bytes) data.

Definition is_zero (x : spec_float) : bool := SFeqb x (S754_zero false).

(* from_write_and_header, raw_writers.rs:104-155 and 625-698. Not modelled: large VLRs, VLR padding, errors of the crates las and laz. *)
Definition open_writer (laz : bool) (f : format) (entries : option (list eb_entry)) (t : transforms) (evlrs : list Z) : res las_writer :=
  let* l := point_layout_from_las_metadata f entries false in
  let* _ := assert (negb laz || Nat.eqb (extra_bytes f) 0) in
  if is_zero (px (t_scale t)) || is_zero (py (t_scale t)) || is_zero (pz (t_scale t)) then Err
  else
    let lowest := if laz then S754_infinity true else F64_MIN in
    let highest := if laz then S754_infinity false else F64_MAX in
    let h := mk_header f entries t 0 no_returns 0 (repeat 0%Z 5) (mk_p3 highest highest highest) (mk_p3 lowest lowest lowest) in
    Ok (mk_writer laz l h evlrs (negb laz) h [] 0).

(* One point: the record is appended to the bytes written so far, bounds and counters are updated. Points of a custom layout are not counted
   (raw_writers.rs:221-331, 458-573). *)
Definition write_values (custom : bool) (st : list Z * las_header * list Z) (v : las_values) : res (list Z * las_header * list Z) :=
  let '(out, h, counts) := st in
  let* r := write_record (h_format h) (h_tr h) v in
  Ok (out ++ r, update_bounds_in_las_header (vec3_f64 (v_position v)) h,
      if custom then counts else count_return counts (le_dec (v_return_number v))).

(* What becomes of the records of a chunk of n points. LAS: they are written to the stream. LAZ: they are written to the start of
   las_point_buffer, of which n records are compressed (raw_writers.rs:860-864), in a custom layout num_points_in_chunk records
   (raw_writers.rs:1106-1110). *)
Definition store_chunk (laz custom : bool) (num_points_in_chunk record_length n : nat) (buffer out : list Z) : res (list Z * list Z) :=
  if laz then
    let buffer := out ++ skipn (length out) buffer in
    let* bytes := slice_get buffer 0 ((if custom then num_points_in_chunk else n) * record_length) in
    Ok (bytes, buffer)
  else Ok (out, buffer).

(* State of the loop over the chunks: chunk_buffer, las_point_buffer, stored bytes, header, counters *)
Definition write_chunk (laz custom : bool) (chunk : nat) (points : buffer)
           (st : list Z * list Z * list Z * las_header * list Z) (k : nat) : res (list Z * list Z * list Z * las_header * list Z) :=
  let '(chunk_buffer, las_point_buffer, stored, h, counts) := st in
  let size := l_size (bf_layout points) in
  let n := Nat.min chunk (bf_len points - k * chunk) in
  let start := k * chunk in
  let* dst := slice_get chunk_buffer 0 (n * size) in
  let* bytes := bf_get_point_range points start (start + n) dst in
  let chunk_buffer := blit chunk_buffer 0 bytes in
  let* values := (if custom then mapM (read_custom_values (h_format h) (bf_layout points) chunk_buffer) (range 0 n)
                  else read_default_points (h_format h) n chunk_buffer) in
  let* '(out, h, counts) := foldM (write_values custom) values ([], h, counts) in
  let* '(bytes, las_point_buffer) := store_chunk laz custom chunk (h_record_length h) n las_point_buffer out in
  Ok (chunk_buffer, las_point_buffer, stored ++ bytes, h, counts).

(* write_points_default_layout and write_points_custom_layout, raw_writers.rs:184-344, 346-584, 708-875, 877-1122. chunk is
   num_points_in_chunk = 50_000. Simplification: the stream is written at the end of the call instead of field by field. *)
Definition write_points (chunk : nat) (custom : bool) (w : las_writer) (points : buffer) : res las_writer :=
  if Nat.eqb (bf_len points) 0 then Ok w
  else
    let num_chunks := (bf_len points + (chunk - 1)) / chunk in
    let* '(_, _, stored, h, counts) :=
      foldM (write_chunk (w_laz w) custom chunk points) (range 0 num_chunks)
            (repeat 0%Z (chunk * l_size (bf_layout points)), repeat 0%Z (chunk * h_record_length (w_header w)), [], w_header w, no_returns) in
    Ok (mk_writer (w_laz w) (w_default_layout w) (update_point_counts_in_las_header (bf_len points) counts h) (w_evlrs w) true
                  (w_file w) (put (w_data w) (w_position w) stored) (w_position w + length stored)).

(* write, raw_writers.rs:587-593, 1156-1162 *)
Definition las_write (chunk : nat) (w : las_writer) (points : buffer) : res las_writer :=
  write_points chunk (negb (layout_eqb (bf_layout points) (w_default_layout w))) w points.

(* flush, raw_writers.rs:596-609 with write_header 165-174 and write_evlrs 177-183; LAZ do_flush 1148-1152: the extended VLRs follow the
   compressed records, here they are not part of w_data. *)
Definition las_flush (w : las_writer) : las_writer :=
  if negb (w_laz w) && negb (w_requires_flush w) then w
  else
    let h := finalize_las_header (w_header w) in
    mk_writer (w_laz w) (w_default_layout w) h (w_evlrs w) (if w_laz w then w_requires_flush w else false) h
              (if w_laz w then w_data w else put (w_data w) (w_position w) (w_evlrs w)) (w_position w).

(* The file behind a writer *)
Definition writer_file (w : las_writer) : las_file := mk_file (w_laz w) (w_file w) (w_data w).

(* ------------------------------------------------------------------ readers *)

(* RawLASReader and RawLAZReader, raw_readers.rs:177-185, 418-425. r_position: position of the stream relative to the first record, in bytes. *)
Record las_reader : Type := mk_reader {
  r_file : las_file; r_layout : layout; r_exact_layout : layout; r_index : nat; r_position : nat }.
Definition r_size (r : las_reader) : nat := h_record_length (f_header (r_file r)).
(* metadata.point_count() *)
Definition r_count (r : las_reader) : nat := Z.to_nat (h_total (f_header (r_file r))).
Definition with_index (r : las_reader) (i : nat) : las_reader :=
  mk_reader (r_file r) (r_layout r) (r_exact_layout r) i (r_position r).
Definition with_position (r : las_reader) (p : nat) : las_reader :=
  mk_reader (r_file r) (r_layout r) (r_exact_layout r) (r_index r) p.

(* from_read, raw_readers.rs:193-240, 428-485. Not modelled: errors of the crates las and laz. *)
Definition open_reader (f : las_file) (exact : bool) : res las_reader :=
  let fmt := h_format (f_header f) in
  if f_laz f && is_extended fmt && has_waveform fmt then Err
  else
    let* l := point_layout_from_las_metadata fmt (h_entries (f_header f)) exact in
    let* el := point_layout_from_las_metadata fmt (h_entries (f_header f)) true in
    Ok (mk_reader f l el 0 0).

(* read_exact; LAZ: decompress_many (external crate laz, trusted: gives the next records) *)
Definition read_exact (r : las_reader) (n : nat) : res (list Z * las_reader) :=
  if Nat.leb (r_position r + n) (length (f_data (r_file r)))
  then Ok (sub (f_data (r_file r)) (r_position r) n, with_position r (r_position r + n))
  else Err.

(* remaining_points, raw_readers.rs:355-357 *)
Definition remaining_points (r : las_reader) : res nat :=
  let* _ := assert (Nat.leb (r_index r) (r_count r)) in Ok (r_count r - r_index r).

(* read_into_default_layout, raw_readers.rs:247-297, 491-539. chunk is CHUNK_MEM_SIZE = 1 << 20. *)
Definition read_into_default_layout (chunk : nat) (r : las_reader) (b : mbuf) (count : nat) : res (mbuf * las_reader * nat) :=
  let* remaining := remaining_points r in
  let n := Nat.min count remaining in
  if Nat.eqb n 0 then Ok (b, r, 0)
  else
    let* '(b, r) :=
      (if negb (mb_is_columnar b) then
         let* dst := mb_get_point_range_ref b 0 n in
         let* '(bytes, r) := read_exact r (length dst) in
         let* b := mb_modify_point_range b 0 n (fun _ => Ok bytes) in
         Ok (b, r)
       else
         let* _ := assert (negb (Nat.eqb (r_size r) 0)) in
         let per := chunk / r_size r in
         let* _ := assert (negb (Nat.eqb per 0)) in
         let num_chunks := (n + per - 1) / per in
         foldM (fun st k =>
                  let '(b, r) := st in
                  let bytes_in_chunk := if Nat.eqb k (num_chunks - 1) then (n - k * per) * r_size r else per * r_size r in
                  let* '(bytes, r) := read_exact r bytes_in_chunk in
                  let* b := mb_set_point_range b (k * per) (Nat.min ((k + 1) * per) n) bytes in
                  Ok (b, r)) (range 0 num_chunks) (b, r)) in
    Ok (b, with_index r (r_index r + n), n).

(* the closures on positions, raw_readers.rs:41-58, on the bytes of a Vector3<f64> and of a Vector3<f32> *)
Definition f64_of (bs : list Z) : spec_float := match dec_num PF64 bs with NFlt f => f | NInt _ => S754_nan end.
Definition f32_of (bs : list Z) : spec_float := match dec_num PF32 bs with NFlt f => f | NInt _ => S754_nan end.
Definition f32_to_f64 (x : spec_float) : spec_float := match as_cast PF64 (NFlt x) with NFlt f => f | NInt _ => S754_nan end.
Definition to_world_f64 (t : transforms) (bs : list Z) : list Z :=
  let axis k scale offset := enc_num PF64 (NFlt (f64_add (f64_mul (f64_of (sub bs (k * 8) 8)) scale) offset)) in
  axis 0 (px (t_scale t)) (px (t_offset t)) ++ axis 1 (py (t_scale t)) (py (t_offset t)) ++ axis 2 (pz (t_scale t)) (pz (t_offset t)).
Definition to_world_f32 (t : transforms) (bs : list Z) : list Z :=
  let axis k scale offset :=
    enc_num PF32 (as_cast PF32 (NFlt (f64_add (f64_mul (f32_to_f64 (f32_of (sub bs (k * 4) 4))) scale) offset))) in
  axis 0 (px (t_scale t)) (px (t_offset t)) ++ axis 1 (py (t_scale t)) (py (t_offset t)) ++ axis 2 (pz (t_scale t)) (pz (t_offset t)).

(* one `if let Some(attribute) = target_layout.get_attribute_by_name(..) { converter.set_custom_mapping_with_transformation(..) }` *)
Definition map_flags (target : layout) (t : datatype) (from : attr_def) (field : Z -> Z -> list Z -> list Z)
           (c : converter) (e : attr_def * Z * Z) : res converter :=
  let '(a, shift, mask) := e in
  match get_attribute_by_name target (ad_name a) with
  | Some m => set_custom_mapping_with_transformation c t from (m_def m) (field shift mask) true
  | None => Ok c
  end.
(* get_default_las_converter, raw_readers.rs:31-167 *)
Definition get_default_las_converter (raw target : layout) (t : transforms) : res converter :=
  let* c := for_layouts_with_default raw target in
  let* c := (match get_attribute_by_name target (ad_name POSITION_3D) with
             | Some m =>
                 match m_type m with
                 | Vec3f64 => set_custom_mapping_with_transformation c Vec3f64 ATTRIBUTE_LOCAL_LAS_POSITION (m_def m) (to_world_f64 t) false
                 | Vec3f32 => set_custom_mapping_with_transformation c Vec3f32 ATTRIBUTE_LOCAL_LAS_POSITION (m_def m) (to_world_f32 t) false
                 | _ => Err
                 end
             | None => Ok c
             end) in
  if has_attribute raw ATTRIBUTE_BASIC_FLAGS then
    foldM (map_flags target U8 ATTRIBUTE_BASIC_FLAGS basic_field)
          [(RETURN_NUMBER, 0, 7); (NUMBER_OF_RETURNS, 3, 7); (SCAN_DIRECTION_FLAG, 6, 1); (EDGE_OF_FLIGHT_LINE, 7, 1)]%Z c
  else
    foldM (map_flags target U16 ATTRIBUTE_EXTENDED_FLAGS extended_field)
          [(RETURN_NUMBER, 0, 15); (NUMBER_OF_RETURNS, 4, 15); (CLASSIFICATION_FLAGS, 8, 15); (SCANNER_CHANNEL, 12, 3);
           (SCAN_DIRECTION_FLAG, 14, 1); (EDGE_OF_FLIGHT_LINE, 15, 1)]%Z c.

(* The result of read_into: Ok(n), or the error "Unsupported conversion". Other errors are Err. *)
Inductive read_result : Type := ReadPoints (n : nat) | Unsupported.

(* RawLASReader::read_into_custom_layout, raw_readers.rs:299-352. chunk is CHUNK_BYTES = 1 << 20. *)
Definition read_into_custom_layout_las (chunk : nat) (r : las_reader) (b : mbuf) (count : nat) : res (mbuf * las_reader * read_result) :=
  let* remaining := remaining_points r in
  let n := Nat.min count remaining in
  if Nat.eqb n 0 then Ok (b, r, ReadPoints 0)
  else
    let* _ := assert (negb (Nat.eqb (l_size (r_exact_layout r)) 0)) in
    let per := chunk / l_size (r_exact_layout r) in
    let* _ := assert (negb (Nat.eqb per 0)) in
    let num_chunks := (n + per - 1) / per in
    let size_of_chunk := if Nat.ltb 1 num_chunks then per else n in
    let convert_buffer := VecB (vb_resize (vb_new (r_exact_layout r)) size_of_chunk) in
    match get_default_las_converter (r_exact_layout r) (mb_layout b) (h_tr (f_header (r_file r))) with
    | Panic => Panic
    | Err => Ok (b, r, Unsupported)
    | Ok converter =>
        let* '(_, b, r) :=
          foldM (fun st k =>
                   let '(cb, b, r) := st in
                   let points := if Nat.eqb k (num_chunks - 1) then n - (num_chunks - 1) * size_of_chunk else size_of_chunk in
                   let* '(cb, r, _) := read_into_default_layout chunk r cb points in
                   let first := k * size_of_chunk in
                   let* b := convert_into_range converter (Of cb) 0 points b first (first + points) in
                   Ok (cb, b, r)) (range 0 num_chunks) (convert_buffer, b, r) in
        Ok (b, r, ReadPoints n)
    end.
(* RawLAZReader::read_into_custom_layout, raw_readers.rs:541-570: the points are read before the converter is made *)
Definition read_into_custom_layout_laz (chunk : nat) (r : las_reader) (b : mbuf) (count : nat) : res (mbuf * las_reader * read_result) :=
  let* remaining := remaining_points r in
  let n := Nat.min count remaining in
  if Nat.eqb n 0 then Ok (b, r, ReadPoints 0)
  else
    let convert_buffer := VecB (vb_resize (vb_new (r_exact_layout r)) n) in
    let* '(convert_buffer, r, _) := read_into_default_layout chunk r convert_buffer n in
    match get_default_las_converter (r_exact_layout r) (mb_layout b) (h_tr (f_header (r_file r))) with
    | Panic => Panic
    | Err => Ok (b, r, Unsupported)
    | Ok converter => let* b := convert_into converter (Of convert_buffer) b in Ok (b, r, ReadPoints n)
    end.

(* read_into, raw_readers.rs:366-383, 586-603 *)
Definition las_read_into (chunk : nat) (r : las_reader) (b : mbuf) (count : nat) : res (mbuf * las_reader * read_result) :=
  let* _ := assert (Nat.leb count (mb_len b)) in
  if negb (layout_eqb (mb_layout b) (r_exact_layout r)) then
    (if f_laz (r_file r) then read_into_custom_layout_laz else read_into_custom_layout_las) chunk r b count
  else
    let* '(b, r, n) := read_into_default_layout chunk r b count in Ok (b, r, ReadPoints n).

(* std::io::SeekFrom *)
Inductive seek_from : Type := FromStart (n : Z) | FromEnd (n : Z) | FromCurrent (n : Z).
(* i64 addition with overflow checks *)
Definition i64_add (a b : Z) : res Z := if ((- 2 ^ 63 <=? a + b) && (a + b <? 2 ^ 63))%Z then Ok (a + b)%Z else Panic.
(* seek_point, raw_readers.rs:395-415, 616-634 *)
Definition las_seek_point (r : las_reader) (s : seek_from) : res (las_reader * nat) :=
  let* new_position := (match s with
                        | FromStart n => Ok (wrap true 64 n)
                        | FromEnd n => i64_add (Z.of_nat (r_count r)) n
                        | FromCurrent n => i64_add (Z.of_nat (r_index r)) n
                        end) in
  if (new_position <? 0)%Z then Panic
  else
    let clamped := Z.to_nat (Z.min (Z.of_nat (r_count r)) new_position) in
    let r := if negb (Nat.eqb (r_index r) clamped) then with_index (with_position r (clamped * r_size r)) clamped else r in
    Ok (r, r_index r).

(* ------------------------------------------------------------------ base *)

(* SeekToPoint::point_index and point_count, seek.rs:16-27 *)
Definition las_point_index (r : las_reader) : res (las_reader * nat) := las_seek_point r (FromCurrent 0).
Definition las_point_count (r : las_reader) : res (las_reader * nat) :=
  let* '(r, current) := las_point_index r in
  let* '(r, len) := las_seek_point r (FromEnd 0) in
  let* '(r, _) := las_seek_point r (FromStart (Z.of_nat current)) in
  Ok (r, len).

(* The owning buffers a generic function is used with *)
Inductive buffer_kind : Type := KindVector | KindHashMap.
(* new_from_layout followed by resize, point_buffer.rs *)
Definition new_buffer (k : buffer_kind) (l : layout) (n : nat) : mbuf :=
  match k with KindVector => VecB (vb_resize (vb_new l) n) | KindHashMap => MapB (hb_resize (hb_new l) n) end.
Definition resize_buffer (b : mbuf) (n : nat) : mbuf :=
  match b with VecB v => VecB (vb_resize v n) | MapB h => MapB (hb_resize h n) | b => b end.
(* PointReader::read, reader.rs:23-32 *)
Definition las_read (chunk : nat) (k : buffer_kind) (r : las_reader) (count : nat) : res (mbuf * las_reader) :=
  let* '(b, r, n) := las_read_into chunk r (new_buffer k (r_layout r) count) count in
  match n with ReadPoints n => Ok (resize_buffer b n, r) | Unsupported => Err end.
(* read_all, base/mod.rs:24-36, for LAS and LAZ files: GenericPointReader::open_file opens a LASReader with point_layout_matches_memory_layout
   = false, GenericPointReader::point_count is the number in the metadata (io_factory.rs:53-75) *)
Definition read_all (chunk : nat) (k : buffer_kind) (f : las_file) : res mbuf :=
  let* r := open_reader f false in
  let* '(b, _) := las_read chunk k r (r_count r) in Ok b.
(* read_all_into, base/mod.rs:40-53 *)
Definition read_all_into (chunk : nat) (b : mbuf) (f : las_file) : res (mbuf * nat) :=
  let* r := open_reader f false in
  let* '(b, _, n) := las_read_into chunk r b (r_count r) in
  match n with ReadPoints n => Ok (b, n) | Unsupported => Err end.
(* write_all, base/mod.rs:56-71, for LAS and LAZ files, with LASWriter::from_writer_and_point_layout, las_writer.rs:31-62: scale 0.001
   (the f64 nearest to it), offset 0; into_header (external crate las) fails for a format that does not exist *)
Definition f64_thousandth : spec_float := S754_finite false 4611686018427388 (-62).
Definition f64_zero : spec_float := S754_zero false.
Definition default_transforms : transforms :=
  mk_tr (mk_p3 f64_thousandth f64_thousandth f64_thousandth) (mk_p3 f64_zero f64_zero f64_zero).
Definition open_writer_for_layout (laz : bool) (l : layout) : res las_writer :=
  let f := las_point_format_from_point_layout l in
  let* _ := format_to_u8 f in
  open_writer laz f None default_transforms [].
Definition write_all (chunk : nat) (laz : bool) (b : buffer) : res las_file :=
  let* w := open_writer_for_layout laz (bf_layout b) in
  let* w := las_write chunk w b in
  Ok (writer_file (las_flush w)).
