(* The ASCII reader and writer (pasture-io/src/ascii). A text is a list of Unicode scalar values; a file is modelled by its text (UTF-8
   encoding and I/O errors are not modelled). Definitions only. *)
From Coq Require Import String Ascii List ZArith Bool Arith SpecFloat.
From Verif Require Import Base LayoutModel BufferModel TraitModel NumModel ConvModel.
Import ListNotations.
Set Implicit Arguments.
Open Scope nat_scope.

Definition text : Type := list Z.
(* char and string literals *)
Definition ch (c : ascii) : Z := Z.of_nat (nat_of_ascii c).
Definition txt (s : string) : text := map ch (list_ascii_of_string s).
Definition text_eqb (a b : text) : bool := if list_eq_dec Z.eq_dec a b then true else false.

(* ------------------------------------------------------------------ format strings *)

(* PointDataType, ascii_format_util.rs:4-23 *)
Inductive column : Type :=
| Skip | CoordinateX | CoordinateY | CoordinateZ | Intensity | ReturnNumber | NumberOfReturns | Classification | UserData
| ColorR | ColorG | ColorB | GpsTime | PointSourceID | EdgeOfFlightLine | ScanDirectionFlag | ScanAngleRank | Nir.

(* the match of get_parse_layout, ascii_format_util.rs:54-80 *)
Definition column_of_char (c : Z) : option column :=
  if Z.eqb c (ch "s") then Some Skip
  else if Z.eqb c (ch "x") then Some CoordinateX
  else if Z.eqb c (ch "y") then Some CoordinateY
  else if Z.eqb c (ch "z") then Some CoordinateZ
  else if Z.eqb c (ch "i") then Some Intensity
  else if Z.eqb c (ch "n") then Some NumberOfReturns
  else if Z.eqb c (ch "r") then Some ReturnNumber
  else if Z.eqb c (ch "c") then Some Classification
  else if Z.eqb c (ch "t") then Some GpsTime
  else if Z.eqb c (ch "u") then Some UserData
  else if Z.eqb c (ch "p") then Some PointSourceID
  else if Z.eqb c (ch "R") then Some ColorR
  else if Z.eqb c (ch "G") then Some ColorG
  else if Z.eqb c (ch "B") then Some ColorB
  else if Z.eqb c (ch "I") then Some Nir
  else if Z.eqb c (ch "a") then Some ScanAngleRank
  else if Z.eqb c (ch "e") then Some EdgeOfFlightLine
  else if Z.eqb c (ch "d") then Some ScanDirectionFlag
  else None.
(* PointDataType::get_parse_layout, ascii_format_util.rs:51-83 *)
Definition get_parse_layout (format : text) : res (list column) :=
  foldM (fun cols c => match column_of_char c with Some k => Ok (cols ++ [k]) | None => Err end) format [].

(* ------------------------------------------------------------------ numbers and texts (standard library of Rust) *)

(* u64::to_string: decimal digits without leading zeros *)
Fixpoint digits (fuel : nat) (n : Z) : text :=
  match fuel with
  | O => []
  | S fuel => if Z.ltb n 10 then [(48 + n)%Z] else digits fuel (n / 10) ++ [(48 + n mod 10)%Z]
  end.
Definition unsigned_text (n : Z) : text := digits (S (Z.to_nat (Z.log2 n))) n.
(* i64::to_string *)
Definition signed_text (n : Z) : text := if Z.ltb n 0 then ch "-" :: unsigned_text (- n) else unsigned_text n.

(* n digits of v, with leading zeros *)
Fixpoint digits_n (n : nat) (v : Z) : text :=
  match n with O => [] | S n => digits_n n (v / 10) ++ [(48 + v mod 10)%Z] end.
(* a / b rounded to nearest, ties to even *)
Definition div_even (a b : Z) : Z :=
  let q := (a / b)%Z in
  let r := (a mod b)%Z in
  if Z.ltb (2 * r) b then q else if Z.ltb b (2 * r) then (q + 1)%Z else if Z.even q then q else (q + 1)%Z.
(* format!("{:.1$}", x, precision) for f64: the exact value rounded to precision decimal places (ties to even), with the sign of x;
   a decimal point only if precision > 0 *)
Definition format_fixed (precision : nat) (x : spec_float) : text :=
  let sign (s : bool) := if s then [ch "-"] else [] in
  let decimal (s : bool) (scaled : Z) :=
    sign s ++ unsigned_text (scaled / 10 ^ Z.of_nat precision)
    ++ (match precision with O => [] | _ => ch "." :: digits_n precision (scaled mod 10 ^ Z.of_nat precision) end) in
  match x with
  | S754_nan => txt "NaN"
  | S754_infinity s => sign s ++ txt "inf"
  | S754_zero s => decimal s 0%Z
  | S754_finite s m e =>
      decimal s (if Z.leb 0 e then Zpos m * 2 ^ e * 10 ^ Z.of_nat precision
                 else div_even (Zpos m * 10 ^ Z.of_nat precision) (2 ^ (- e)))%Z
  end.

(* value of a digit *)
Definition digit (c : Z) : option Z := if (Z.leb 48 c && Z.leb c 57)%bool then Some (c - 48)%Z else None.
(* all characters are digits: their value, most significant first *)
Fixpoint horner (acc : Z) (t : text) : option Z :=
  match t with
  | [] => Some acc
  | c :: t => match digit c with Some d => horner (10 * acc + d) t | None => None end
  end.
(* one digit at least *)
Definition parse_digits (t : text) : option Z := match t with [] => None | _ => horner 0 t end.
Definition in_range (lo hi : Z) (o : option Z) : option Z :=
  match o with Some v => if (Z.leb lo v && Z.leb v hi)%bool then Some v else None | None => None end.
(* u8::from_str, u16::from_str: an optional '+', digits, no overflow *)
Definition parse_unsigned (hi : Z) (t : text) : option Z :=
  in_range 0 hi (match t with c :: t' => if Z.eqb c (ch "+") then parse_digits t' else parse_digits t | [] => None end).
(* i8::from_str: also '-' *)
Definition parse_signed (lo hi : Z) (t : text) : option Z :=
  in_range lo hi (match t with
                  | c :: t' => if Z.eqb c (ch "+") then parse_digits t'
                               else if Z.eqb c (ch "-") then option_map Z.opp (parse_digits t') else parse_digits t
                  | [] => None
                  end).

(* the leading digits, the rest *)
Fixpoint take_digits (t : text) : text * text :=
  match t with
  | c :: t' => match digit c with Some _ => let '(a, b) := take_digits t' in (c :: a, b) | None => ([], t) end
  | [] => ([], [])
  end.
(* (-1)^s * m * 10^e rounded to the nearest f64 *)
Definition decimal_to_f64 (s : bool) (m e : Z) : spec_float :=
  match m with
  | Zpos m =>
      if Z.leb 0 e then binary_round 53 1024 s (m * Z.to_pos (10 ^ e)) 0
      else let '(q, e', loc) := SFdiv_core_binary 53 1024 (Zpos m) 0 (10 ^ (- e)) 0 in binary_round_aux 53 1024 s q e' loc
  | _ => S754_zero s
  end.
(* f64::from_str ("Grammar" in its documentation): [sign] (inf | infinity | nan | digits [. digits] [e [sign] digits]), upper or lower
   case, at least one digit of the mantissa *)
Definition lower (c : Z) : Z := if (Z.leb 65 c && Z.leb c 90)%bool then (c + 32)%Z else c.
Definition parse_f64 (t : text) : option spec_float :=
  let '(s, t) := match t with
                 | c :: t' => if Z.eqb c (ch "-") then (true, t') else if Z.eqb c (ch "+") then (false, t') else (false, t)
                 | [] => (false, [])
                 end in
  let lt := map lower t in
  if (text_eqb lt (txt "inf") || text_eqb lt (txt "infinity"))%bool then Some (S754_infinity s)
  else if text_eqb lt (txt "nan") then Some S754_nan
  else
    let '(i, t) := take_digits t in
    let '(f, t) := match t with c :: t' => if Z.eqb c (ch ".") then take_digits t' else ([], t) | [] => ([], []) end in
    match parse_digits (i ++ f) with
    | None => None
    | Some m =>
        let scale := Z.of_nat (length f) in
        match t with
        | [] => Some (decimal_to_f64 s m (- scale))
        | c :: t' =>
            if Z.eqb (lower c) (ch "e")
            then match (match t' with
                        | c' :: t'' => if Z.eqb c' (ch "+") then parse_digits t''
                                       else if Z.eqb c' (ch "-") then option_map Z.opp (parse_digits t'') else parse_digits t'
                        | [] => None
                        end) with
                 | Some e => Some (decimal_to_f64 s m (e - scale))
                 | None => None
                 end
            else None
        end
    end.

(* ------------------------------------------------------------------ UntypedPoint *)

(* UntypedPointSlice::get_raw_attribute and UntypedPointBuffer::get_raw_attribute, untyped_point.rs:57-71, 200-214 *)
Definition untyped_get_raw (l : layout) (p : list Z) (a : attr_def) : res (list Z) :=
  match get_attribute l a with
  | None => Err
  | Some m => if Nat.ltb (length p) (m_offset m + dt_size (m_type m)) then Err else Ok (sub p (m_offset m) (dt_size (m_type m)))
  end.
(* get_attribute::<T> for the type with datatype t, untyped_point.rs:100-122, 173-195 *)
Definition untyped_get (l : layout) (p : list Z) (a : attr_def) (t : datatype) : res (list Z) :=
  let* s := untyped_get_raw l p a in
  if datatype_eqb t (ad_type a) then Ok s
  else
    let* c := get_converter_for_attributes a (with_custom_datatype a t) in
    match c with Some c => Ok (conv_into c s (repeat 0%Z (dt_size t))) | None => Err end.
(* PointLayout::offset_of, point_layout.rs:998-1006 *)
Definition offset_of (l : layout) (a : attr_def) : option nat :=
  option_map m_offset (find (fun m => String.eqb (m_name m) (ad_name a) && datatype_eqb (m_type m) (ad_type a))%bool (l_attrs l)).
(* cursor.set_position(pos); cursor.write(bytes): an error at the end of the memory *)
Definition cursor_write (p : list Z) (pos : nat) (bytes : list Z) : res (list Z) :=
  if Nat.leb (pos + length bytes) (length p) then Ok (blit p pos bytes) else Err.

(* ------------------------------------------------------------------ writer *)

(* RawAsciiWriter, raw_writer.rs:13-19; the default layout is empty and not used *)
Record ascii_writer : Type := mk_awriter { aw_out : text; aw_delimiter : text; aw_precision : nat; aw_columns : list column }.

(* RawAsciiWriter::from_write, raw_writer.rs:22-30; AsciiWriter::from_write, ascii_writer.rs:90-94 *)
Definition ascii_writer_new (format : text) : res ascii_writer :=
  let* cols := get_parse_layout format in Ok (mk_awriter [] (txt ", ") 5 cols).
(* set_delimiter, set_precision, raw_writer.rs:34-39 *)
Definition set_delimiter (w : ascii_writer) (d : text) : ascii_writer := mk_awriter (aw_out w) d (aw_precision w) (aw_columns w).
Definition set_precision (w : ascii_writer) (n : nat) : ascii_writer := mk_awriter (aw_out w) (aw_delimiter w) n (aw_columns w).

(* trim_unnecessary_tailing_zeros, raw_writer.rs:212-219: one step of the loop drops the last character. The argument of trim_rev is the
   reversed text. *)
Fixpoint trim_rev (t : text) : text :=
  match t with
  | c :: t' => if Z.eqb c (ch "0") then (match t' with c' :: _ => if Z.eqb c' (ch ".") then t else trim_rev t' | [] => trim_rev t' end) else t
  | [] => []
  end.
Definition trim_zeros (t : text) : text := rev (trim_rev (rev t)).

Definition f64_at (bs : list Z) (o : nat) : spec_float := float_of_bits 53 1024 64 (le_dec (sub bs o 8)).
(* a value of an integer type *)
Definition int_of (pr : prim) (bs : list Z) : Z := match dec_num pr bs with NInt v => v | NFlt _ => 0%Z end.
Definition coordinate_text (precision : nat) (l : layout) (p : list Z) (a : attr_def) (t : datatype) (o : nat) : res text :=
  let* v := untyped_get l p a t in Ok (trim_zeros (format_fixed precision (f64_at v o))).
Definition u64_text (l : layout) (p : list Z) (a : attr_def) : res text :=
  let* v := untyped_get l p a U64 in Ok (unsigned_text (int_of PU64 v)).
Definition color_text (l : layout) (p : list Z) (k : nat) : res text :=
  let* v := untyped_get l p COLOR_RGB Vec3u16 in Ok (unsigned_text (int_of PU16 (sub v (2 * k) 2))).
Definition flag_text (l : layout) (p : list Z) (a : attr_def) : res text :=
  let* v := untyped_get l p a U8 in Ok (if Z.ltb 0 (int_of PU8 v) then txt "1" else txt "0").
(* the arms of the match in write, raw_writer.rs:72-192. Classification and UserData write the return number (lines 125-136). *)
Definition column_text (precision : nat) (l : layout) (p : list Z) (c : column) : res text :=
  match c with
  | Skip => Ok []
  | CoordinateX => coordinate_text precision l p POSITION_3D Vec3f64 0
  | CoordinateY => coordinate_text precision l p POSITION_3D Vec3f64 8
  | CoordinateZ => coordinate_text precision l p POSITION_3D Vec3f64 16
  | Intensity => u64_text l p INTENSITY
  | ReturnNumber => u64_text l p RETURN_NUMBER
  | NumberOfReturns => u64_text l p NUMBER_OF_RETURNS
  | Classification => u64_text l p RETURN_NUMBER
  | UserData => u64_text l p RETURN_NUMBER
  | ColorR => color_text l p 0
  | ColorG => color_text l p 1
  | ColorB => color_text l p 2
  | GpsTime => coordinate_text precision l p GPS_TIME F64 0
  | PointSourceID => u64_text l p POINT_SOURCE_ID
  | EdgeOfFlightLine => flag_text l p EDGE_OF_FLIGHT_LINE
  | ScanDirectionFlag => flag_text l p SCAN_DIRECTION_FLAG
  | ScanAngleRank => let* v := untyped_get l p SCAN_ANGLE_RANK I64 in Ok (signed_text (int_of PI64 v))
  | Nir => u64_text l p NIR
  end.
(* the loop over the columns of one point, raw_writer.rs:71-196: the delimiter follows every column but the last *)
Definition point_text (w : ascii_writer) (l : layout) (p : list Z) : res text :=
  let* out := foldM (fun out e => let '(index, c) := e in
                       let* t := column_text (aw_precision w) l p c in
                       Ok (out ++ t ++ (if Nat.eqb index (length (aw_columns w) - 1) then [] else aw_delimiter w)))
                    (combine (range 0 (length (aw_columns w))) (aw_columns w)) [] in
  Ok (out ++ [10%Z]).
(* the body of the loop over the chunks, raw_writer.rs:54-199; state: chunk_buffer and the text written *)
Definition ascii_write_chunk (chunk : nat) (w : ascii_writer) (points : buffer) (st : list Z * text) (k : nat) : res (list Z * text) :=
  let '(chunk_buffer, out) := st in
  let l := bf_layout points in
  let n := Nat.min chunk (bf_len points - k * chunk) in
  let start := k * chunk in
  let* dst := slice_get chunk_buffer 0 (n * l_size l) in
  let* bytes := bf_get_point_range points start (start + n) dst in
  let chunk_buffer := blit chunk_buffer 0 bytes in
  let* out := foldM (fun out i => let* p := slice_get chunk_buffer (i * l_size l) (i * l_size l + l_size l) in
                                  let* t := point_text w l p in Ok (out ++ t)) (range 0 n) out in
  Ok (chunk_buffer, out).
(* write, raw_writer.rs:44-201. chunk is num_points_in_chunk = 50_000. Simplification: what has been written before an error is not modelled. *)
Definition ascii_write (chunk : nat) (w : ascii_writer) (points : buffer) : res ascii_writer :=
  let num_chunks := (bf_len points + (chunk - 1)) / chunk in
  let* '(_, out) := foldM (ascii_write_chunk chunk w points) (range 0 num_chunks) (repeat 0%Z (chunk * l_size (bf_layout points)), aw_out w) in
  Ok (mk_awriter out (aw_delimiter w) (aw_precision w) (aw_columns w)).

(* ------------------------------------------------------------------ reader *)

(* RawAsciiReader, raw_reader.rs:19-25; ar_text is what has not been read *)
Record ascii_reader : Type := mk_areader { ar_text : text; ar_delimiter : text; ar_layout : layout; ar_columns : list column }.

(* the map of get_point_layout_from_parse_layout, raw_reader.rs:45-63, with its filter *)
Definition column_attribute (c : column) : option attr_def :=
  match c with
  | Skip => None
  | CoordinateX | CoordinateY | CoordinateZ => Some POSITION_3D
  | Intensity => Some INTENSITY
  | ReturnNumber => Some RETURN_NUMBER
  | NumberOfReturns => Some NUMBER_OF_RETURNS
  | Classification => Some CLASSIFICATION
  | UserData => Some USER_DATA
  | ColorR | ColorG | ColorB => Some COLOR_RGB
  | GpsTime => Some GPS_TIME
  | PointSourceID => Some POINT_SOURCE_ID
  | EdgeOfFlightLine => Some EDGE_OF_FLIGHT_LINE
  | ScanDirectionFlag => Some SCAN_DIRECTION_FLAG
  | ScanAngleRank => Some SCAN_ANGLE_RANK
  | Nir => Some NIR
  end.
(* collecting into a HashSet: without duplicates *)
Fixpoint hash_set (l : list attr_def) : list attr_def :=
  match l with [] => [] | a :: l => if existsb (attr_def_eqb a) l then hash_set l else a :: hash_set l end.
(* get_point_layout_from_parse_layout, raw_reader.rs:41-67. order is the iteration order of the hash set. *)
Definition layout_from_columns (order : list attr_def -> list attr_def) (cols : list column) : res layout :=
  from_attributes (order (hash_set (flat_map (fun c => match column_attribute c with Some a => [a] | None => [] end) cols))).
(* RawAsciiReader::from_read, raw_reader.rs:27-39; AsciiReader::from_read, ascii_reader.rs:95-99 *)
Definition ascii_reader_new (order : list attr_def -> list attr_def) (file format delimiter : text) : res ascii_reader :=
  let* cols := get_parse_layout format in
  let* l := layout_from_columns order cols in
  Ok (mk_areader file delimiter l cols).

(* str::split(&str): leftmost matches that do not overlap; skip is the number of characters of a match still to be skipped, cur the
   current piece in reverse. The empty pattern matches before and after every character. *)
Fixpoint starts_with (d t : text) : bool :=
  match d, t with
  | [], _ => true
  | c :: d, c' :: t => Z.eqb c c' && starts_with d t
  | _ :: _, [] => false
  end.
Fixpoint split_go (d : text) (skip : nat) (cur t : text) : list text :=
  match t with
  | [] => [rev cur]
  | c :: t' =>
      match skip with
      | S skip => split_go d skip cur t'
      | O => if starts_with d t then rev cur :: split_go d (length d - 1) [] t' else split_go d 0 (c :: cur) t'
      end
  end.
Definition split (d t : text) : list text :=
  match d with [] => [] :: map (fun c => [c]) t ++ [[]] | _ => split_go d 0 [] t end.

(* parse_to_point_i8, _u8, _u16, _f64, raw_reader.rs:192-263: the parsed number is written if the layout has the attribute *)
Definition parse_to_point (l : layout) (p : list Z) (a : attr_def) (o : nat) (prim : prim) (v : option num) : res (list Z) :=
  match v with
  | None => Err
  | Some v => match offset_of l a with Some off => cursor_write p (off + o) (enc_num prim v) | None => Ok p end
  end.
Definition parse_u8 (t : text) : option num := option_map NInt (parse_unsigned 255 t).
Definition parse_u16 (t : text) : option num := option_map NInt (parse_unsigned 65535 t).
Definition parse_i8 (t : text) : option num := option_map NInt (parse_signed (-128) 127 t).
(* parse_to_point_bool, raw_reader.rs:209-226 *)
Definition parse_bool (t : text) : option num :=
  match parse_unsigned 255 t with Some v => if (Z.eqb v 0 || Z.eqb v 1)%bool then Some (NInt v) else None | None => None end.
(* the arms of the match in parse_point, raw_reader.rs:78-181 *)
Definition parse_column (l : layout) (p : list Z) (c : column) (t : text) : res (list Z) :=
  match c with
  | CoordinateX => parse_to_point l p POSITION_3D 0 PF64 (option_map NFlt (parse_f64 t))
  | CoordinateY => parse_to_point l p POSITION_3D 8 PF64 (option_map NFlt (parse_f64 t))
  | CoordinateZ => parse_to_point l p POSITION_3D (2 * 8) PF64 (option_map NFlt (parse_f64 t))
  | Intensity => parse_to_point l p INTENSITY 0 PU16 (parse_u16 t)
  | ReturnNumber => parse_to_point l p RETURN_NUMBER 0 PU8 (parse_u8 t)
  | NumberOfReturns => parse_to_point l p NUMBER_OF_RETURNS 0 PU8 (parse_u8 t)
  | Classification => parse_to_point l p CLASSIFICATION 0 PU8 (parse_u8 t)
  | UserData => parse_to_point l p USER_DATA 0 PU8 (parse_u8 t)
  | ColorR => parse_to_point l p COLOR_RGB 0 PU16 (parse_u16 t)
  | ColorG => parse_to_point l p COLOR_RGB 2 PU16 (parse_u16 t)
  | ColorB => parse_to_point l p COLOR_RGB (2 * 2) PU16 (parse_u16 t)
  | GpsTime => parse_to_point l p GPS_TIME 0 PF64 (option_map NFlt (parse_f64 t))
  | PointSourceID => parse_to_point l p POINT_SOURCE_ID 0 PU16 (parse_u16 t)
  | EdgeOfFlightLine => parse_to_point l p EDGE_OF_FLIGHT_LINE 0 PU8 (parse_bool t)
  | ScanDirectionFlag => parse_to_point l p SCAN_DIRECTION_FLAG 0 PU8 (parse_bool t)
  | ScanAngleRank => parse_to_point l p SCAN_ANGLE_RANK 0 PI8 (parse_i8 t)
  | Nir => parse_to_point l p NIR 0 PU16 (parse_u16 t)
  | Skip => Ok p
  end.
(* parse_point, raw_reader.rs:69-190: the loop over zip_longest *)
Fixpoint parse_fields (l : layout) (p : list Z) (fields : list text) (cols : list column) : res (list Z) :=
  match fields, cols with
  | _, [] => Ok p
  | [], _ :: _ => Err
  | t :: fields, c :: cols => let* p := parse_column l p c t in parse_fields l p fields cols
  end.
Definition parse_point (l : layout) (p : list Z) (line delimiter : text) (cols : list column) : res (list Z) :=
  parse_fields l p (split delimiter line) cols.

(* BufRead::lines: up to and without the next line feed, and without a carriage return before it; None at the end *)
Fixpoint take_line (t : text) : text * text * bool :=
  match t with
  | [] => ([], [], false)
  | c :: t => if Z.eqb c 10 then ([], t, true) else let '(line, rest, nl) := take_line t in (c :: line, rest, nl)
  end.
Definition strip_cr (line : text) : text :=
  match rev line with c :: r => if Z.eqb c 13 then rev r else line | [] => line end.
Definition next_line (t : text) : option (text * text) :=
  match t with
  | [] => None
  | _ => let '(line, rest, nl) := take_line t in Some (if nl then strip_cr line else line, rest)
  end.

(* the loop of read_into, raw_reader.rs:305-314: at most n more lines, the next goes to index *)
Fixpoint read_lines (cols : list column) (delimiter : text) (n index : nat) (file : text) (temp : list Z) (b : mbuf) : res (mbuf * text) :=
  match n with
  | O => Ok (b, file)
  | S n =>
      match next_line file with
      | None => Ok (b, file)
      | Some (line, file) =>
          let* temp := parse_point (mb_layout b) temp line delimiter cols in
          let* b := mb_set_point b index temp in
          read_lines cols delimiter n (S index) file temp b
      end
  end.
(* read_into, raw_reader.rs:294-316: count is returned whatever was read. Simplification: the state after an error is not modelled. *)
Definition ascii_read_into (r : ascii_reader) (b : mbuf) (count : nat) : res (mbuf * ascii_reader * nat) :=
  let* '(b, file) := read_lines (ar_columns r) (ar_delimiter r) count 0 (ar_text r) (repeat 0%Z (l_size (mb_layout b))) b in
  Ok (b, mk_areader file (ar_delimiter r) (ar_layout r) (ar_columns r), count).
