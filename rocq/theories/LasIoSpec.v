(* What LAS records hold, and what reading and writing points should do, in terms of the tables of the LAS specification (LasSpec). *)
From Coq Require Import String List ZArith Bool Arith SpecFloat.
From Verif Require Import Base LayoutModel LayoutSpec BufferModel BufferSpec TraitModel TraitSpec NumModel ConvModel ConvSpec MathModel MathSpec
  LasModel LasSpec LasIoModel.
Import ListNotations.
Open Scope nat_scope.

(* ---- one record ---- *)

(* The value of attribute a of a point p with layout l, as a value of the datatype of a; zeros if the layout has no attribute of that name *)
Definition las_value (l : layout) (a : attr_def) (p : list Z) : option (list Z) :=
  match find (fun m => String.eqb (m_name m) (ad_name a)) (l_attrs l) with
  | Some m => value_as (m_type m) (ad_type a) (attr_value m p)
  | None => Some (repeat 0%Z (dt_size (ad_type a)))
  end.

(* A float rounded toward zero, NaN as 0 *)
Definition toward_zero (x : spec_float) : option Z :=
  match x with
  | S754_zero _ | S754_nan => Some 0%Z
  | S754_infinity _ => None
  | S754_finite s m e =>
      let v := if s then Zneg m else Zpos m in
      Some (if (0 <=? e)%Z then v * 2 ^ e else Z.quot v (2 ^ (- e)))%Z
  end.
(* The integer stored for coordinate c: (c - offset) / scale in f64 arithmetic, rounded toward zero; None if it has more than 32 bits *)
Definition grid (c offset scale : spec_float) : option Z :=
  match toward_zero (f64_div (f64_sub c offset) scale) with
  | Some v => if ((- 2 ^ 31 <=? v) && (v <? 2 ^ 31))%Z then Some v else None
  | None => None
  end.
(* 32-bit little endian, two's complement *)
Definition le32 (v : Z) : list Z := le_enc 4 (v mod 2 ^ 32).
Definition grid_position (t : transforms) (p : p3 spec_float) : option (list Z) :=
  match grid (px p) (px (t_offset t)) (px (t_scale t)), grid (py p) (py (t_offset t)) (py (t_scale t)),
        grid (pz p) (pz (t_offset t)) (pz (t_scale t)) with
  | Some x, Some y, Some z => Some (le32 x ++ le32 y ++ le32 z)
  | _, _, _ => None
  end.

(* the attribute of a name *)
Definition las_attribute (s : string) : option attr_def :=
  find (fun a => String.eqb (ad_name a) s)
       [POSITION_3D; INTENSITY; RETURN_NUMBER; NUMBER_OF_RETURNS; CLASSIFICATION_FLAGS; SCANNER_CHANNEL; SCAN_DIRECTION_FLAG;
        EDGE_OF_FLIGHT_LINE; CLASSIFICATION; SCAN_ANGLE_RANK; SCAN_ANGLE; USER_DATA; POINT_SOURCE_ID; GPS_TIME; COLOR_RGB; NIR;
        WAVE_PACKET_DESCRIPTOR_INDEX; WAVEFORM_DATA_OFFSET; WAVEFORM_PACKET_SIZE; RETURN_POINT_WAVEFORM_LOCATION; WAVEFORM_PARAMETERS].
(* an 8-bit attribute as a number *)
Definition small (l : layout) (a : attr_def) (p : list Z) : option Z := option_map le_dec (las_value l a p).

(* The bytes of a record field for the point p: the grid position, the flags packed into one or two bytes with 3, 3, 1, 1 or 4, 4, 4, 2, 1, 1
   bits, the value of the attribute of the same name otherwise *)
Definition field_bytes (l : layout) (t : transforms) (field : string) (p : list Z) : option (list Z) :=
  if String.eqb field "LASLocalPosition" then
    match las_value l POSITION_3D p with Some v => grid_position t (vec3_f64 v) | None => None end
  else if String.eqb field "LASBasicFlags" then
    match small l RETURN_NUMBER p, small l NUMBER_OF_RETURNS p, small l SCAN_DIRECTION_FLAG p, small l EDGE_OF_FLIGHT_LINE p with
    | Some rn, Some nr, Some sd, Some eof => Some [rn mod 8 + 8 * (nr mod 8) + 64 * (sd mod 2) + 128 * (eof mod 2)]%Z
    | _, _, _, _ => None
    end
  else if String.eqb field "LASExtendedFlags" then
    match small l RETURN_NUMBER p, small l NUMBER_OF_RETURNS p, small l CLASSIFICATION_FLAGS p, small l SCANNER_CHANNEL p,
          small l SCAN_DIRECTION_FLAG p, small l EDGE_OF_FLIGHT_LINE p with
    | Some rn, Some nr, Some cf, Some sc, Some sd, Some eof =>
        Some [rn mod 16 + 16 * (nr mod 16); cf mod 16 + 16 * (sc mod 4) + 64 * (sd mod 2) + 128 * (eof mod 2)]%Z
    | _, _, _, _, _, _ => None
    end
  else match las_attribute field with Some a => las_value l a p | None => None end.

(* r is the record of format n for the point p with layout l *)
Definition record_of (n : nat) (t : transforms) (l : layout) (p r : list Z) : Prop :=
  length r = record_length n
  /\ forall field o s, In (field, o, s) (las_record n) -> field_bytes l t field p = Some (sub r o s).
(* there is one *)
Definition representable (n : nat) (t : transforms) (l : layout) (p : list Z) : Prop :=
  forall field o s, In (field, o, s) (las_record n) -> field_bytes l t field p <> None.

(* the position and the return number of a point *)
Definition point_position (l : layout) (p : list Z) : p3 spec_float :=
  vec3_f64 (match las_value l POSITION_3D p with Some v => v | None => [] end).
Definition point_return (l : layout) (p : list Z) : Z := le_dec (match las_value l RETURN_NUMBER p with Some v => v | None => [] end).

(* ---- histories of a writer ---- *)
Inductive write_op : Type := Write (points : buffer) | Flush.
Definition write_step (chunk : nat) (w : las_writer) (o : write_op) : res las_writer :=
  match o with Write b => las_write chunk w b | Flush => Ok (las_flush w) end.
Definition run_writer (chunk : nat) (w : las_writer) (ops : list write_op) : res las_writer := foldM (write_step chunk) ops w.
(* the points written, each with its layout *)
Definition written (ops : list write_op) : list (layout * list Z) :=
  flat_map (fun o => match o with Write b => map (pair (bf_layout b)) (bf_points b) | Flush => [] end) ops.
Definition ops_wf (ops : list write_op) : Prop :=
  Forall (fun o => match o with Write b => bf_wf b | Flush => True end) ops.
(* every buffer has this layout *)
Definition ops_layout (l : layout) (ops : list write_op) : Prop :=
  Forall (fun o => match o with Write b => bf_layout b = l | Flush => True end) ops.

(* histories without a flush *)
Definition writes_only (ops : list write_op) : Prop := Forall (fun o => o <> Flush) ops.
(* the points written in the default layout of the writer *)
Definition in_layout (l : layout) (points : list (layout * list Z)) : list (layout * list Z) := filter (fun p => layout_eqb (fst p) l) points.
(* how many points have return number k *)
Definition with_return (k : Z) (points : list (layout * list Z)) : Z :=
  Z.of_nat (length (filter (fun p => Z.eqb (point_return (fst p) (snd p)) k) points)).
(* the counts by return 1 to m *)
Definition by_return (m : nat) (points : list (layout * list Z)) : list Z := map (fun k => with_return (Z.of_nat k) points) (seq 1 m).
Definition positions_of (points : list (layout * list Z)) : list (p3 spec_float) := map (fun p => point_position (fst p) (snd p)) points.
(* writing to LAZ in a layout other than the default one stores full chunks: records that are not points *)
Definition surplus (laz : bool) (chunk : nat) (l : layout) (ops : list write_op) : nat :=
  list_sum (map (fun o => match o with
                          | Write b => if laz && negb (layout_eqb (bf_layout b) l) then (chunk - bf_len b mod chunk) mod chunk else 0
                          | Flush => 0
                          end) ops).

(* the first bytes are the records of the points *)
Definition holds_records (n : nat) (t : transforms) (points : list (layout * list Z)) (data : list Z) : Prop :=
  exists records, data = concat records /\ Forall2 (fun p r => record_of n t (fst p) (snd p) r) points records.

(* ---- reading a record ---- *)

(* where the flags are in the flag bytes: first bit, number of bits *)
Definition flag_bits (extended : bool) (s : string) : option (Z * Z) :=
  let table := if extended
               then [("ReturnNumber", (0, 4)); ("NumberOfReturns", (4, 4)); ("ClassificationFlags", (8, 4)); ("ScannerChannel", (12, 2));
                     ("ScanDirectionFlag", (14, 1)); ("EdgeOfFlightLine", (15, 1))]%string%Z
               else [("ReturnNumber", (0, 3)); ("NumberOfReturns", (3, 3)); ("ScanDirectionFlag", (6, 1)); ("EdgeOfFlightLine", (7, 1))]%string%Z in
  option_map snd (find (fun e => String.eqb (fst e) s) table).

(* a 32-bit two's complement number *)
Definition signed32 (bs : list Z) : Z := let u := (le_dec bs mod 2 ^ 32)%Z in if (2 ^ 31 <=? u)%Z then (u - 2 ^ 32)%Z else u.
(* integer * scale + offset in f64 arithmetic *)
Definition f64_of_int (v : Z) : spec_float := binary_normalize 53 1024 v 0 false.
Definition f64_bytes (x : spec_float) : list Z := le_enc 8 (bits_of_float 53 1024 64 x).
Definition world (v : Z) (scale offset : spec_float) : spec_float := f64_add (f64_mul (f64_of_int v) scale) offset.
Definition world_position (t : transforms) (local : list Z) : list Z :=
  f64_bytes (world (signed32 (sub local 0 4)) (px (t_scale t)) (px (t_offset t)))
  ++ f64_bytes (world (signed32 (sub local 4 4)) (py (t_scale t)) (py (t_offset t)))
  ++ f64_bytes (world (signed32 (sub local 8 4)) (pz (t_scale t)) (pz (t_offset t))).
(* f32: the integer is rounded to f32 (and stored), computed with in f64, and rounded to f32 again *)
Definition f32_of_int (v : Z) : spec_float := binary_normalize 24 128 v 0 false.
Definition f32_round (x : spec_float) : spec_float := match x with S754_finite s m e => binary_round 24 128 s m e | _ => x end.
Definition f64_round (x : spec_float) : spec_float := match x with S754_finite s m e => binary_round 53 1024 s m e | _ => x end.
Definition f32_bytes (x : spec_float) : list Z := le_enc 4 (bits_of_float 24 128 32 x).
Definition f32_number (bs : list Z) : spec_float := float_of_bits 24 128 32 (le_dec bs).
Definition world32 (v : Z) (scale offset : spec_float) : spec_float :=
  f32_round (f64_add (f64_mul (f64_round (f32_number (f32_bytes (f32_of_int v)))) scale) offset).
Definition world_position32 (t : transforms) (local : list Z) : list Z :=
  f32_bytes (world32 (signed32 (sub local 0 4)) (px (t_scale t)) (px (t_offset t)))
  ++ f32_bytes (world32 (signed32 (sub local 4 4)) (py (t_scale t)) (py (t_offset t)))
  ++ f32_bytes (world32 (signed32 (sub local 8 4)) (pz (t_scale t)) (pz (t_offset t))).

(* The value of the target attribute tm after reading the record rec of a file with the (exact) layout raw; old is the value before *)
Definition read_value (extended : bool) (raw : layout) (t : transforms) (tm : member) (rec old : list Z) : option (list Z) :=
  let value_of s := option_map (fun m => (m_type m, attr_value m rec)) (find (fun m => String.eqb (m_name m) s) (l_attrs raw)) in
  if String.eqb (m_name tm) "Position3D" then
    match value_of "LASLocalPosition"%string, m_type tm with
    | Some (_, v), Vec3f64 => Some (world_position t v)
    | Some (_, v), Vec3f32 => Some (world_position32 t v)
    | _, _ => None
    end
  else match flag_bits extended (m_name tm) with
       | Some (first, bits) =>
           match value_of (if extended then "LASExtendedFlags" else "LASBasicFlags")%string with
           | Some (d, v) => value_as d (m_type tm) (le_enc (dt_size d) ((le_dec v / 2 ^ first) mod 2 ^ bits))
           | None => None
           end
       | None => match value_of (m_name tm) with
                 | Some (d, v) => value_as d (m_type tm) v
                 | None => Some old
                 end
       end.
(* layouts points can be read into: positions as f64 or f32, other attributes with a datatype the values can be converted to *)
Definition readable (extended : bool) (raw target : layout) : Prop :=
  forall tm, In tm (l_attrs target) ->
    if String.eqb (m_name tm) "Position3D" then m_type tm = Vec3f64 \/ m_type tm = Vec3f32
    else match flag_bits extended (m_name tm) with
         | Some _ => convertible (if extended then U16 else U8) (m_type tm)
         | None => forall m, In m (l_attrs raw) -> m_name m = m_name tm -> convertible (m_type m) (m_type tm)
         end.

(* the attributes extracted from packed fields: the raw layout must not have attributes of these names *)
Definition packed_names : list string :=
  ["Position3D"; "ReturnNumber"; "NumberOfReturns"; "ClassificationFlags"; "ScannerChannel"; "ScanDirectionFlag"; "EdgeOfFlightLine"]%string.

(* A readable file: all its records are there, and the exact layout describes a record *)
Definition file_ok (f : las_file) (raw : layout) : Prop :=
  let h := f_header f in
  is_ok (format_to_u8 (h_format h)) = true
  /\ point_layout_from_las_metadata (h_format h) (h_entries h) true = Ok raw
  /\ l_size raw = format_len (h_format h) /\ good_layout raw
  /\ (forall s, In s packed_names -> ~ In s (map m_name (l_attrs raw)))
  /\ (is_extended (h_format h) = true -> ~ In "LASBasicFlags"%string (map m_name (l_attrs raw)))
  /\ (0 <= h_total h)%Z /\ Z.to_nat (h_total h) * format_len (h_format h) <= length (f_data f)
  /\ (f_laz f = true -> is_extended (h_format h) = true -> has_waveform (h_format h) = false).
(* its records *)
Definition records (f : las_file) : list (list Z) :=
  pieces (format_len (h_format (f_header f))) (Z.to_nat (h_total (f_header f))) (f_data f).

(* b' is b after reading the given records of file f into its first points. A buffer with the layout of the records gets the values of the
   fields. *)
Definition filled (f : las_file) (raw : layout) (recs : list (list Z)) (b b' : mbuf) : Prop :=
  mb_wf b' /\ mb_layout b' = mb_layout b /\ mb_len b' = mb_len b /\ mb_off b' = mb_off b /\ mb_len (mb_root b') = mb_len (mb_root b)
  /\ (forall i rec p, nth_error recs i = Some rec -> nth_error (mb_points b) i = Some p ->
        exists p', nth_error (mb_points b') i = Some p'
        /\ if layout_eqb (mb_layout b) raw then (forall tm, In tm (l_attrs raw) -> attr_value tm p' = attr_value tm rec)
           else (forall tm, In tm (l_attrs (mb_layout b)) ->
                   read_value (is_extended (h_format (f_header f))) raw (h_tr (f_header f)) tm rec (attr_value tm p) = Some (attr_value tm p'))
                /\ (forall q, (forall tm, In tm (l_attrs (mb_layout b)) -> q < m_offset tm \/ m_offset tm + m_size tm <= q) ->
                      nth_error p' q = nth_error p q))
  /\ (forall i, length recs <= i -> nth_error (mb_points b') i = nth_error (mb_points b) i)
  /\ (forall q, q < mb_off b \/ mb_off b + mb_len b <= q -> nth_error (mb_points (mb_root b')) q = nth_error (mb_points (mb_root b)) q).

(* ---- histories of a reader ---- *)
Inductive read_op : Type := Seek (s : seek_from) | Read (b : mbuf) (count : nat).
Inductive read_event : Type := At (i : nat) | Got (b : mbuf) (n : nat).
Definition read_step (chunk : nat) (r : las_reader) (o : read_op) : res (las_reader * read_event) :=
  match o with
  | Seek s => let* '(r, i) := las_seek_point r s in Ok (r, At i)
  | Read b count =>
      let* '(b, r, n) := las_read_into chunk r b count in
      match n with ReadPoints n => Ok (r, Got b n) | Unsupported => Err end
  end.
Fixpoint run_reader (chunk : nat) (r : las_reader) (ops : list read_op) : res (las_reader * list read_event) :=
  match ops with
  | [] => Ok (r, [])
  | o :: ops =>
      let* '(r, e) := read_step chunk r o in
      let* '(r, es) := run_reader chunk r ops in Ok (r, e :: es)
  end.
(* A cursor over n points: where a seek leads (None: before the first point, or not an i64) *)
Definition seek_target (n i : nat) (s : seek_from) : option nat :=
  let clamp z := if (z <? 0)%Z || (2 ^ 63 <=? z)%Z then None else Some (Nat.min n (Z.to_nat z)) in
  match s with FromStart k => clamp k | FromEnd k => clamp (Z.of_nat n + k)%Z | FromCurrent k => clamp (Z.of_nat i + k)%Z end.
(* The events of a history, starting at point i. A read of count points gets the next min(count, n - i) ones. *)
Fixpoint cursor_run (f : las_file) (raw : layout) (i : nat) (ops : list read_op) (es : list read_event) (last : nat) : Prop :=
  match ops, es with
  | [], [] => last = i
  | Seek s :: ops, At j :: es => seek_target (length (records f)) i s = Some j /\ cursor_run f raw j ops es last
  | Read b count :: ops, Got b' n :: es =>
      n = Nat.min count (length (records f) - i) /\ filled f raw (firstn n (skipn i (records f))) b b'
      /\ cursor_run f raw (i + n) ops es last
  | _, _ => False
  end.
(* the calls of a history that do not panic *)
Fixpoint calls_ok (f : las_file) (raw : layout) (i : nat) (ops : list read_op) : Prop :=
  match ops with
  | [] => True
  | Seek s :: ops => match seek_target (length (records f)) i s with Some j => calls_ok f raw j ops | None => False end
  | Read b count :: ops =>
      mb_wf b /\ count <= mb_len b
      /\ (mb_layout b = raw \/ readable (is_extended (h_format (f_header f))) raw (mb_layout b))
      /\ calls_ok f raw (i + Nat.min count (length (records f) - i)) ops
  end.

(* ---- points written and read back ---- *)

(* The value of attribute tm (of the default layout of a format) that is read back for the written point p: positions go through the grid,
   flags keep their lowest bits *)
Definition returned (extended : bool) (t : transforms) (tm : member) (p : list Z) : option (list Z) :=
  if String.eqb (m_name tm) "Position3D" then option_map (world_position t) (grid_position t (vec3_f64 (attr_value tm p)))
  else match flag_bits extended (m_name tm) with
       | Some (_, bits) => Some (le_enc 1 (le_dec (attr_value tm p) mod 2 ^ bits))
       | None => Some (attr_value tm p)
       end.
(* The same for a point p of any layout l: what is written is its value as a value of the datatype of tm, zeros if l has no such attribute *)
Definition came_back (extended : bool) (t : transforms) (l : layout) (tm : member) (p : list Z) : option (list Z) :=
  if String.eqb (m_name tm) "Position3D" then
    match option_map (fun v => grid_position t (vec3_f64 v)) (las_value l (m_def tm) p) with
    | Some (Some v) => Some (world_position t v)
    | _ => None
    end
  else match flag_bits extended (m_name tm) with
       | Some (_, bits) => option_map (fun v => le_enc 1 (le_dec v mod 2 ^ bits)) (las_value l (m_def tm) p)
       | None => las_value l (m_def tm) p
       end.
(* b' holds the given points, from its first point on *)
Definition holds_back (extended : bool) (t : transforms) (l : layout) (points : list (list Z)) (b' : mbuf) : Prop :=
  forall k p tm, nth_error points k = Some p -> In tm (l_attrs l) ->
    exists p', nth_error (mb_points b') k = Some p' /\ returned extended t tm p = Some (attr_value tm p').
(* reads into buffers of layout l, and seeks that do not leave the file of n points *)
Fixpoint reads_ok (l : layout) (n i : nat) (ops : list read_op) : Prop :=
  match ops with
  | [] => True
  | Seek s :: ops => match seek_target n i s with Some j => reads_ok l n j ops | None => False end
  | Read b count :: ops => mb_wf b /\ mb_layout b = l /\ count <= mb_len b /\ reads_ok l n (i + Nat.min count (n - i)) ops
  end.
Fixpoint reads_back (extended : bool) (t : transforms) (l : layout) (points : list (list Z)) (i : nat) (ops : list read_op) (es : list read_event) : Prop :=
  match ops, es with
  | [], [] => True
  | Seek s :: ops, At j :: es => seek_target (length points) i s = Some j /\ reads_back extended t l points j ops es
  | Read b count :: ops, Got b' m :: es =>
      m = Nat.min count (length points - i) /\ holds_back extended t l (firstn m (skipn i points)) b'
      /\ reads_back extended t l points (i + m) ops es
  | _, _ => False
  end.
(* the numbers of points the reads return, added *)
Definition total_read (es : list read_event) : nat := list_sum (map (fun e => match e with Got _ n => n | At _ => 0 end) es).

(* the value of a flag fits into its bits *)
Definition flag_fits (extended : bool) (s : string) (v : list Z) : Prop :=
  match flag_bits extended s with Some (_, bits) => (0 <= le_dec v < 2 ^ bits)%Z | None => True end.
