(* Reading and writing 3D Tiles PNTS files (pasture-io/src/tiles3d/{pnts_types,common,feature_table,batch_table,pnts_writer,pnts_reader}.rs).
   Definitions only.

   JSON text is printed and parsed by the external crate serde_json: the two functions are parameters (a json_codec), the tree of values
   between them is modelled. bincode writes the header, a struct of four bytes and six u32, as its fields in order, little-endian. The
   writer's stream is empty at the start and complete writes succeed. Errors of the operating system are not modelled, only reading past
   the end. *)
From Coq Require Import String List ZArith Bool Arith SpecFloat.
From Verif Require Import Base LayoutModel BufferModel TraitModel NumModel ConvModel MathModel LasModel LasIoModel.
Import ListNotations.
Set Implicit Arguments.
Open Scope nat_scope.

(* ------------------------------------------------------------------ JSON *)

(* serde_json::Value. A number is an integer (u64 or i64) or an f64; an object is a map from names to values. *)
Inductive json : Type :=
| JNull | JBool (b : bool) | JInt (z : Z) | JFloat (f : spec_float) | JText (s : string)
| JArr (l : list json) | JObj (fields : list (string * json)).

(* serde_json::to_string, and String::from_utf8 followed by serde_json::from_str *)
Record json_codec : Type := mk_codec { json_text : json -> list Z; json_parse : list Z -> option json }.

(* look up a key of a map *)
Definition assoc {A : Type} (k : string) (l : list (string * A)) : option A :=
  option_map snd (find (fun e => String.eqb (fst e) k) l).

(* serde_json's From<f64> for Value: null unless finite *)
Definition json_f64 (f : spec_float) : json :=
  match f with S754_infinity _ | S754_nan => JNull | _ => JFloat f end.
(* Value::as_u64 *)
Definition as_u64 (v : json) : option Z :=
  match v with JInt z => if ((0 <=? z) && (z <? 2 ^ 64))%Z then Some z else None | _ => None end.
(* Value::as_f64 *)
Definition as_f64 (v : json) : option spec_float :=
  match v with
  | JInt z => match as_cast PF64 (NInt z) with NFlt f => Some f | NInt _ => None end
  | JFloat f => Some f
  | _ => None
  end.

(* json_arr_to_vec3f64, common.rs:78-97. json_arr_to_vec3f32, common.rs:57-76, fails on the same arrays. *)
Definition json_arr_to_vec3f64 (l : list json) : res (p3 spec_float) :=
  match map as_f64 l with
  | [Some x; Some y; Some z] => Ok (mk_p3 x y z)
  | _ => Err
  end.
(* json_arr_to_vec4u8, common.rs:99-118: four numbers below 256 *)
Definition json_arr_to_vec4u8 (l : list json) : res (list Z) :=
  if Nat.eqb (List.length l) 4 && forallb (fun v => match as_u64 v with Some z => (z <? 256)%Z | None => false end) l
  then Ok (map (fun v => match as_u64 v with Some z => z | None => 0%Z end) l) else Err.

(* read_json_header, common.rs:14-24, on the bytes that follow. With the number of bytes read it is deser_feature_table_header's reader. *)
Definition read_json_header (c : json_codec) (bytes : list Z) (size : nat) : res json :=
  if size <=? List.length bytes
  then match json_parse c (firstn size bytes) with Some v => Ok v | None => Err end
  else Err.
(* write_json_header, common.rs:29-54: the bytes written *)
Definition write_json_header (c : json_codec) (v : json) (position : nat) : list Z :=
  let text := json_text c v in
  let current := position + List.length text in
  text ++ repeat 32%Z (align_to current 8 - current).

(* ------------------------------------------------------------------ feature table *)

(* FeatureTableDataReference and FeatureTableValue, feature_table.rs:16-30 *)
Inductive ft_value : Type :=
| SingleValue (v : json)
| ArrayValue (l : list json)
| DataReference (byte_offset : nat) (component_type : option string).
(* FeatureTableHeader, feature_table.rs:106: a HashMap. The order of its entries has no effect on what is written, as
   ser_feature_table_header makes a sorted map of it. *)
Definition ft_header : Type := list (string * ft_value).

(* serde's Deserialize of FeatureTableDataReference, feature_table.rs:16-22: other fields are ignored, a missing Option is None *)
Definition data_reference_of (fields : list (string * json)) : res ft_value :=
  match assoc "byteOffset" fields, assoc "componentType" fields with
  | Some o, t =>
      match as_u64 o, t with
      | Some z, None | Some z, Some JNull => Ok (DataReference (Z.to_nat z) None)
      | Some z, Some (JText s) => Ok (DataReference (Z.to_nat z) (Some s))
      | _, _ => Err
      end
  | None, _ => Err
  end.
(* TryFrom<&Value> for FeatureTableValue, feature_table.rs:56-79 *)
Definition ft_value_of_json (v : json) : res ft_value :=
  match v with
  | JArr l => Ok (ArrayValue l)
  | JObj fields => match assoc "byteOffset" fields with Some _ => data_reference_of fields | None => Ok (SingleValue v) end
  | _ => Ok (SingleValue v)
  end.
(* From<&FeatureTableValue> for Value, feature_table.rs:94-105 *)
Definition json_of_ft_value (v : ft_value) : json :=
  match v with
  | SingleValue v => v
  | ArrayValue l => JArr l
  | DataReference o t =>
      JObj (("byteOffset"%string, JInt (Z.of_nat o))
            :: match t with Some s => [("componentType"%string, JText s)] | None => [] end)
  end.

(* deser_feature_table_header, feature_table.rs:114-145, on the bytes that follow *)
Definition deser_feature_table_header (c : json_codec) (bytes : list Z) (size : nat) : res ft_header :=
  let* v := read_json_header c bytes size in
  match v with
  | JObj fields => mapM (fun e => let* v := ft_value_of_json (snd e) in Ok (fst e, v)) fields
  | _ => Err
  end.
(* ser_feature_table_header, feature_table.rs:149-163 *)
Definition ser_feature_table_header (c : json_codec) (h : ft_header) (position : nat) : list Z :=
  write_json_header c (JObj (map (fun e => (fst e, json_of_ft_value (snd e))) h)) position.
(* ser_batch_table_header, batch_table.rs:146-161, of the empty header *)
Definition ser_empty_batch_table_header (c : json_codec) (position : nat) : list Z :=
  write_json_header c (JObj []) position.

(* ------------------------------------------------------------------ header *)

(* PntsHeader, pnts_types.rs:19-30 *)
Definition PNTS_MAGIC : list Z := [112; 110; 116; 115]%Z.
Definition HEADER_LENGTH : nat := 28.
Record pnts_header : Type := mk_ph {
  ph_version : Z; ph_byte_length : Z; ph_ft_json : Z; ph_ft_binary : Z; ph_bt_json : Z; ph_bt_binary : Z }.
(* bincode::serialize_into of PntsHeader::new(..) *)
Definition header_bytes (h : pnts_header) : list Z :=
  PNTS_MAGIC ++ le_enc 4 (ph_version h) ++ le_enc 4 (ph_byte_length h) ++ le_enc 4 (ph_ft_json h) ++ le_enc 4 (ph_ft_binary h)
  ++ le_enc 4 (ph_bt_json h) ++ le_enc 4 (ph_bt_binary h).
(* bincode::deserialize_from and verify_magic, pnts_reader.rs:53-55, pnts_types.rs:55-60 *)
Definition read_header (bytes : list Z) : res pnts_header :=
  if List.length bytes <? HEADER_LENGTH then Err
  else if list_eq_dec Z.eq_dec (sub bytes 0 4) PNTS_MAGIC
  then Ok (mk_ph (le_dec (sub bytes 4 4)) (le_dec (sub bytes 8 4)) (le_dec (sub bytes 12 4)) (le_dec (sub bytes 16 4))
                 (le_dec (sub bytes 20 4)) (le_dec (sub bytes 24 4)))
  else Err.
(* usize.try_into::<u32>().expect(..), pnts_writer.rs:196-212 *)
Definition to_u32 (n : nat) : res Z := if (Z.of_nat n <? 2 ^ 32)%Z then Ok (Z.of_nat n) else Panic.

(* ------------------------------------------------------------------ writer *)

(* COLOR_RGBA, pnts_types.rs:11-14 *)
Definition COLOR_RGBA : attr_def := mk_def "ColorRGBA" Vec4u8.
(* pnts_semantics_name_from_point_attribute, pnts_writer.rs:38-52 *)
Definition semantics_name (a : attr_def) : option string :=
  if String.eqb (ad_name a) (ad_name POSITION_3D) then Some "POSITION"%string
  else if String.eqb (ad_name a) (ad_name COLOR_RGB) then Some "RGB"%string
  else if String.eqb (ad_name a) (ad_name COLOR_RGBA) then Some "RGBA"%string
  else if String.eqb (ad_name a) (ad_name NORMAL) then Some "NORMAL"%string
  else None.
(* supported_attributes, pnts_writer.rs:120-128 *)
Definition supported_attributes : list (string * datatype) :=
  [ (ad_name POSITION_3D, Vec3f32); (ad_name COLOR_RGB, Vec3u8); (ad_name COLOR_RGBA, Vec4u8); (ad_name NORMAL, Vec3f32) ].

(* PntsWriter, pnts_writer.rs:66-74; pw_out is what was written to the stream *)
Record pnts_writer : Type := mk_pw {
  pw_out : list Z; pw_expected : layout; pw_default : layout; pw_cache : hbuf;
  pw_converters : list (string * option conv_fn); pw_rtc : option (p3 spec_float); pw_requires_flush : bool }.

(* one round of the loop of make_compatible_layout, pnts_writer.rs:130-153 *)
Definition compatible_step (st : layout * list (string * option conv_fn)) (src : member)
  : res (layout * list (string * option conv_fn)) :=
  let (l, fns) := st in
  match assoc (m_name src) supported_attributes with
  | None => Ok (l, fns)
  | Some t =>
      let* l := add_attribute l (mk_def (m_name src) t) Default in
      let* dst := unwrap (get_attribute_by_name l (m_name src)) in
      if datatype_eqb (m_type src) (m_type dst) then Ok (l, fns ++ [(m_name src, None)])
      else let* c := get_converter_for_attributes (m_def src) (m_def dst) in Ok (l, fns ++ [(m_name src, c)])
  end.
(* make_compatible_layout, pnts_writer.rs:107-156 *)
Definition make_compatible_layout (l : layout) : res (layout * list (string * option conv_fn)) :=
  foldM compatible_step (l_attrs l) (layout_default, []).
(* from_write_and_layout, pnts_writer.rs:80-96. order: the order in which the HashMap of the converters is iterated. *)
Definition writer_new (order : list (string * option conv_fn) -> list (string * option conv_fn)) (l : layout) : res pnts_writer :=
  let* r := make_compatible_layout l in
  Ok (mk_pw [] l (fst r) (hb_new (fst r)) (order (snd r)) None true).
(* set_rtc_center, pnts_writer.rs:101-103 *)
Definition set_rtc_center (w : pnts_writer) (c : p3 spec_float) : pnts_writer :=
  mk_pw (pw_out w) (pw_expected w) (pw_default w) (pw_cache w) (pw_converters w) (Some c) (pw_requires_flush w).

(* create_feature_table, pnts_writer.rs:229-278: byteOffset of each attribute, names of the semantics, global semantics *)
Fixpoint point_semantics (n offset : nat) (ms : list member) : res ft_header :=
  match ms with
  | [] => Ok []
  | m :: ms' =>
      let* name := unwrap (semantics_name (m_def m)) in
      let* rest := point_semantics n (offset + align_to (m_size m * n) 8) ms' in
      Ok ((name, DataReference offset None) :: rest)
  end.
Definition create_feature_table (w : pnts_writer) : res ft_header :=
  let n := hb_len (pw_cache w) in
  let* semantics := point_semantics n 0 (l_attrs (pw_default w)) in
  Ok (semantics ++ [("POINTS_LENGTH"%string, SingleValue (JInt (Z.of_nat n)))]
      ++ match pw_rtc w with
         | Some c => [("RTC_CENTER"%string, ArrayValue [json_f64 (px c); json_f64 (py c); json_f64 (pz c)])]
         | None => []
         end).
(* calc_feature_table_body_length, pnts_writer.rs:289-297 *)
Definition feature_table_body_length (w : pnts_writer) : nat :=
  fold_left (fun s m => s + align_to (hb_len (pw_cache w) * m_size m) 8) (l_attrs (pw_default w)) 0.
(* write_feature_table_body, pnts_writer.rs:299-331: the stream after it *)
Definition write_feature_table_body (w : pnts_writer) (out : list Z) : res (list Z) :=
  let n := hb_len (pw_cache w) in
  let* out := foldM (fun out m =>
                let* data := hb_get_attribute_range_ref (pw_cache w) (m_def m) 0 n in
                let size := m_size m * n in
                Ok (out ++ data ++ repeat 0%Z (align_to size 8 - size)))
              (l_attrs (pw_default w)) out in
  Ok (out ++ repeat 0%Z (align_to (List.length out) 8 - List.length out)).
(* write_cached_points, pnts_writer.rs:158-227 *)
Definition write_cached_points (c : json_codec) (w : pnts_writer) : res pnts_writer :=
  let* table := create_feature_table w in
  let ft_blob := ser_feature_table_header c table HEADER_LENGTH in
  let before := HEADER_LENGTH + List.length ft_blob in
  let body := align_to (before + feature_table_body_length w) 8 - before in
  let bt_start := before + body in
  let bt_blob := ser_empty_batch_table_header c bt_start in
  let* total := to_u32 (bt_start + List.length bt_blob + 0) in
  let* ft_json := to_u32 (List.length ft_blob) in
  let* ft_binary := to_u32 body in
  let* bt_json := to_u32 (List.length bt_blob) in
  let* bt_binary := to_u32 0 in
  let out := pw_out w ++ header_bytes (mk_ph 1 total ft_json ft_binary bt_json bt_binary) ++ ft_blob in
  let* out := write_feature_table_body w out in
  Ok (mk_pw (out ++ bt_blob) (pw_expected w) (pw_default w) (pw_cache w) (pw_converters w) (pw_rtc w) false).
(* flush, pnts_writer.rs:390-395, and Drop, pnts_writer.rs:402-406 *)
Definition flush (c : json_codec) (w : pnts_writer) : res pnts_writer :=
  if pw_requires_flush w then write_cached_points c w else Ok w.

(* OwningBuffer::append, point_buffer.rs:377-389, of a HashMapBuffer and any buffer *)
Definition append_points (h : hbuf) (points : buffer) : res hbuf :=
  let* _ := assert (layout_eqb (hb_layout h) (bf_layout points)) in
  let old := hb_len h in
  let* r := foldM (fun st i =>
              let* p := bf_get_point points i (snd st) in
              let* b := hb_set_point (fst st) (old + i) p in
              Ok (b, p))
            (range 0 (bf_len points))
            (hb_resize h (old + bf_len points), repeat 0%Z (l_size (hb_layout h))) in
  Ok (fst r).
(* the values of one attribute, pnts_writer.rs:352-385: state the cached points and the two scratch buffers *)
Definition write_attribute (points : buffer) (base : nat) (h : hbuf) (e : string * option conv_fn) : res hbuf :=
  match get_attribute_by_name (bf_layout points) (fst e) with
  | None => Ok h
  | Some attr =>
      let* dst := unwrap (get_attribute_by_name (hb_layout h) (fst e)) in
      let* r := foldM (fun st i =>
                  let '(h, buf, converted) := st in
                  let* buf := bf_get_attribute points (m_def attr) i buf in
                  match snd e with
                  | Some conversion =>
                      let converted := conv_into conversion buf converted in
                      let* h := hb_set_attribute h (m_def dst) (base + i) converted in
                      Ok (h, buf, converted)
                  | None =>
                      let* h := hb_set_attribute h (m_def dst) (base + i) buf in
                      Ok (h, buf, converted)
                  end)
                (range 0 (bf_len points)) (h, repeat 0%Z (ad_size (m_def attr)), repeat 0%Z (m_size dst)) in
      Ok (fst (fst r))
  end.
(* write, pnts_writer.rs:335-388 *)
Definition write (w : pnts_writer) (points : buffer) : res pnts_writer :=
  if negb (layout_eqb (bf_layout points) (pw_expected w)) then Panic
  else
    let* h := (if layout_eqb (bf_layout points) (hb_layout (pw_cache w))
               then append_points (pw_cache w) points
               else
                 let base := hb_len (pw_cache w) in
                 foldM (write_attribute points base) (pw_converters w) (hb_resize (pw_cache w) (base + bf_len points))) in
    Ok (mk_pw (pw_out w) (pw_expected w) (pw_default w) h (pw_converters w) (pw_rtc w) (pw_requires_flush w)).

(* ------------------------------------------------------------------ reader *)

(* PntsReadPositionsMode, pnts_reader.rs:31-38 *)
Inductive read_mode : Type := RelativeToCenter | Absolute.
(* PntsReader, pnts_reader.rs:41-48; of the metadata only POINTS_LENGTH and RTC_CENTER are used by the reader *)
Record pnts_reader : Type := mk_pr {
  pr_bytes : list Z; pr_num : nat; pr_rtc : option (p3 spec_float); pr_layout : layout; pr_index : nat;
  pr_offsets : list (string * nat); pr_mode : read_mode }.

(* the four entries looked for in layout_from_feature_table_header, pnts_reader.rs:113-175, in their order *)
Definition reader_attributes : list (string * attr_def) :=
  [ ("POSITION"%string, mk_def (ad_name POSITION_3D) Vec3f32); ("RGBA"%string, COLOR_RGBA);
    ("RGB"%string, mk_def (ad_name COLOR_RGB) Vec3u8); ("NORMAL"%string, NORMAL) ].
Definition layout_step (h : ft_header) (st : layout * list (string * nat)) (e : string * attr_def) : res (layout * list (string * nat)) :=
  match assoc (fst e) h with
  | None => Ok st
  | Some (DataReference o _) =>
      let* l := add_attribute (fst st) (snd e) (Packed 1) in Ok (l, snd st ++ [(ad_name (snd e), o)])
  | Some _ => Err
  end.
Definition layout_from_feature_table_header (h : ft_header) : res (layout * list (string * nat)) :=
  foldM (layout_step h) reader_attributes (layout_default, []).

(* an optional array entry of metadata_from_feature_table_header *)
Definition array_entry {A : Type} (h : ft_header) (key : string) (f : list json -> res A) : res (option A) :=
  match assoc key h with
  | None => Ok None
  | Some (ArrayValue l) => let* v := f l in Ok (Some v)
  | Some _ => Err
  end.
Definition number_entry (h : ft_header) (key : string) : res (option nat) :=
  match assoc key h with
  | None => Ok None
  | Some (SingleValue v) => match as_u64 v with Some z => Ok (Some (Z.to_nat z)) | None => Err end
  | Some _ => Err
  end.
(* metadata_from_feature_table_header, pnts_reader.rs:177-244 *)
Definition metadata_from_feature_table_header (h : ft_header) : res (nat * option (p3 spec_float)) :=
  let* n := number_entry h "POINTS_LENGTH" in
  match n with
  | None => Err
  | Some n =>
      let* rtc := array_entry h "RTC_CENTER" json_arr_to_vec3f64 in
      let* _ := array_entry h "QUANTIZED_VOLUME_OFFSET" json_arr_to_vec3f64 in
      let* _ := array_entry h "QUANTIZED_VOLUME_SCALE" json_arr_to_vec3f64 in
      let* _ := array_entry h "CONSTANT_RGBA" json_arr_to_vec4u8 in
      let* _ := number_entry h "BATCH_LENGTH" in
      Ok (n, rtc)
  end.
(* u64 addition with overflow checks, pnts_reader.rs:84, 316-317 *)
Definition offset_add (a b : nat) : res nat := if (Z.of_nat a + Z.of_nat b <? 2 ^ 64)%Z then Ok (a + b) else Panic.
(* from_read, pnts_reader.rs:51-95. The entries removed from the header by layout_from_feature_table_header are not looked up again. *)
Definition from_read (c : json_codec) (bytes : list Z) : res pnts_reader :=
  let* h := read_header bytes in
  let size := Z.to_nat (ph_ft_json h) in
  let* table := deser_feature_table_header c (skipn HEADER_LENGTH bytes) size in
  let* r := layout_from_feature_table_header table in
  let* meta := metadata_from_feature_table_header table in
  let body := HEADER_LENGTH + size in
  let* offsets := mapM (fun e => let* o := offset_add (snd e) body in Ok (fst e, o)) (snd r) in
  Ok (mk_pr bytes (fst meta) (snd meta) (fst r) 0 offsets Absolute).
(* set_read_positions_mode, pnts_reader.rs:98-100 *)
Definition set_read_positions_mode (r : pnts_reader) (m : read_mode) : pnts_reader :=
  mk_pr (pr_bytes r) (pr_num r) (pr_rtc r) (pr_layout r) (pr_index r) (pr_offsets r) m.

(* (x as f64 + c) as f32 and x + c, pnts_reader.rs:264-277, on the bytes of one coordinate *)
Definition shift_coordinate (p : prim) (c : spec_float) (bs : list Z) : list Z :=
  match as_cast PF64 (dec_num p bs) with
  | NFlt x => enc_num p (as_cast p (NFlt (f64_add x c)))
  | NInt _ => bs
  end.
Definition shift_position (p : prim) (c : p3 spec_float) (bs : list Z) : list Z :=
  let component k := sub bs (k * prim_size p) (prim_size p) in
  shift_coordinate p (px c) (component 0) ++ shift_coordinate p (py c) (component 1) ++ shift_coordinate p (pz c) (component 2).
(* apply_rtc_center_offset, pnts_reader.rs:246-282 *)
Definition apply_rtc_center_offset (r : pnts_reader) (b : mbuf) : res mbuf :=
  match pr_rtc r, get_attribute_by_name (mb_layout b) (ad_name POSITION_3D) with
  | Some c, Some m =>
      match m_type m with
      | Vec3f32 => transform_attribute b (m_def m) Vec3f32 (fun _ => shift_position PF32 c)
      | Vec3f64 => transform_attribute b (m_def m) Vec3f64 (fun _ => shift_position PF64 c)
      | _ => Err
      end
  | _, _ => Ok b
  end.

(* read_exact of n bytes at a position *)
Definition read_at (bytes : list Z) (pos n : nat) : res (list Z) :=
  if pos + n <=? List.length bytes then Ok (sub bytes pos n) else Err.
(* the loop body of read_into for one attribute of the file, pnts_reader.rs:308-349 *)
Definition read_attribute (r : pnts_reader) (n : nat) (target : layout) (b : mbuf) (a : member) : res mbuf :=
  match get_attribute_by_name target (m_name a) with
  | None => Ok b
  | Some ta =>
      let* first := unwrap (assoc (m_name a) (pr_offsets r)) in
      let* current := offset_add first (pr_index r * m_size a) in
      let* converter := get_converter_for_attributes (m_def a) (m_def ta) in
      match converter with
      | Some f =>
          let* st := foldM (fun st i =>
                       let* src := read_at (pr_bytes r) (current + i * m_size a) (m_size a) in
                       let dst := conv_into f src (snd st) in
                       let* b := mb_set_attribute (fst st) (m_def ta) i dst in
                       Ok (b, dst)) (range 0 n) (b, repeat 0%Z (m_size ta)) in
          Ok (fst st)
      | None =>
          foldM (fun b i =>
            let* src := read_at (pr_bytes r) (current + i * m_size a) (m_size a) in
            mb_set_attribute b (m_def ta) i src) (range 0 n) b
      end
  end.
(* read_into, pnts_reader.rs:293-365; the number of points, the buffer and the reader after it *)
Definition read_into (r : pnts_reader) (b : mbuf) (count : nat) : res (nat * mbuf * pnts_reader) :=
  let n := Nat.min (pr_num r - pr_index r) count in
  if Nat.eqb n 0 then Err
  else
    let* b := foldM (read_attribute r n (mb_layout b)) (l_attrs (pr_layout r)) b in
    let r' := mk_pr (pr_bytes r) (pr_num r) (pr_rtc r) (pr_layout r) (pr_index r + n) (pr_offsets r) (pr_mode r) in
    let* b := (match pr_mode r with Absolute => apply_rtc_center_offset r b | RelativeToCenter => Ok b end) in
    Ok (n, b, r').

(* usize.try_into::<i64>() and the addition, pnts_reader.rs:380-387 *)
Definition add_to_index (n : nat) (d : Z) : res Z :=
  if (Z.of_nat n <? 2 ^ 63)%Z then i64_add (Z.of_nat n) d else Err.
(* seek_point, pnts_reader.rs:377-392: a negative i64 is no u64 *)
Definition seek_point (r : pnts_reader) (p : seek_from) : res (nat * pnts_reader) :=
  let* new := (match p with FromStart n => Ok n | FromEnd d => add_to_index (pr_num r) d | FromCurrent d => add_to_index (pr_index r) d end) in
  if (new <? 0)%Z then Err
  else
    let i := Z.to_nat (Z.min new (Z.of_nat (pr_num r))) in
    Ok (i, mk_pr (pr_bytes r) (pr_num r) (pr_rtc r) (pr_layout r) i (pr_offsets r) (pr_mode r)).
