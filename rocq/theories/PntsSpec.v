(* What a PNTS file has to look like, and what writing and reading it should do. *)
From Coq Require Import String List ZArith Bool Arith SpecFloat.
From Verif Require Import Base LayoutModel LayoutSpec BufferModel BufferSpec TraitModel TraitSpec NumModel NumSpec ConvModel ConvSpec
  MathModel LasIoModel PntsModel.
Import ListNotations.
Open Scope nat_scope.

(* The point semantics: pasture's name, the name in the file, the datatype in the file *)
Definition semantics_table : list (string * string * datatype) :=
  [ ("Position3D"%string, "POSITION"%string, Vec3f32); ("ColorRGB"%string, "RGB"%string, Vec3u8);
    ("ColorRGBA"%string, "RGBA"%string, Vec4u8); ("Normal"%string, "NORMAL"%string, Vec3f32) ].
(* the attribute n is stored under the key with datatype t *)
Definition semantic (n key : string) (t : datatype) : Prop := In (n, key, t) semantics_table.

(* Layouts a writer can be made for: some attribute has a semantic, and those that have one can be converted *)
Definition pnts_ready (l : layout) : Prop :=
  (exists m key t, In m (l_attrs l) /\ semantic (m_name m) key t)
  /\ forall m key t, In m (l_attrs l) -> semantic (m_name m) key t -> m_type m = t \/ supported (m_type m) t.

(* ---- the external JSON printer and parser ---- *)

Definition finite_float (f : spec_float) : Prop := match f with S754_infinity _ | S754_nan => False | _ => True end.
(* Entries of a feature table: numbers, references to the binary body, arrays of finite floats *)
Inductive table_entry : json -> Prop :=
| TNumber z : (0 <= z < 2 ^ 64)%Z -> table_entry (JInt z)
| TReference z : (0 <= z < 2 ^ 64)%Z -> table_entry (JObj [("byteOffset"%string, JInt z)])
| TArray fs : Forall finite_float fs -> table_entry (JArr (map JFloat fs)).
(* the entry with its floats replaced: reread f is the f64 that the parser makes of the text of f *)
Definition reread_entry (reread : spec_float -> spec_float) (v : json) : json :=
  match v with
  | JArr l => JArr (map (fun x => match x with JFloat f => JFloat (reread f) | _ => x end) l)
  | _ => v
  end.
(* What is assumed of serde_json: the text of such an object, followed by spaces, is parsed as an object with the same entries *)
Definition json_ok (c : json_codec) (reread : spec_float -> spec_float) : Prop :=
  forall fields k, NoDup (map fst fields) -> Forall (fun e => table_entry (snd e)) fields ->
    exists fields', json_parse c (json_text c (JObj fields) ++ repeat 32%Z k) = Some (JObj fields')
      /\ NoDup (map fst fields')
      /\ forall key, assoc key fields' = option_map (reread_entry reread) (assoc key fields).

(* ---- histories of a writer ---- *)

Inductive writer_call : Type := Write (points : buffer) | SetCenter (c : p3 spec_float) | Flush.
Definition writer_step (c : json_codec) (w : pnts_writer) (k : writer_call) : res pnts_writer :=
  match k with Write p => write w p | SetCenter v => Ok (set_rtc_center w v) | Flush => flush c w end.
(* the calls, then the writer is dropped *)
Definition run_and_drop (c : json_codec) (w : pnts_writer) (calls : list writer_call) : res pnts_writer :=
  let* w := foldM (writer_step c) calls w in flush c w.

(* the points of the writes, in order; the calls before the first flush; the last centre set *)
Definition written (calls : list writer_call) : list (list Z) :=
  concat (map (fun k => match k with Write p => bf_points p | _ => [] end) calls).
Fixpoint before_flush (calls : list writer_call) : list writer_call :=
  match calls with
  | [] => []
  | Flush :: _ => []
  | k :: calls' => k :: before_flush calls'
  end.
Definition centre_set (calls : list writer_call) : option (p3 spec_float) :=
  fold_left (fun r k => match k with SetCenter v => Some v | _ => r end) calls None.

Definition map_p3 {A B : Type} (f : A -> B) (v : p3 A) : p3 B := mk_p3 (f (px v)) (f (py v)) (f (pz v)).

(* Every buffer is valid and has the layout of the writer, every centre is finite *)
Definition call_ok (l : layout) (k : writer_call) : Prop :=
  match k with
  | Write p => bf_wf p /\ bf_layout p = l
  | SetCenter v => finite_float (px v) /\ finite_float (py v) /\ finite_float (pz v)
  | Flush => True
  end.

(* ---- the file ---- *)

(* the four-byte number at a position *)
Definition u32_at (file : list Z) (pos : nat) : Z := le_dec (sub file pos 4).

(* The file consists of a header of 28 bytes and four sections; the lengths in the header are those of the file and the sections;
   the second and third section start at multiples of 8. *)
Definition sections (file ft_json ft_binary bt_json bt_binary : list Z) : Prop :=
  sub file 0 4 = [112; 110; 116; 115]%Z /\ u32_at file 4 = 1%Z
  /\ skipn 28 file = ft_json ++ ft_binary ++ bt_json ++ bt_binary
  /\ List.length file = 28 + List.length ft_json + List.length ft_binary + List.length bt_json + List.length bt_binary
  /\ (Z.of_nat (List.length file) < 2 ^ 32)%Z /\ u32_at file 8 = Z.of_nat (List.length file)
  /\ u32_at file 12 = Z.of_nat (List.length ft_json) /\ u32_at file 16 = Z.of_nat (List.length ft_binary)
  /\ u32_at file 20 = Z.of_nat (List.length bt_json) /\ u32_at file 24 = Z.of_nat (List.length bt_binary)
  /\ Nat.modulo (28 + List.length ft_json) 8 = 0
  /\ Nat.modulo (28 + List.length ft_json + List.length ft_binary) 8 = 0.

(* The feature table names n points. The values of attribute name (key, datatype t) are those of points ps of layout l: they are in the
   body at a multiple of 8, one after the other. *)
Definition table_number (fields : list (string * json)) (key : string) (n : nat) : Prop := assoc key fields = Some (JInt (Z.of_nat n)).
Definition table_offset (fields : list (string * json)) (key : string) (o : nat) : Prop :=
  assoc key fields = Some (JObj [("byteOffset"%string, JInt (Z.of_nat o))]).
Definition column (ft_binary : list Z) (o n : nat) (t : datatype) (m : member) (ps : list (list Z)) : Prop :=
  Nat.modulo o 8 = 0 /\ o + n * dt_size t <= List.length ft_binary
  /\ forall i p, nth_error ps i = Some p -> value_as (m_type m) t (attr_value m p) = Some (sub ft_binary (o + i * dt_size t) (dt_size t)).

(* a PNTS file with the points ps of layout l and the centre, if any; the feature table has no other entries *)
Definition pnts_file (c : json_codec) (l : layout) (centre : option (p3 spec_float)) (ps : list (list Z)) (file : list Z) : Prop :=
  exists ft_json ft_binary bt_json bt_binary fields,
    sections file ft_json ft_binary bt_json bt_binary
    /\ json_parse c ft_json = Some (JObj fields)
    /\ NoDup (map fst fields)
    /\ (forall key, In key (map fst fields) -> key = "POINTS_LENGTH"%string \/ key = "RTC_CENTER"%string
          \/ exists m t, In m (l_attrs l) /\ semantic (m_name m) key t)
    /\ table_number fields "POINTS_LENGTH" (List.length ps)
    /\ assoc "RTC_CENTER" fields = option_map (fun v => JArr [JFloat (px v); JFloat (py v); JFloat (pz v)]) centre
    /\ (forall m key t, In m (l_attrs l) -> semantic (m_name m) key t ->
          exists o, table_offset fields key o /\ column ft_binary o (List.length ps) t m ps)
    /\ (forall m key t m' key' t' o o', In m (l_attrs l) -> semantic (m_name m) key t ->
          In m' (l_attrs l) -> semantic (m_name m') key' t' -> m <> m' -> table_offset fields key o -> table_offset fields key' o' ->
          o + List.length ps * dt_size t <= o' \/ o' + List.length ps * dt_size t' <= o).

(* ---- reading ---- *)

(* all data of the attributes is in the file, whose length is a u64 *)
Definition complete (r : pnts_reader) : Prop :=
  forall m, In m (l_attrs (pr_layout r)) ->
    exists o, assoc (m_name m) (pr_offsets r) = Some o /\ o + pr_num r * m_size m <= List.length (pr_bytes r) /\ (Z.of_nat (List.length (pr_bytes r)) < 2 ^ 64)%Z.
(* a reader of a file that is not truncated *)
Definition reader_ok (r : pnts_reader) : Prop := good_layout (pr_layout r) /\ complete r /\ pr_index r <= pr_num r.
(* the bytes of an attribute of a point in the file *)
Definition file_value (r : pnts_reader) (m : member) (i : nat) : list Z :=
  match assoc (m_name m) (pr_offsets r) with
  | Some o => sub (pr_bytes r) (o + i * m_size m) (m_size m)
  | None => []
  end.
(* the reader has opened a file with the points ps of layout l *)
Definition holds (r : pnts_reader) (l : layout) (ps : list (list Z)) : Prop :=
  pr_num r = List.length ps
  /\ (forall m key t, In m (l_attrs l) -> semantic (m_name m) key t ->
        exists rm, In rm (l_attrs (pr_layout r)) /\ m_name rm = m_name m /\ m_type rm = t
          /\ forall i p, nth_error ps i = Some p -> value_as (m_type m) t (attr_value m p) = Some (file_value r rm i))
  /\ (forall rm, In rm (l_attrs (pr_layout r)) -> exists m key, In m (l_attrs l) /\ m_name m = m_name rm /\ semantic (m_name m) key (m_type rm)).

(* A buffer can be read into: the values of attributes with the same name can be converted *)
Definition readable (r : pnts_reader) (l : layout) : Prop :=
  forall m tm, In m (l_attrs (pr_layout r)) -> In tm (l_attrs l) -> m_name m = m_name tm ->
    m_type m = m_type tm \/ supported (m_type m) (m_type tm).

(* q is the point old of layout l after reading point i: attributes that are in the file have its values, the others are unchanged *)
Definition point_read (r : pnts_reader) (l : layout) (i : nat) (old q : list Z) : Prop :=
  (forall m tm, In m (l_attrs (pr_layout r)) -> In tm (l_attrs l) -> m_name m = m_name tm ->
     value_as (m_type m) (m_type tm) (file_value r m i) = Some (attr_value tm q))
  /\ (forall tm, In tm (l_attrs l) -> ~ In (m_name tm) (map m_name (l_attrs (pr_layout r))) -> attr_value tm q = attr_value tm old).

(* the coordinates of a position of datatype Vec3f32 or Vec3f64, as f64 *)
Definition position_prim (t : datatype) : option prim :=
  match t with Vec3f32 => Some PF32 | Vec3f64 => Some PF64 | _ => None end.
(* v' is the position v of datatype t moved by c: coordinate + centre is computed as f64 and rounded to the datatype *)
Definition moved_by (c : p3 spec_float) (t : datatype) (v v' : list Z) : Prop :=
  exists p, position_prim t = Some p /\ List.length v' = 3 * prim_size p
    /\ forall k x ck, nth_error [px c; py c; pz c] k = Some ck ->
         as_cast PF64 (dec_num p (sub v (k * prim_size p) (prim_size p))) = NFlt x ->
         sub v' (k * prim_size p) (prim_size p) = enc_num p (as_cast p (NFlt (SFadd 53 1024 x ck))).
(* q is p with its position moved by c, where the layout has one *)
Definition point_moved (l : layout) (c : p3 spec_float) (p q : list Z) : Prop :=
  forall tm, In tm (l_attrs l) ->
    if String.eqb (m_name tm) "Position3D" then moved_by c (m_type tm) (attr_value tm p) (attr_value tm q)
    else attr_value tm q = attr_value tm p.

(* the same buffer except for its points: layout, number of points, and what is outside of a slice *)
Definition same_outside (b b' : mbuf) : Prop :=
  mb_layout b' = mb_layout b /\ mb_len b' = mb_len b /\ mb_len (mb_root b') = mb_len (mb_root b)
  /\ forall q, q < mb_off b \/ mb_off b + mb_len b <= q -> nth_error (mb_points (mb_root b')) q = nth_error (mb_points (mb_root b)) q.

(* the printed feature tables (and the empty batch table) have at most k bytes *)
Definition tables_within (c : json_codec) (k : nat) : Prop :=
  forall fields, NoDup (map fst fields) -> Forall (fun e => table_entry (snd e)) fields ->
    (forall key v, In (key, JArr v) fields -> List.length v = 3) -> incl (map fst fields) ["POSITION"; "RGB"; "RGBA"; "NORMAL"; "POINTS_LENGTH"; "RTC_CENTER"]%string ->
    List.length (json_text c (JObj fields)) <= k.

(* ---- histories of a reader ---- *)

Inductive reader_call : Type := RSeek (s : seek_from) | RRead (b : mbuf) (count : nat) | RMode (m : read_mode).
Inductive reader_event : Type := RAt (i : nat) | RGot (n : nat) (b : mbuf) | RFailed | RDone.
(* one call; a call that returns an error leaves the reader as it was (see calls_fit for the calls this is used for) *)
Definition reader_step (r : pnts_reader) (k : reader_call) : res (pnts_reader * reader_event) :=
  match k with
  | RSeek s => match seek_point r s with Ok (i, r') => Ok (r', RAt i) | Err => Ok (r, RFailed) | Panic => Panic end
  | RRead b count => match read_into r b count with Ok (n, b', r') => Ok (r', RGot n b') | Err => Ok (r, RFailed) | Panic => Panic end
  | RMode m => Ok (set_read_positions_mode r m, RDone)
  end.
Fixpoint run_calls (r : pnts_reader) (calls : list reader_call) : res (pnts_reader * list reader_event) :=
  match calls with
  | [] => Ok (r, [])
  | k :: calls => let* '(r, e) := reader_step r k in let* '(r, es) := run_calls r calls in Ok (r, e :: es)
  end.

(* Where a seek from point i leads among num points: behind the last point is at the end, before the first point is an error. *)
Definition target (num i : nat) (s : seek_from) : option nat :=
  let z := match s with FromStart k => k | FromEnd k => (Z.of_nat num + k)%Z | FromCurrent k => (Z.of_nat i + k)%Z end in
  if (z <? 0)%Z then None else Some (Nat.min num (Z.to_nat z)).
(* the centre added to positions that are read *)
Definition centre_added (r : pnts_reader) (m : read_mode) : option (p3 spec_float) :=
  match m with Absolute => pr_rtc r | RelativeToCenter => None end.
(* b' is b after reading the n points from i on: those are at the start, the rest is unchanged *)
Definition points_read (r : pnts_reader) (m : read_mode) (i n : nat) (b b' : mbuf) : Prop :=
  mb_wf b' /\ same_outside b b' /\ length (mb_points b') = length (mb_points b)
  /\ forall k old q, nth_error (mb_points b) k = Some old -> nth_error (mb_points b') k = Some q ->
       (k < n -> match centre_added r m with
                 | Some c => exists p, point_read r (mb_layout b) (i + k) old p /\ point_moved (mb_layout b) c p q
                 | None => point_read r (mb_layout b) (i + k) old q
                 end)
       /\ (n <= k -> q = old).
(* the events of a history, starting at point i in mode m; last and m' are the point and mode at its end *)
Fixpoint cursor_history (r : pnts_reader) (i : nat) (m : read_mode) (calls : list reader_call) (es : list reader_event) (last : nat) (m' : read_mode) : Prop :=
  match calls, es with
  | [], [] => last = i /\ m' = m
  | RSeek s :: calls, RAt j :: es => target (pr_num r) i s = Some j /\ cursor_history r j m calls es last m'
  | RSeek s :: calls, RFailed :: es => target (pr_num r) i s = None /\ cursor_history r i m calls es last m'
  | RRead b count :: calls, RGot n b' :: es =>
      n = Nat.min (pr_num r - i) count /\ 0 < n /\ points_read r m i n b b' /\ cursor_history r (i + n) m calls es last m'
  | RRead b count :: calls, RFailed :: es => Nat.min (pr_num r - i) count = 0 /\ cursor_history r i m calls es last m'
  | RMode x :: calls, RDone :: es => cursor_history r i x calls es last m'
  | _, _ => False
  end.
(* Calls that do not panic: the buffer has room and its attributes can be converted, positions are Vec3f32 or Vec3f64 where a centre is added,
   targets of seeks are i64. Missing from the English property: where a centre is added the buffer has no further points. *)
Definition fits (r : pnts_reader) (m : read_mode) (n : nat) (b : mbuf) : Prop :=
  mb_wf b /\ n <= mb_len b /\ readable r (mb_layout b)
  /\ (centre_added r m <> None -> forall tm, In tm (l_attrs (mb_layout b)) -> m_name tm = "Position3D"%string -> position_prim (m_type tm) <> None).
Definition no_rest (r : pnts_reader) (m : read_mode) (n : nat) (b : mbuf) : Prop :=
  centre_added r m <> None -> (exists tm, In tm (l_attrs (mb_layout b)) /\ m_name tm = "Position3D"%string) -> mb_len b = n.
Definition seek_fits (num i : nat) (s : seek_from) : Prop :=
  match s with
  | FromStart k => (0 <= k < 2 ^ 64)%Z
  | FromEnd k => (- 2 ^ 63 <= k /\ Z.of_nat num + k < 2 ^ 63)%Z
  | FromCurrent k => (- 2 ^ 63 <= k /\ Z.of_nat i + k < 2 ^ 63)%Z
  end.
Fixpoint calls_fit (r : pnts_reader) (i : nat) (m : read_mode) (calls : list reader_call) : Prop :=
  match calls with
  | [] => True
  | RSeek s :: calls => seek_fits (pr_num r) i s /\ calls_fit r (match target (pr_num r) i s with Some j => j | None => i end) m calls
  | RRead b count :: calls =>
      let n := Nat.min (pr_num r - i) count in
      (0 < n -> fits r m n b /\ no_rest r m n b) /\ calls_fit r (i + n) m calls
  | RMode x :: calls => calls_fit r i x calls
  end.

(* ---- written and read again ---- *)

(* what the file has can be converted to the attributes of the layout *)
Definition file_readable (l : layout) : Prop :=
  forall tm key t, In tm (l_attrs l) -> semantic (m_name tm) key t -> m_type tm = t \/ supported t (m_type tm).
(* q (layout l') is the point old after the written point p (layout l) was read into it: attributes with a semantic that both layouts have are
   converted to the datatype of the file and from there to that of l', the others are unchanged *)
Definition came_back (l l' : layout) (p old q : list Z) : Prop :=
  (forall m key t tm, In m (l_attrs l) -> semantic (m_name m) key t -> In tm (l_attrs l') -> m_name tm = m_name m ->
     exists v, value_as (m_type m) t (attr_value m p) = Some v /\ value_as t (m_type tm) v = Some (attr_value tm q))
  /\ (forall tm, In tm (l_attrs l') -> (forall m key t, In m (l_attrs l) -> semantic (m_name m) key t -> m_name m <> m_name tm) ->
        attr_value tm q = attr_value tm old).

(* The feature table of a file: the length of its JSON is at byte 12, it starts at byte 28. The offsets it states for the attributes that are
   read. *)
Definition feature_table (c : json_codec) (bytes : list Z) (fields : list (string * json)) : Prop :=
  json_parse c (sub bytes 28 (Z.to_nat (u32_at bytes 12))) = Some (JObj fields).
Definition stated_offset (fields : list (string * json)) (o : Z) : Prop :=
  exists key fs, In key ["POSITION"; "RGBA"; "RGB"; "NORMAL"]%string /\ assoc key fields = Some (JObj fs) /\ assoc "byteOffset" fs = Some (JInt o).
