(* What LAS records, extra bytes, strings and file names should be: the tables of the LAS 1.4 specification and plain definitions. *)
From Coq Require Import String List ZArith Bool Arith Ascii.
From Verif Require Import Base LayoutModel NumModel LasModel.
Import ListNotations.
Open Scope nat_scope.

Definition is_byte (b : Z) : Prop := (0 <= b < 256)%Z.

(* ---- point records (LAS 1.4 R15, Tables 7 to 18): name, first byte, number of bytes. Return number, number of returns, flags, scanner
   channel share one byte (formats 0-5) or two bytes (6-10); X, Y, Z are one field of three 4-byte integers. ---- *)
Definition wave_record (o : nat) : list (string * nat * nat) :=
  [("WavePacketDescriptorIndex"%string, o, 1); ("WaveformDataOffset"%string, o + 1, 8); ("WaveformPacketSize"%string, o + 9, 4);
   ("ReturnPointWaveformLocation"%string, o + 13, 4); ("WaveformParameters"%string, o + 17, 12)].
Definition record_0 : list (string * nat * nat) :=
  [("LASLocalPosition"%string, 0, 12); ("Intensity"%string, 12, 2); ("LASBasicFlags"%string, 14, 1); ("Classification"%string, 15, 1);
   ("ScanAngleRank"%string, 16, 1); ("UserData"%string, 17, 1); ("PointSourceID"%string, 18, 2)].
Definition record_6 : list (string * nat * nat) :=
  [("LASLocalPosition"%string, 0, 12); ("Intensity"%string, 12, 2); ("LASExtendedFlags"%string, 14, 2); ("Classification"%string, 16, 1);
   ("UserData"%string, 17, 1); ("ScanAngle"%string, 18, 2); ("PointSourceID"%string, 20, 2); ("GpsTime"%string, 22, 8)].
Definition las_record (n : nat) : list (string * nat * nat) :=
  match n with
  | 0 => record_0
  | 1 => record_0 ++ [("GpsTime"%string, 20, 8)]
  | 2 => record_0 ++ [("ColorRGB"%string, 20, 6)]
  | 3 => record_0 ++ [("GpsTime"%string, 20, 8); ("ColorRGB"%string, 28, 6)]
  | 4 => record_0 ++ [("GpsTime"%string, 20, 8)] ++ wave_record 28
  | 5 => record_0 ++ [("GpsTime"%string, 20, 8); ("ColorRGB"%string, 28, 6)] ++ wave_record 34
  | 6 => record_6
  | 7 => record_6 ++ [("ColorRGB"%string, 30, 6)]
  | 8 => record_6 ++ [("ColorRGB"%string, 30, 6); ("NIR"%string, 36, 2)]
  | 9 => record_6 ++ wave_record 30
  | 10 => record_6 ++ [("ColorRGB"%string, 30, 6); ("NIR"%string, 36, 2)] ++ wave_record 38
  | _ => []
  end.
(* LAS 1.4, the minimum record length of every format *)
Definition record_length (n : nat) : nat := nth n [20; 28; 26; 34; 57; 63; 30; 36; 38; 59; 67] 0.
(* the attributes of a point of format n *)
Definition core_names : list string :=
  ["Position3D"; "Intensity"; "ReturnNumber"; "NumberOfReturns"; "ScanDirectionFlag"; "EdgeOfFlightLine"; "Classification"; "UserData";
   "PointSourceID"]%string.
Definition wave_names : list string :=
  ["WavePacketDescriptorIndex"; "WaveformDataOffset"; "WaveformPacketSize"; "ReturnPointWaveformLocation"; "WaveformParameters"]%string.
Definition las_attribute_names (n : nat) : list string :=
  core_names ++ (if Nat.leb 6 n then ["ClassificationFlags"; "ScannerChannel"; "ScanAngle"] else ["ScanAngleRank"])%string
  ++ (if existsb (Nat.eqb n) [1; 3; 4; 5; 6; 7; 8; 9; 10] then ["GpsTime"%string] else [])
  ++ (if existsb (Nat.eqb n) [2; 3; 5; 7; 8; 10] then ["ColorRGB"%string] else [])
  ++ (if existsb (Nat.eqb n) [8; 10] then ["NIR"%string] else [])
  ++ (if existsb (Nat.eqb n) [4; 5; 9; 10] then wave_names else []).
Definition described (m : member) : string * nat * nat := (m_name m, m_offset m, m_size m).
(* the fields cover the bytes from a to b one after the other *)
Fixpoint contiguous (a b : nat) (fs : list (string * nat * nat)) : Prop :=
  match fs with
  | [] => a = b
  | (_, o, s) :: fs' => o = a /\ contiguous (a + s) b fs'
  end.

(* ---- extra bytes ---- *)
(* size of a documented extra bytes type *)
Definition documented (t : eb_type) : Prop :=
  match t with EbUndocumented | EbDeprecated _ | EbReserved _ => False | _ => True end.
Definition type_bytes (t : eb_type) : nat :=
  match t with
  | EbU8 | EbI8 => 1 | EbU16 | EbI16 => 2 | EbU32 | EbI32 | EbF32 => 4 | EbU64 | EbI64 | EbF64 => 8
  | EbUndocumented | EbDeprecated _ | EbReserved _ => 0
  end.
Definition described_bytes (es : list eb_entry) : nat := list_sum (map (fun e => type_bytes (eb_dt e)) es).
(* an entry whose fields have the widths of the Rust types *)
Definition entry_ok (e : eb_entry) : Prop :=
  is_byte (eb_options e) /\ is_byte (eb_to_u8 (eb_dt e))
  /\ Forall is_byte (eb_name e) /\ utf8_valid (eb_name e) = true /\ Forall is_byte (eb_description e) /\ utf8_valid (eb_description e) = true
  /\ length (eb_scale e) = 8 /\ length (eb_offset e) = 8 /\ length (eb_min e) = 8 /\ length (eb_max e) = 8 /\ length (eb_no_data e) = 8.
(* the entry as far as 32-byte strings can hold it *)
Definition storable (e : eb_entry) : Prop :=
  length (eb_name e) <= 32 /\ ~ In 0%Z (eb_name e) /\ length (eb_description e) <= 32 /\ ~ In 0%Z (eb_description e)
  /\ match eb_dt e with EbDeprecated v => (11 <= v <= 30)%Z | EbReserved v => (31 <= v <= 255)%Z | _ => True end.

(* ---- strings ---- *)
(* the bytes before the first NUL *)
Fixpoint before_nul (s : list Z) : list Z :=
  match s with
  | [] => []
  | c :: s' => if Z.eqb c 0 then [] else c :: before_nul s'
  end.
(* a character of a UTF-8 string starts at byte i, or the string ends there (str::is_char_boundary) *)
Definition char_boundary (s : list Z) (i : nat) : Prop :=
  match nth_error s i with Some b => ~ (128 <= b <= 191)%Z | None => i = length s end.

(* ---- file names ---- *)
Definition same_letter (c d : ascii) : Prop :=
  let upper x := 65 <= nat_of_ascii x <= 90 in
  c = d \/ (upper c /\ nat_of_ascii d = nat_of_ascii c + 32) \/ (upper d /\ nat_of_ascii c = nat_of_ascii d + 32).
Fixpoint same_up_to_case (s t : string) : Prop :=
  match s, t with
  | EmptyString, EmptyString => True
  | String c s', String d t' => same_letter c d /\ same_up_to_case s' t'
  | _, _ => False
  end.
Definition no_dot (s : string) : Prop := ~ In "."%char (list_ascii_of_string s).

(* ---- what a layout asks of a format ---- *)
Definition asks (l : layout) (s : string) : Prop := In s (map m_name (l_attrs l)).
Definition asks_extended (l : layout) : Prop :=
  exists s, In s ["NIR"; "ScanAngle"; "ScannerChannel"; "ClassificationFlags"]%string /\ asks l s.
Definition asks_wave (l : layout) : Prop := exists s, In s wave_names /\ asks l s.
Definition if_extended (l : layout) (P Q : Prop) : Prop := (asks_extended l -> P) /\ (~ asks_extended l -> Q).

(* a string stored in an N-byte field and read again *)
Definition stored_string (s : list Z) (N : nat) : res (list Z) := las_string_to_rust_string (write_rust_string s (repeat 0%Z N)).
(* the file name "stem.ext" *)
Definition named (stem ext : string) : string := (stem ++ "." ++ ext)%string.

(* ---- calls of the builder of extra bytes entries, and the value the last call of a kind set ---- *)
Inductive eb_call : Type := SetOffset (v : list Z) | SetScale (v : list Z) | SetMin (v : list Z) | SetMax (v : list Z) | SetNoData (v : list Z).
Definition eb_apply (e : eb_entry) (c : eb_call) : eb_entry :=
  match c with
  | SetOffset v => eb_with_offset e v | SetScale v => eb_with_scale e v | SetMin v => eb_with_min e v | SetMax v => eb_with_max e v
  | SetNoData v => eb_with_no_data e v
  end.
Definition eb_build (t : eb_type) (name description : list Z) (calls : list eb_call) : eb_entry := fold_left eb_apply calls (eb_new t name description).
Definition last_set (which : eb_call -> option (list Z)) (calls : list eb_call) : option (list Z) :=
  fold_left (fun acc c => match which c with Some v => Some v | None => acc end) calls None.
Definition offset_arg (c : eb_call) := match c with SetOffset v => Some v | _ => None end.
Definition scale_arg (c : eb_call) := match c with SetScale v => Some v | _ => None end.
Definition min_arg (c : eb_call) := match c with SetMin v => Some v | _ => None end.
Definition max_arg (c : eb_call) := match c with SetMax v => Some v | _ => None end.
Definition no_data_arg (c : eb_call) := match c with SetNoData v => Some v | _ => None end.
Definition or_zeros (o : option (list Z)) : list Z := match o with Some v => v | None => repeat 0%Z 8 end.
Definition is_some {A} (o : option A) : bool := match o with Some _ => true | None => false end.


(* LAS specification 1.4, table 25: the data types of extra bytes by their code, with their size; 0 is undocumented, from 11 on there is none *)
Inductive number_kind : Type := Unsigned | Signed | Floating.
Definition extra_bytes_types : list (option (datatype * nat * number_kind)) :=
  [None; Some (U8, 1, Unsigned); Some (I8, 1, Signed); Some (U16, 2, Unsigned); Some (I16, 2, Signed); Some (U32, 4, Unsigned); Some (I32, 4, Signed);
   Some (U64, 8, Unsigned); Some (I64, 8, Signed); Some (F32, 4, Floating); Some (F64, 8, Floating)].
Definition extra_bytes_type (code : Z) : option (datatype * nat * number_kind) := nth (Z.to_nat code) extra_bytes_types None.
