(* What ASCII point files should contain: the letters of format strings, decimal numbers, lines and columns. *)
From Coq Require Import String Ascii List ZArith QArith Qabs Bool Arith SpecFloat.
From Verif Require Import Base LayoutModel LayoutSpec BufferModel BufferSpec TraitModel TraitSpec NumModel AsciiModel.
Import ListNotations.
Open Scope nat_scope.

(* ---- format letters (documentation of AsciiReader::from_read) ---- *)

(* A column is skipped, or holds a number: attribute, position of the number in the attribute, its type, whether only 0 and 1 are allowed *)
Inductive meaning : Type := Skipped | Field (a : attr_def) (o : nat) (p : prim) (flag : bool).
Definition letters : list (ascii * meaning) :=
  [("s", Skipped);
   ("x", Field POSITION_3D 0 PF64 false); ("y", Field POSITION_3D 8 PF64 false); ("z", Field POSITION_3D 16 PF64 false);
   ("i", Field INTENSITY 0 PU16 false); ("r", Field RETURN_NUMBER 0 PU8 false); ("n", Field NUMBER_OF_RETURNS 0 PU8 false);
   ("c", Field CLASSIFICATION 0 PU8 false); ("t", Field GPS_TIME 0 PF64 false); ("u", Field USER_DATA 0 PU8 false);
   ("p", Field POINT_SOURCE_ID 0 PU16 false);
   ("R", Field COLOR_RGB 0 PU16 false); ("G", Field COLOR_RGB 2 PU16 false); ("B", Field COLOR_RGB 4 PU16 false);
   ("e", Field EDGE_OF_FLIGHT_LINE 0 PU8 true); ("d", Field SCAN_DIRECTION_FLAG 0 PU8 true);
   ("a", Field SCAN_ANGLE_RANK 0 PI8 false); ("I", Field NIR 0 PU16 false)]%char.
Definition meaning_of (c : Z) : option meaning := option_map snd (find (fun e => Z.eqb c (ch (fst e))) letters).
(* a letter that may occur in a format string *)
Definition known (c : Z) : Prop := In c (txt "sxyzirnctupRGBedaI").
(* only these letters *)
Definition only (s : string) (format : text) : Prop := forall c, In c format -> In c (txt s).

(* ---- decimal numbers ---- *)

(* the value of a sequence of digits *)
Definition digits_value (t : text) : option Z :=
  fold_left (fun acc c => match acc with
                          | Some v => if ((48 <=? c) && (c <=? 57))%Z%bool then Some (10 * v + (c - 48))%Z else None
                          | None => None
                          end) t (Some 0%Z).
(* the part before the first point, and the part after it *)
Fixpoint break_point (t : text) : text * option text :=
  match t with
  | [] => ([], None)
  | c :: t => if Z.eqb c (ch ".") then ([], Some t) else let '(a, b) := break_point t in (c :: a, b)
  end.
(* [-] digits [. digits] *)
Definition decimal_value (t : text) : option Q :=
  let '(neg, t) := match t with c :: t' => if Z.eqb c (ch "-") then (true, t') else (false, t) | [] => (false, []) end in
  let sign (q : Q) := if neg : bool then Qopp q else q in
  let '(i, f) := break_point t in
  match i, digits_value i, f with
  | _ :: _, Some a, None => Some (sign (inject_Z a))
  | _ :: _, Some a, Some (d :: f) =>
      match digits_value (d :: f) with
      | Some b => Some (sign (inject_Z a + Qmake b (Z.to_pos (10 ^ Z.of_nat (length (d :: f)))))%Q)
      | None => None
      end
  | _, _, _ => None
  end.
(* both texts are numbers, and the same *)
Definition same_number (t t' : text) : Prop :=
  exists q q', decimal_value t = Some q /\ decimal_value t' = Some q' /\ (q == q')%Q.
(* the number a float stands for *)
Definition float_Q (x : spec_float) : option Q :=
  match x with
  | S754_zero _ => Some 0%Q
  | S754_finite s m e => Some (inject_Z (if s then Zneg m else Zpos m) * Qpower (2 # 1) e)%Q
  | _ => None
  end.

(* t is the integer v in decimal, without superfluous characters *)
Definition integer_text (v : Z) (t : text) : Prop :=
  exists ds, t = (if (v <? 0)%Z then [ch "-"] else []) ++ ds /\ digits_value ds = Some (Z.abs v) /\ ds <> []
             /\ (hd 0%Z ds = ch "0" -> ds = txt "0").
(* t shows the number n: integers exactly, flags as 0 or 1, floats rounded to prec decimal places, with no more than these *)
Definition shows (prec : nat) (flag : bool) (n : num) (t : text) : Prop :=
  match n with
  | NInt v => if flag then t = txt (if (0 <? v)%Z then "1" else "0") else integer_text v t
  | NFlt S754_nan => t = txt "NaN"
  | NFlt (S754_infinity s) => t = txt (if s then "-inf" else "inf")
  | NFlt x => exists q v, decimal_value t = Some q /\ float_Q x = Some v
                          /\ (Qabs (q - v) <= (1 # 2) * (1 # Z.to_pos (10 ^ Z.of_nat prec)))%Q
                          /\ exists j, (q == inject_Z j * (1 # Z.to_pos (10 ^ Z.of_nat prec)))%Q
  end.

(* ---- points ---- *)

(* the bytes and the number at position o of attribute a *)
Definition field_bytes (l : layout) (p : list Z) (a : attr_def) (o : nat) (pr : prim) : option (list Z) :=
  match member_of l a with Some m => Some (sub (attr_value m p) o (prim_size pr)) | None => None end.
(* the text for letter c of a point *)
Definition column_shows (prec : nat) (l : layout) (p : list Z) (c : Z) (t : text) : Prop :=
  match meaning_of c with
  | Some Skipped => t = []
  | Some (Field a o pr flag) => exists bs, field_bytes l p a o pr = Some bs /\ shows prec flag (dec_num pr bs) t
  | None => False
  end.
(* the layout has the attributes of the letters *)
Definition has_fields (l : layout) (format : text) : Prop :=
  forall c a o pr flag, In c format -> meaning_of c = Some (Field a o pr flag) -> member_of l a <> None.

(* columns separated by the delimiter *)
Fixpoint join (d : text) (ts : list text) : text :=
  match ts with [] => [] | [t] => t | t :: ts => t ++ d ++ join d ts end.
(* the line of a point *)
Definition point_line (prec : nat) (l : layout) (format d : text) (p : list Z) (line : text) : Prop :=
  exists ts, line = join d ts /\ Forall2 (column_shows prec l p) format ts.
Definition terminated (line : text) : text := line ++ [10%Z].

(* ---- histories of a writer ---- *)
Inductive ascii_op : Type := SetDelimiter (d : text) | SetPrecision (n : nat) | WritePoints (b : buffer).
Definition ascii_step (chunk : nat) (w : ascii_writer) (o : ascii_op) : res ascii_writer :=
  match o with
  | SetDelimiter d => Ok (set_delimiter w d)
  | SetPrecision n => Ok (set_precision w n)
  | WritePoints b => ascii_write chunk w b
  end.
(* w can be reached from a new writer for the format *)
Definition reachable (chunk : nat) (format : text) (w : ascii_writer) : Prop :=
  exists w0 ops, ascii_writer_new format = Ok w0 /\ foldM (ascii_step chunk) ops w0 = Ok w.

(* ---- reading ---- *)

(* the lines of a file: ended by a line feed, or by a carriage return and a line feed, or by the end of the file *)
Fixpoint lines_from (cur t : text) : list text :=
  match t with
  | [] => match cur with [] => [] | _ => [rev cur] end
  | c :: t => if Z.eqb c 10
              then rev (match cur with c' :: cur' => if Z.eqb c' 13 then cur' else cur | [] => [] end) :: lines_from [] t
              else lines_from (c :: cur) t
  end.
Definition lines_of (t : text) : list text := lines_from [] t.

(* the number in a field: [+] digits, or [-] digits if the type is signed; in the range of the type; 0 or 1 if it is a flag *)
Definition field_integer (pr : prim) (flag : bool) (t : text) : option Z :=
  let signed := match pr with PI8 | PI16 | PI32 | PI64 => true | _ => false end in
  let '(neg, ds) := match t with
                    | c :: t' => if Z.eqb c (ch "+") then (false, t') else if (Z.eqb c (ch "-") && signed)%bool then (true, t') else (false, t)
                    | [] => (false, [])
                    end in
  match ds, digits_value ds with
  | _ :: _, Some v =>
      let v := if neg : bool then (- v)%Z else v in
      let w := (8 * Z.of_nat (prim_size pr))%Z in
      if (if signed then (- 2 ^ (w - 1) <=? v) && (v <? 2 ^ (w - 1)) else v <? 2 ^ w)%Z%bool
      then (if (flag && negb ((v =? 0) || (v =? 1))%Z)%bool then None else Some v)
      else None
  | _, _ => None
  end.
Definition field_number (pr : prim) (flag : bool) (t : text) : option num :=
  match pr with
  | PF64 => option_map NFlt (parse_f64 t)
  | _ => option_map NInt (field_integer pr flag t)
  end.
(* a line has a field for every letter, and a number in each that is not skipped; further fields do not matter *)
Definition good_line (format d line : text) : Prop :=
  length format <= length (split d line)
  /\ forall k c a o pr flag t, nth_error format k = Some c -> meaning_of c = Some (Field a o pr flag) ->
       nth_error (split d line) k = Some t -> field_number pr flag t <> None.
(* p is the point of a line: it has the number of the last column for each letter, and is zero elsewhere *)
Definition line_point (l : layout) (format d line : text) (p : list Z) : Prop :=
  length p = l_size l
  /\ (forall k c a o pr flag bs, nth_error format k = Some c -> ~ In c (skipn (S k) format) -> meaning_of c = Some (Field a o pr flag) ->
        field_bytes l p a o pr = Some bs ->
        exists t v, nth_error (split d line) k = Some t /\ field_number pr flag t = Some v /\ bs = enc_num pr v)
  /\ (forall i, (forall c a o pr flag m, In c format -> meaning_of c = Some (Field a o pr flag) -> member_of l a = Some m ->
                   i < m_offset m + o \/ m_offset m + o + prim_size pr <= i) -> nth i p 0%Z = 0%Z).

(* a delimiter that can not be taken for a part of a number or the end of a line *)
Definition good_delimiter (d : text) : Prop :=
  (exists c, In c d /\ ~ In c (txt "-0123456789")) /\ ~ In 10%Z d /\ ~ In 13%Z d.
(* the two points agree in the columns of the format, where both layouts have them *)
Definition same_columns (format : text) (l1 : layout) (p1 : list Z) (l2 : layout) (p2 : list Z) : Prop :=
  forall c a o pr flag bs, In c format -> meaning_of c = Some (Field a o pr flag) ->
    field_bytes l2 p2 a o pr = Some bs -> field_bytes l1 p1 a o pr = Some bs.
(* flags are 0 or 1 *)
Definition flags_ok (format : text) (l : layout) (p : list Z) : Prop :=
  forall c a o pr bs, In c format -> meaning_of c = Some (Field a o pr true) -> field_bytes l p a o pr = Some bs -> bs = [0%Z] \/ bs = [1%Z].
