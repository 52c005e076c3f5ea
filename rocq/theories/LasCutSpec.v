(* Vocabulary of the statements about LAS files whose end is missing. *)
From Coq Require Import String List ZArith Bool Arith SpecFloat.
From Verif Require Import Base LayoutModel BufferModel BufferSpec TraitModel TraitSpec NumModel MathModel LasModel LasIoModel LasIoSpec LasCutModel.
Import ListNotations.
Open Scope nat_scope.

(* f is the beginning of a readable LAS file: the header is there, the points end at any byte *)
Definition cut_file (f : las_file) (raw : layout) : Prop :=
  f_laz f = false /\ exists more, file_ok (mk_file (f_laz f) (f_header f) (f_data f ++ more)) raw.
(* how many points the header states *)
Definition stated (f : las_file) : nat := Z.to_nat (h_total (f_header f)).
(* the records that are completely in the file, at most as many as stated *)
Definition stored_records (f : las_file) : list (list Z) :=
  let size := format_len (h_format (f_header f)) in pieces size (Nat.min (stated f) (length (f_data f) / size)) (f_data f).

(* A history: calls go on after an error, not after a panic *)
Inductive cut_event : Type := CutAt (i : nat) | CutGot (b : mbuf) (n : nat) | CutFailed | CutPanic.
Fixpoint run_cut (chunk : nat) (r : las_reader) (ops : list read_op) : list cut_event :=
  match ops with
  | [] => []
  | Seek s :: ops =>
      match las_seek_point r s with Ok (r, i) => CutAt i :: run_cut chunk r ops | Err => CutFailed :: run_cut chunk r ops | Panic => [CutPanic] end
  | Read b count :: ops =>
      match las_read_into_o chunk r b count with
      | Done (b, r, n) => CutGot b n :: run_cut chunk r ops
      | Failed r => CutFailed :: run_cut chunk r ops
      | Crashed => [CutPanic]
      end
  end.
(* The calls: buffers that are large enough and of a layout the points can be read into, arguments of the integer types *)
Definition cut_op (f : las_file) (raw : layout) (o : read_op) : Prop :=
  match o with
  | Seek (FromStart k) => (0 <= k < 2 ^ 64)%Z
  | Seek (FromEnd k) | Seek (FromCurrent k) => (- 2 ^ 63 <= k < 2 ^ 63)%Z
  | Read b count => mb_wf b /\ count <= mb_len b /\ (mb_layout b = raw \/ readable (is_extended (h_format (f_header f))) raw (mb_layout b))
  end.
(* The events of a history from point i on. A read delivers the next points or fails. If the last calls include a failed read, with no seek to
   another point after it, the reader is lost: further reads fail. Otherwise a read fails only if a point it needs is not in the file. *)
Fixpoint cut_run (f : las_file) (raw : layout) (i : nat) (lost : bool) (ops : list read_op) (es : list cut_event) : Prop :=
  match ops, es with
  | [], [] => True
  | Seek s :: ops, CutAt j :: es => seek_target (stated f) i s = Some j /\ cut_run f raw j (lost && Nat.eqb j i) ops es
  | Seek s :: _, CutPanic :: es => seek_target (stated f) i s = None /\ es = []
  | Read b count :: ops, CutGot b' n :: es =>
      n = Nat.min count (stated f - i) /\ (n = 0 \/ lost = false /\ i + n <= length (stored_records f))
      /\ filled f raw (firstn n (skipn i (stored_records f))) b b' /\ cut_run f raw (i + n) lost ops es
  | Read b count :: ops, CutFailed :: es =>
      let n := Nat.min count (stated f - i) in
      0 < n /\ (lost = true \/ length (stored_records f) < i + n) /\ exists i', i <= i' <= i + n /\ (lost = true -> i' = i) /\ cut_run f raw i' true ops es
  | _, _ => False
  end.
