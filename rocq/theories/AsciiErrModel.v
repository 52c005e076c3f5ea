(* The ASCII reader and writer after errors: read_into and write of AsciiModel once more, with the state in which an error leaves the buffer,
   the reader and the file. AsciiErrProofs.v proves that they have the same results. *)
From Coq Require Import String Ascii List ZArith Bool Arith SpecFloat.
From Verif Require Import Base LayoutModel BufferModel TraitModel NumModel ConvModel AsciiModel.
Import ListNotations.
Open Scope nat_scope.

(* the state after a call, and its result *)
Fixpoint foldE {A S} (g : S -> A -> S * res unit) (l : list A) (s : S) : S * res unit :=
  match l with [] => (s, Ok tt) | a :: l => match g s a with (s, Ok _) => foldE g l s | (s, x) => (s, x) end end.
(* a step that does not change the state before it fails *)
Definition before {A S} (s : S) (x : res A) (k : A -> S * res unit) : S * res unit :=
  match x with Ok a => k a | Err => (s, Err) | Panic => (s, Panic) end.

(* the loop over the columns of one point, raw_writer.rs:73-197 *)
Definition write_point_e (w : ascii_writer) (l : layout) (p : list Z) (out : text) : text * res unit :=
  match foldE (fun out e => let '(index, c) := e in
                 before out (column_text (aw_precision w) l p c) (fun t =>
                 (out ++ t ++ (if Nat.eqb index (length (aw_columns w) - 1) then [] else aw_delimiter w), Ok tt)))
              (combine (range 0 (length (aw_columns w))) (aw_columns w)) out with
  | (out, Ok _) => (out ++ [10%Z], Ok tt)
  | (out, x) => (out, x)
  end.
(* the body of the loop over the chunks, raw_writer.rs:56-199 *)
Definition ascii_write_chunk_e (chunk : nat) (w : ascii_writer) (points : buffer) (st : list Z * text) (k : nat) : (list Z * text) * res unit :=
  let '(chunk_buffer, out) := st in
  let l := bf_layout points in
  let n := Nat.min chunk (bf_len points - k * chunk) in
  let start := k * chunk in
  before st (slice_get chunk_buffer 0 (n * l_size l)) (fun dst =>
  before st (bf_get_point_range points start (start + n) dst) (fun bytes =>
  let chunk_buffer := blit chunk_buffer 0 bytes in
  let '(out, x) := foldE (fun out i => before out (slice_get chunk_buffer (i * l_size l) (i * l_size l + l_size l)) (fun p => write_point_e w l p out)) (range 0 n) out in
  ((chunk_buffer, out), x))).
(* write, raw_writer.rs:44-201 *)
Definition ascii_write_e (chunk : nat) (w : ascii_writer) (points : buffer) : ascii_writer * res unit :=
  let num_chunks := (bf_len points + (chunk - 1)) / chunk in
  let '((_, out), x) := foldE (ascii_write_chunk_e chunk w points) (range 0 num_chunks) (repeat 0%Z (chunk * l_size (bf_layout points)), aw_out w) in
  (mk_awriter out (aw_delimiter w) (aw_precision w) (aw_columns w), x).

(* the loop of read_into, raw_reader.rs:305-314: the line has been taken from the reader when it is parsed *)
Fixpoint read_lines_e (cols : list column) (delimiter : text) (n index : nat) (file : text) (temp : list Z) (b : mbuf) : (mbuf * text) * res unit :=
  match n with
  | O => ((b, file), Ok tt)
  | S n =>
      match next_line file with
      | None => ((b, file), Ok tt)
      | Some (line, file) =>
          before (b, file) (parse_point (mb_layout b) temp line delimiter cols) (fun temp =>
          before (b, file) (mb_set_point b index temp) (fun b =>
          read_lines_e cols delimiter n (S index) file temp b))
      end
  end.
(* read_into, raw_reader.rs:294-316 *)
Definition ascii_read_into_e (r : ascii_reader) (b : mbuf) (count : nat) : mbuf * ascii_reader * res nat :=
  let '((b, file), x) := read_lines_e (ar_columns r) (ar_delimiter r) count 0 (ar_text r) (repeat 0%Z (l_size (mb_layout b))) b in
  (b, mk_areader file (ar_delimiter r) (ar_layout r) (ar_columns r), match x with Ok _ => Ok count | Err => Err | Panic => Panic end).
