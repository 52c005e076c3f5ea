(* Vocabulary of the statements about ASCII readers and writers after errors. *)
From Coq Require Import String Ascii List ZArith Bool Arith SpecFloat.
From Verif Require Import Base LayoutModel LayoutSpec BufferModel BufferSpec TraitModel TraitSpec NumModel AsciiModel AsciiSpec AsciiErrModel.
Import ListNotations.
Open Scope nat_scope.

(* histories of a writer that is used further after errors *)
Definition ascii_step_e (chunk : nat) (w : ascii_writer) (o : ascii_op) : ascii_writer :=
  match o with
  | SetDelimiter d => set_delimiter w d
  | SetPrecision n => set_precision w n
  | WritePoints b => fst (ascii_write_e chunk w b)
  end.
Definition reachable_after_errors (chunk : nat) (format : text) (w : ascii_writer) : Prop :=
  exists w0 ops, ascii_writer_new format = Ok w0 /\ w = fold_left (ascii_step_e chunk) ops w0.
