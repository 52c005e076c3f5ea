(* What a program that stops while it writes a LAS file leaves behind: the functions of LasFileModel as sequences of writes and seeks of the
   underlying writer. pasture-io/src/las/raw_writers.rs *)
From Coq Require Import String List ZArith Bool Arith.
From Verif Require Import Base LasModel LasIoModel LasFileModel.
Import ListNotations.
Open Scope nat_scope.

(* Calls of the underlying writer: write_all of bytes at the position, seek. stream_position is a seek to the position. *)
Inductive prim : Type := PWrite (bytes : list Z) | PSeek (p : nat).
Definition prim_step (s : list Z * nat) (p : prim) : list Z * nat :=
  match p with PWrite bytes => (put (fst s) (snd s) bytes, snd s + length bytes) | PSeek q => (fst s, q) end.
Definition exec (ps : list prim) : list Z * nat := fold_left prim_step ps ([], 0).

Section Crates.
Variable cr : crates.
(* RawLASWriter::from_write_and_header, raw_writers.rs:131-143 *)
Definition open_prims (hd : head) : list prim :=
  (PWrite (cr_header cr (into_raw cr hd)) :: map (fun v => PWrite (cr_vlr cr v)) (hd_vlrs hd)) ++ [PSeek (rh_offset (into_raw cr hd))].
(* write, raw_writers.rs:184-584: the records are written field by field, here in one piece; flush, raw_writers.rs:165-183, 595-609 *)
Definition step_prims (w : file_writer) (o : file_op) : list prim :=
  match o with
  | FWrite n bytes => if Nat.eqb n 0 then [] else [PWrite bytes]
  | FFlush =>
      if negb (fw_requires_flush w) then []
      else
        let p := fw_position w in
        [PSeek p; PSeek p; PSeek 0; PWrite (cr_header cr (fw_raw w)); PSeek p] ++ map (fun v => PWrite (cr_evlr cr v)) (fw_evlrs w) ++ [PSeek p]
  end.
Fixpoint trace (w : file_writer) (ops : list file_op) : list prim :=
  match ops with [] => [] | o :: ops => step_prims w o ++ trace (file_step cr false w o) ops end.
End Crates.
