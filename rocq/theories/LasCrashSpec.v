(* Vocabulary of the statements about programs that stop while they write a LAS file. *)
From Coq Require Import String List ZArith Bool Arith.
From Verif Require Import Base LasModel LasIoModel LasFileModel LasFileSpec LasCrashModel.
Import ListNotations.
Open Scope nat_scope.

(* The bytes that are in the file when the program stops after these calls. The writer may be a BufWriter: a seek empties its buffer; of the
   bytes written since the last seek any first part may be in the file, because they are passed on in their order. *)
Definition bytes_of (ps : list prim) : list Z := concat (map (fun p => match p with PWrite bytes => bytes | PSeek _ => [] end) ps).
Definition left_behind (done : list prim) (disk : list Z) : Prop :=
  exists t1 t2 b1 b2, done = t1 ++ t2 /\ (forall p, ~ In (PSeek p) t2) /\ bytes_of t2 = b1 ++ b2 /\ disk = fst (prim_step (exec t1) (PWrite b1)).
(* The program stops after the calls ops of a writer and a part of what the next call, o, does. *)
Definition stopped (cr : crates) (hd : head) (w : file_writer) (ops : list file_op) (o : file_op) (done : list prim) : Prop :=
  exists part rest, step_prims cr (fold_left (file_step cr false) ops w) o = part ++ rest /\ done = open_prims cr hd ++ trace cr w ops ++ part.
(* the calls up to the last flush *)
Fixpoint flushed (ops : list file_op) : list file_op :=
  match ops with
  | [] => []
  | o :: ops => match flushed ops, o with [], FWrite _ _ => [] | f, _ => o :: f end
  end.
(* the header of a file with n points *)
Definition stated_header (cr : crates) (hd : head) (n : nat) : list Z :=
  let r := into_raw cr hd in cr_header cr (mk_raw_head (rh_vlrs r) (rh_offset r) (rh_evlr r) n).
