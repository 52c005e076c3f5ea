(* Specification vocabulary for the structure of LAS files. *)
From Coq Require Import String List ZArith Bool Arith.
From Verif Require Import Base LasModel LasIoModel LasFileModel.
Import ListNotations.
Open Scope nat_scope.

(* all headers have the same size: the writers put the new one over the old one *)
Definition headers_fit (cr : crates) : Prop := forall r, length (cr_header cr r) = cr_header_size cr.
(* what has been written, flushes aside: the number of points and their bytes *)
Fixpoint written (ops : list file_op) : nat * list Z :=
  match ops with
  | [] => (0, [])
  | FWrite n bytes :: ops => if Nat.eqb n 0 then written ops else (n + fst (written ops), bytes ++ snd (written ops))
  | FFlush :: ops => written ops
  end.
(* bytes of a stream at a place *)
Definition lies_at (bytes : list Z) (start : nat) (stream : list Z) : Prop := firstn (length bytes) (skipn start stream) = bytes.
Definition small_vlr (v : vlr) : Prop := (Z.of_nat (length (v_data v)) <= 65535)%Z.
