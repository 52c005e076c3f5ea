(* Vocabulary of the statements about interrupted writers of PNTS files. *)
From Coq Require Import String List ZArith Bool Arith SpecFloat.
From Verif Require Import Base LayoutModel BufferModel TraitModel LasIoModel PntsModel PntsSpec.
Import ListNotations.
Open Scope nat_scope.

(* A program has completed some of the writes and is in the middle of the next one, or has completed all. A buffering sink has passed on any
   first part of what it was given. *)
Inductive left_behind (before : list Z) (writes : list (list Z)) : list Z -> Prop :=
| Stopped done_ next rest j k : writes = done_ ++ next :: rest -> left_behind before writes (firstn k (before ++ concat done_ ++ firstn j next))
| Finished k : left_behind before writes (firstn k (before ++ concat writes)).

(* the bytes of the header, the feature table and its body, as the header states them *)
Definition end_of_body (file : list Z) : nat := 28 + Z.to_nat (u32_at file 12) + Z.to_nat (u32_at file 16).

(* the reader at another point, in another mode *)
Definition reader_at (r : pnts_reader) (i : nat) (m : read_mode) : pnts_reader :=
  mk_pr (pr_bytes r) (pr_num r) (pr_rtc r) (pr_layout r) i (pr_offsets r) m.
