(* Specification for readers whose format is not known to the program: a history of calls is one of a cursor over the points of the file. *)
From Coq Require Import String List ZArith Bool Arith.
From Verif Require Import Base LayoutModel BufferModel TraitModel NumModel ConvModel MathModel LasModel LasIoModel LasIoSpec PntsModel PntsSpec InfoModel GenericModel.
Import ListNotations.
Open Scope nat_scope.

Inductive call : Type := SeekTo (s : seek_from) | ReadInto (b : mbuf) (count : nat).
Inductive event : Type := Reached (i : nat) | Filled (b : mbuf) (n : nat).
(* a history in which every call succeeds *)
Definition generic_step (chunk : nat) (g : generic_reader) (k : call) : res (generic_reader * event) :=
  match k with
  | SeekTo s => let* '(g, i) := generic_seek_point g s in Ok (g, Reached i)
  | ReadInto b count => let* '(b, g, n) := generic_read_into chunk g b count in Ok (g, Filled b n)
  end.
Fixpoint run_generic (chunk : nat) (g : generic_reader) (calls : list call) : res (generic_reader * list event) :=
  match calls with
  | [] => Ok (g, [])
  | k :: calls => let* '(g, e) := generic_step chunk g k in let* '(g, es) := run_generic chunk g calls in Ok (g, e :: es)
  end.

(* Where a seek from point i of num points leads: not behind the end; there is no point before the first *)
Definition leads_to (num i : nat) (s : seek_from) (j : nat) : Prop :=
  let z := match s with FromStart k => k | FromEnd k => (Z.of_nat num + k)%Z | FromCurrent k => (Z.of_nat i + k)%Z end in
  (0 <= z)%Z /\ j = Nat.min num (Z.to_nat z).
(* The events of a history that starts at point i. got i n b b': b' is b with the n points from i on at its start *)
Fixpoint one_cursor (num : nat) (got : nat -> nat -> mbuf -> mbuf -> Prop) (i : nat) (calls : list call) (es : list event) (last : nat) : Prop :=
  match calls, es with
  | [], [] => last = i
  | SeekTo s :: calls, Reached j :: es => leads_to num i s j /\ one_cursor num got j calls es last
  | ReadInto b count :: calls, Filled b' n :: es =>
      n = Nat.min count (num - i) /\ got i n b b' /\ one_cursor num got (i + n) calls es last
  | _, _ => False
  end.
(* no seek to before the first point, and every read has a point to read *)
Fixpoint points_left (num i : nat) (calls : list call) : Prop :=
  match calls with
  | [] => True
  | SeekTo s :: calls => exists j, leads_to num i s j /\ points_left num j calls
  | ReadInto b count :: calls => 0 < Nat.min count (num - i) /\ points_left num (i + Nat.min count (num - i)) calls
  end.

(* the calls for the reader of a format; which of them do not panic is said by calls_ok (LasIoSpec) and calls_fit (PntsSpec) *)
Definition las_call (k : call) : read_op := match k with SeekTo s => Seek s | ReadInto b count => Read b count end.
Definition pnts_call (k : call) : reader_call := match k with SeekTo s => RSeek s | ReadInto b count => RRead b count end.
