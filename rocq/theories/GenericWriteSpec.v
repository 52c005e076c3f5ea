(* Specification for writers whose format is not known to the program: what was written is what a generic reader reads. *)
From Coq Require Import String List ZArith Bool Arith.
From Verif Require Import Base LayoutModel BufferModel BufferSpec TraitModel TraitSpec NumModel ConvModel MathModel LasModel LasIoModel LasIoSpec PntsModel PntsSpec InfoModel PathModel
  GenericModel GenericSpec GenericWriteModel.
Import ListNotations.
Open Scope nat_scope.

(* a writer is opened, some buffers are written with flushes between them, and the writer is dropped *)
Definition generic_write_step (c : json_codec) (chunk : nat) (g : generic_writer) (o : write_op) : res generic_writer :=
  match o with LasIoSpec.Write b => generic_write chunk g b | LasIoSpec.Flush => generic_flush c g end.
Definition write_history (c : json_codec) (order : list (string * option conv_fn) -> list (string * option conv_fn)) (chunk : nat)
    (d : dir) (name : string) (l : layout) (ops : list write_op) : res dir :=
  let* g := create_file order name l in
  let* g := foldM (generic_write_step c chunk) ops g in
  let* content := generic_drop c g in Ok (put d name content).
(* the points, in the order in which they were written *)
Definition points_of (ops : list write_op) : list (list Z) :=
  concat (map (fun o => match o with LasIoSpec.Write b => bf_points b | LasIoSpec.Flush => [] end) ops).
(* nothing is written after a flush *)
Fixpoint flushed_last (ops : list write_op) : Prop :=
  match ops with
  | [] => True
  | LasIoSpec.Write _ :: ops => flushed_last ops
  | LasIoSpec.Flush :: ops => Forall (fun o => o = LasIoSpec.Flush) ops
  end.
(* PNTS: reads into buffers with room whose attributes can be converted, of at least one point; seeks that do not leave the file of num points
   and whose target is an i64 *)
Fixpoint reads_within (num i : nat) (calls : list call) : Prop :=
  match calls with
  | [] => True
  | SeekTo s :: calls => seek_fits num i s /\ exists j, leads_to num i s j /\ reads_within num j calls
  | ReadInto b count :: calls =>
      let n := Nat.min count (num - i) in
      0 < n /\ mb_wf b /\ n <= mb_len b /\ file_readable (mb_layout b) /\ reads_within num (i + n) calls
  end.
(* b' is b with the n points of ps (layout l) from i on at its start *)
Definition points_back (l : layout) (ps : list (list Z)) (i n : nat) (b b' : mbuf) : Prop :=
  mb_wf b' /\ same_outside b b' /\ length (mb_points b') = length (mb_points b)
  /\ forall k old q, nth_error (mb_points b) k = Some old -> nth_error (mb_points b') k = Some q ->
       (k < n -> exists p, nth_error ps (i + k) = Some p /\ PntsSpec.came_back l (mb_layout b) p old q) /\ (n <= k -> q = old).
