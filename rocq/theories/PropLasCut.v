(* C92: LAS files whose end is missing, and readers that go on after a failed read. *)
From Coq Require Import String List ZArith Lia Bool Arith SpecFloat.
From Verif Require Import Base LayoutModel BufferModel BufferSpec TraitModel TraitSpec NumModel MathModel LasModel LasIoModel LasIoSpec LasIoProofs8 LasIoProofs9 LasIoProofs11 LasCutModel LasCutSpec LasCutProofs.
Import ListNotations.
Open Scope nat_scope.

(* Any history of reads and seeks, going on after errors. What is missing: after a failed read, a seek to the point the reader is at already. *)
Theorem C92_reads_partial :
  forall f raw chunk exact r ops, cut_file f raw -> l_size raw <= chunk -> (Z.of_nat (stated f) < 2 ^ 63)%Z -> Forall (cut_op f raw) ops -> open_reader f exact = Ok r ->
  cut_run f raw 0 false ops (run_cut chunk r ops).
Proof. exact any_history. Qed.
Print Assumptions C92_reads_partial.

(* the model that keeps the reader after an error gives the results of the model of C40 *)
Theorem C92_same_results :
  forall chunk r b count, f_laz (r_file r) = false ->
  (forall b' r' n, las_read_into_o chunk r b count = Done (b', r', n) <-> las_read_into chunk r b count = Ok (b', r', ReadPoints n))
  /\ (las_read_into_o chunk r b count = Crashed <-> las_read_into chunk r b count = Panic).
Proof. exact same_results. Qed.
Print Assumptions C92_same_results.

(* the first 30 bytes of the points of a file with two points of 20 bytes *)
Definition half_file : las_file := mk_file false (f_header las_file2) (firstn 30 (f_data las_file2)).
Definition buf (n : nat) : mbuf := new_buffer KindVector raw0 n.
(* After a failed read, a seek to the first point does not make that point readable, although it is in the file and a new reader reads it. *)
Theorem C92_recover_refuted :
  exists f raw r b', cut_file f raw /\ open_reader f false = Ok r /\ length (stored_records f) = 1
  /\ run_cut 64 r [Seek (FromStart 0); Read (new_buffer KindVector raw 1) 1] = [CutAt 0; CutGot b' 1]
  /\ run_cut 64 r [Read (new_buffer KindVector raw 2) 2; Seek (FromStart 0); Read (new_buffer KindVector raw 1) 1] = [CutFailed; CutAt 0; CutFailed].
Proof.
  exists half_file, raw0. eexists. eexists. split; [split; [reflexivity|]; exists (skipn 30 (f_data las_file2)); exact (proj1 (proj2 file2_ok))|].
  split; [vm_compute; reflexivity|]. split; [vm_compute; reflexivity|]. split; vm_compute; reflexivity.
Qed.
Print Assumptions C92_recover_refuted.

(* Reading the first point, failing at the second, and reading the first again after a seek to another point. *)
Definition ex_cut_ops : list read_op := [Read (buf 1) 1; Read (buf 1) 1; Read (buf 1) 1; Seek (FromStart 0); Read (buf 2) 1; Read (buf 0) 0].
Example C92_ex : cut_file half_file raw0 /\ l_size raw0 <= 64 /\ stated half_file = 2 /\ Forall (cut_op half_file raw0) ex_cut_ops
  /\ exists r b1 b2, open_reader half_file true = Ok r /\ run_cut 64 r ex_cut_ops = [CutGot b1 1; CutFailed; CutFailed; CutAt 0; CutGot b2 1; CutGot (buf 0) 0].
Proof.
  pose proof (proj1 (proj2 file2_ok)) as FO. pose proof FO as (_ & _ & _ & G & _). split; [split; [reflexivity|]; exists (skipn 30 (f_data las_file2)); exact FO|].
  split; [change (l_size raw0) with 20; lia|]. split; [reflexivity|]. split.
  - assert (K : forall n c, c <= n -> cut_op half_file raw0 (Read (buf n) c)).
    { intros n c H. destruct (new_buffer_ok KindVector raw0 n G) as (W & L & N & _). split; [exact W|]. split; [unfold buf; rewrite N; exact H|]. left. exact L. }
    unfold ex_cut_ops. do 3 (apply Forall_cons; [apply K; lia|]). apply Forall_cons; [split; [lia|reflexivity]|]. do 2 (apply Forall_cons; [apply K; lia|]). constructor.
  - eexists. eexists. eexists. split; [vm_compute; reflexivity|]. vm_compute; reflexivity.
Qed.
