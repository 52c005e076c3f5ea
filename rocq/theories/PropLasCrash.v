(* Property theorems about programs that stop while they write a LAS file: C93. *)
From Coq Require Import String List ZArith Lia Bool Arith.
From Verif Require Import Base LasModel LasIoModel LasFileModel LasFileSpec LasFileExamples LasCrashModel LasCrashSpec LasCrashProofs.
Import ListNotations.
Open Scope nat_scope.

(* ---- C93 ---- *)
(* The writes and seeks of a program produce the bytes of the writer of LasFileModel. *)
Theorem C93_calls :
  forall (cr : crates) (hd : head) (w : file_writer) (ops : list file_op), headers_fit cr -> open_las cr hd = Ok w ->
  exec (open_prims cr hd ++ trace cr w ops) = (fw_stream (fold_left (file_step cr false) ops w), fw_position (fold_left (file_step cr false) ops w)).
Proof. exact (fun cr hd w ops F => trace_ok cr F hd w ops). Qed.
Print Assumptions C93_calls.

(* A program that stops at any point of any call leaves a header of the last completed flush with all points it counts or, within a flush, a header
   whose first j bytes are those of the new header, with all points that the new header counts. Missing: LAZ, sinks that reorder writes. *)
Theorem C93_crash_partial :
  forall (cr : crates) (hd : head) (w : file_writer) (ops : list file_op) (o : file_op) (done : list prim) (disk : list Z),
  headers_fit cr -> open_las cr hd = Ok w -> stopped cr hd w ops o done -> left_behind done disk ->
  exists j points rest,
    disk = (firstn j (stated_header cr hd (fst (written ops))) ++ skipn j (stated_header cr hd (fst (written (flushed ops)))))
           ++ vlrs_bytes cr (hd_vlrs hd) ++ points ++ rest
    /\ (j = 0 /\ points = snd (written (flushed ops)) \/ o = FFlush /\ 0 < j /\ points = snd (written ops)).
Proof. exact (fun cr hd w ops o done disk F => crash_ok cr F hd w ops o done disk). Qed.
Print Assumptions C93_crash_partial.

(* The points written before a completed flush are where the header says that the points start, whatever happens later. *)
Theorem C93_flushed_points_survive_partial :
  forall (cr : crates) (hd : head) (w : file_writer) (before after : list file_op) (o : file_op) (done : list prim) (disk : list Z),
  headers_fit cr -> open_las cr hd = Ok w -> stopped cr hd w (before ++ FFlush :: after) o done -> left_behind done disk ->
  lies_at (snd (written before)) (rh_offset (into_raw cr hd)) disk.
Proof. exact (fun cr hd w before after o done disk F => durable cr F hd w before after o done disk). Qed.
Print Assumptions C93_flushed_points_survive_partial.

(* while the file is opened: a first part of the empty file *)
Theorem C93_open :
  forall (cr : crates) (hd : head) (done more : list prim) (disk : list Z), open_prims cr hd = done ++ more -> left_behind done disk ->
  exists rest, stated_header cr hd 0 ++ vlrs_bytes cr (hd_vlrs hd) = disk ++ rest.
Proof. exact crash_open. Qed.
Print Assumptions C93_open.

(* A writer that is dropped without a flush leaves its points in a file whose header counts none. *)
Theorem C93_drop_refuted :
  forall (cr : crates) (hd : head) (w : file_writer) (ops : list file_op), headers_fit cr -> open_las cr hd = Ok w -> ~ In FFlush ops ->
  exists rest, fw_stream (fold_left (file_step cr false) ops w) = stated_header cr hd 0 ++ vlrs_bytes cr (hd_vlrs hd) ++ snd (written ops) ++ rest.
Proof. exact (fun cr hd w ops F => dropped cr F hd w ops). Qed.
Print Assumptions C93_drop_refuted.

(* The extended VLRs of a completed flush do not survive the points written after it. *)
Theorem C93_evlrs_refuted :
  exists cr hd w ops o done disk, headers_fit cr /\ open_las cr hd = Ok w /\ stopped cr hd w ops o done /\ left_behind done disk
  /\ rh_evlr (into_raw cr hd) <> None
  /\ ~ lies_at (evlrs_bytes cr (hd_evlrs hd)) (rh_offset (into_raw cr hd) + length (snd (written (flushed ops)))) disk.
Proof. exact crash_evlrs. Qed.
Print Assumptions C93_evlrs_refuted.

(* A flush replaces the header byte by byte: a program that stops there can leave a header that is the one of no number of points. *)
Theorem C93_torn_refuted :
  exists cr hd w ops o done disk, headers_fit cr /\ open_las cr hd = Ok w /\ stopped cr hd w ops o done /\ left_behind done disk
  /\ forall n rest, disk <> stated_header cr hd n ++ rest.
Proof. exact crash_torn. Qed.
Print Assumptions C93_torn_refuted.

(* one point is flushed, a second one written, and the program stops in the middle of the second flush: both points are counted and there *)
Example C93_ex : exists w done disk, headers_fit toy /\ open_las toy toy_head = Ok w
  /\ stopped toy toy_head w [FWrite 1 [11; 12]%Z; FFlush; FWrite 1 [13; 14]%Z] FFlush done /\ left_behind done disk
  /\ disk = [2; 9; 6; 2; 2; 5; 6; 1; 7; 11; 12; 13; 14; 99]%Z.
Proof.
  set (w := opened toy toy_head).
  set (part := [PSeek 13; PSeek 13; PSeek 0; PWrite [2; 9; 6; 2]%Z; PSeek 13; PWrite [99; 8]%Z]).
  exists w, (open_prims toy toy_head ++ trace toy w crash_ops ++ part), [2; 9; 6; 2; 2; 5; 6; 1; 7; 11; 12; 13; 14; 99]%Z.
  split; [exact toy_fits|]. split; [reflexivity|]. split; [exists part, [PSeek 13]; split; reflexivity|]. split; [|reflexivity].
  exists (open_prims toy toy_head ++ trace toy w crash_ops ++ [PSeek 13; PSeek 13; PSeek 0; PWrite [2; 9; 6; 2]%Z; PSeek 13]), [PWrite [99; 8]%Z], [99]%Z, [8]%Z.
  split; [reflexivity|]. split; [intros p [E|[]]; discriminate|]. split; [reflexivity|]. vm_compute. reflexivity.
Qed.
Example C93_open_ex : left_behind [PWrite (cr_header toy (into_raw toy toy_head)); PWrite [2; 5; 6]%Z] [2; 9; 6; 0; 2; 5]%Z
  /\ exists more, open_prims toy toy_head = [PWrite (cr_header toy (into_raw toy toy_head)); PWrite [2; 5; 6]%Z] ++ more.
Proof.
  split; [|eexists; reflexivity]. exists [PWrite (cr_header toy (into_raw toy toy_head))], [PWrite [2; 5; 6]%Z], [2; 5]%Z, [6]%Z.
  split; [reflexivity|]. split; [intros p [E|[]]; discriminate|]. split; reflexivity.
Qed.
