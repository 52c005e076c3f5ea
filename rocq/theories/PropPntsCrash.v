(* Property of PNTS files whose writing was interrupted, or whose sink takes fewer bytes than it is offered. Only statements; the proofs are in
   PntsCrashProofs.v. *)
From Coq Require Import String List ZArith Lia Bool Arith Permutation SpecFloat.
From Verif Require Import Base LayoutModel LayoutSpec BufferModel BufferSpec TraitModel TraitSpec NumModel ConvModel MathModel LasModel LasIoModel PntsModel PntsSpec PntsExamples
  PntsCrashModel PntsCrashSpec PntsCrashProofs.
Import ListNotations.
Open Scope nat_scope.

(* ---- C95 ---- *)
(* The writes of a flush one after the other give the file; whatever a program that stops in between leaves behind is a first part of it. *)
Theorem C95_left_behind :
  forall c w ws f, flush_writes c w = Ok ws -> left_behind (pw_out w) ws f ->
  exists w' k, write_cached_points c w = Ok w' /\ pw_out w' = pw_out w ++ concat ws /\ f = firstn k (pw_out w').
Proof. exact stopped_flush. Qed.
Print Assumptions C95_left_behind.

(* A file whose end is missing is not opened, or it is opened with the number of points, the layout and the centre of the complete one, and
   every read of points, from any point and in any mode, that succeeds gives what it gives with the complete file. *)
Theorem C95_interrupted :
  forall c reread order l calls w0 w k,
  json_ok c reread -> (forall x, Permutation (order x) x) -> good_layout l -> pnts_ready l -> Forall (call_ok l) calls ->
  writer_new order l = Ok w0 -> run_and_drop c w0 calls = Ok w ->
  from_read c (firstn k (pw_out w)) = Err
  \/ exists r r', from_read c (pw_out w) = Ok r /\ holds r l (written (before_flush calls)) /\ from_read c (firstn k (pw_out w)) = Ok r'
     /\ pr_num r' = pr_num r /\ pr_rtc r' = pr_rtc r /\ pr_layout r' = pr_layout r
     /\ forall i m b count, match read_into (reader_at r' i m) b count with
          | Ok (n, b', _) => exists r2, read_into (reader_at r i m) b count = Ok (n, b', r2)
          | Err => True
          | Panic => read_into (reader_at r i m) b count = Panic
          end.
Proof. exact interrupted. Qed.
Print Assumptions C95_interrupted.

(* As soon as the header, the feature table and its body have been written, the file is opened and holds all points. *)
Theorem C95_body_written :
  forall c reread order l calls w0 w k,
  json_ok c reread -> (forall x, Permutation (order x) x) -> good_layout l -> pnts_ready l -> Forall (call_ok l) calls ->
  writer_new order l = Ok w0 -> run_and_drop c w0 calls = Ok w -> end_of_body (pw_out w) <= k ->
  exists r, from_read c (firstn k (pw_out w)) = Ok r /\ reader_ok r /\ holds r l (written (before_flush calls))
  /\ pr_rtc r = option_map (map_p3 reread) (centre_set (before_flush calls)) /\ pr_index r = 0 /\ pr_mode r = Absolute.
Proof. exact body_there. Qed.
Print Assumptions C95_body_written.

(* The full property: a file that is not complete is not opened. With only a part of the body it is: as a file of all points, that cannot be read. *)
Theorem C95_incomplete_file_detected_refuted :
  exists c reread l calls w0 w k r b,
  json_ok c reread /\ good_layout l /\ pnts_ready l /\ Forall (call_ok l) calls /\ writer_new (fun x => x) l = Ok w0 /\ run_and_drop c w0 calls = Ok w
  /\ k < length (pw_out w) /\ from_read c (firstn k (pw_out w)) = Ok r /\ pr_num r = 4 /\ read_into r b 4 = Err /\ mb_len b = 4.
Proof. exact not_detected. Qed.
Print Assumptions C95_incomplete_file_detected_refuted.

(* A sink that takes everything it is offered by each call gives the file of the other theorems. The full property: of any sink that takes at
   least one byte with each call. *)
Theorem C95_whole_writes_partial : forall take c w, (forall pos n, n <= take pos n) -> write_cached_points_some take c w = write_cached_points c w.
Proof. exact whole_sink. Qed.
Print Assumptions C95_whole_writes_partial.

(* It does not hold: a sink that takes one byte less than it is offered when the feature table is written. The flush succeeds, the file is opened,
   the points are read, and are not those of the complete file. *)
Theorem C95_short_write_refuted :
  exists c take calls w0 w w' r b r1 full b0 r0,
  (forall pos n, 0 < n -> take pos n <= n /\ (1 < n -> 0 < take pos n))
  /\ writer_new (fun x => x) t_layout = Ok w0 /\ foldM (writer_step c) calls w0 = Ok w /\ write_cached_points_some take c w = Ok w'
  /\ from_read c (pw_out w') = Ok r /\ read_into r (t_empty 4) 4 = Ok (4, b, r1)
  /\ write_cached_points c w = Ok full
  /\ (exists r2, from_read c (pw_out full) = Ok r2 /\ read_into r2 (t_empty 4) 4 = Ok (4, b0, r0)) /\ mb_points b <> mb_points b0.
Proof. exact short_refuted. Qed.
Print Assumptions C95_short_write_refuted.

(* A file of four points with a centre. The header, the feature table and its body are 184 of 192 bytes; the flush has six writes. *)
Example C95_ex : json_ok ex_codec ex_reread /\ good_layout t_layout /\ pnts_ready t_layout /\ Forall (call_ok t_layout) t_calls
  /\ writer_new (fun x => x) t_layout = Ok t_writer /\ run_and_drop ex_codec t_writer t_calls = Ok (t_done t_calls)
  /\ length (pw_out (t_done t_calls)) = 192 /\ end_of_body (pw_out (t_done t_calls)) = 184
  /\ (exists ws, flush_writes ex_codec t_unflushed = Ok ws /\ map (@length Z) ws = [28; 92; 48; 12; 4; 8])
  /\ from_read ex_codec (firstn 119 (pw_out (t_done t_calls))) = Err
  /\ (exists r b r1, from_read ex_codec (firstn 184 (pw_out (t_done t_calls))) = Ok r /\ read_into r (t_empty 4) 4 = Ok (4, b, r1)).
Proof. exact crash_example. Qed.
