(* ASCII readers and writers after errors: C94. Vocabulary in AsciiSpec.v and AsciiErrSpec.v, model in AsciiErrModel.v. *)
From Coq Require Import String Ascii List ZArith Bool Arith Lia SpecFloat Permutation.
From Verif Require Import Base LayoutModel LayoutSpec BufferModel BufferSpec TraitModel TraitSpec NumModel NumSpec AsciiModel AsciiSpec AsciiProofs8
  AsciiErrModel AsciiErrSpec AsciiErrProofs AsciiErrExamples.
Import ListNotations.
Open Scope nat_scope.

(* C94: the calls return what the model of C47 to C51 returns; what is new is the state after an error *)
Theorem C94_write_same_result : forall chunk w b, match ascii_write chunk w b with
  | Ok w' => ascii_write_e chunk w b = (w', Ok tt) | Err => snd (ascii_write_e chunk w b) = Err | Panic => snd (ascii_write_e chunk w b) = Panic end.
Proof. exact write_agrees. Qed.
Print Assumptions C94_write_same_result.
Theorem C94_read_same_result : forall r b count, match ascii_read_into r b count with
  | Ok (b', r', n) => ascii_read_into_e r b count = (b', r', Ok n)
  | Err => snd (ascii_read_into_e r b count) = Err
  | Panic => snd (ascii_read_into_e r b count) = Panic
  end.
Proof. exact read_same. Qed.
Print Assumptions C94_read_same_result.

(* whatever a write returns, the text that was in the file before is still there, the write has only appended, and the settings are the same *)
Theorem C94_write_only_appends : forall chunk w b, exists m,
  fst (ascii_write_e chunk w b) = mk_awriter (aw_out w ++ m) (aw_delimiter w) (aw_precision w) (aw_columns w).
Proof. exact write_appends. Qed.
Print Assumptions C94_write_only_appends.

(* a write of points with the attributes of the format succeeds after any failed writes and appends one line for each of its points.
   Missing: that the file before it ends with a line feed (see C94_refuted), and the letters c and u and precision 0 as in C48. *)
Theorem C94_write_after_errors_partial : forall chunk format w b, 0 < chunk -> reachable_after_errors chunk format w -> bf_wf b ->
  only "sxyzirntpRGBedaI" format -> (aw_precision w = 0 -> only "sirncupRGBedaI" format) -> has_fields (bf_layout b) format ->
  exists w' lines, ascii_write_e chunk w b = (w', Ok tt) /\ aw_out w' = aw_out w ++ concat (map terminated lines)
    /\ Forall2 (point_line (aw_precision w) (bf_layout b) format (aw_delimiter w)) (bf_points b) lines.
Proof. exact write_after_errors. Qed.
Print Assumptions C94_write_after_errors_partial.

(* a write of points without the attribute of letter c leaves the columns before c of the first point, each followed by the delimiter, and no
   line feed. Missing: the letters c and u and precision 0 as in C48. *)
Theorem C94_failed_write_leaves_columns_partial : forall chunk good c rest w b a o pr flag, 0 < chunk -> reachable_after_errors chunk (good ++ c :: rest) w ->
  bf_wf b -> 0 < bf_len b -> only "sxyzirntpRGBedaI" (good ++ c :: rest) -> (aw_precision w = 0 -> only "sirncupRGBedaI" good) ->
  has_fields (bf_layout b) good -> meaning_of c = Some (Field a o pr flag) -> member_of (bf_layout b) a = None ->
  exists w' p ts, ascii_write_e chunk w b = (w', Err) /\ nth_error (bf_points b) 0 = Some p
    /\ Forall2 (column_shows (aw_precision w) (bf_layout b) p) good ts
    /\ aw_out w' = aw_out w ++ concat (map (fun t => t ++ aw_delimiter w) ts).
Proof. exact failed_write. Qed.
Print Assumptions C94_failed_write_leaves_columns_partial.

(* the point of a successful write after a failed write is not what a reader of the file reads *)
Theorem C94_refuted : exists chunk order format d w0 b1 w1 b2 w2 r b b' r' p q, 0 < chunk /\ (forall l, Permutation (order l) l)
  /\ ascii_writer_new format = Ok w0 /\ aw_delimiter w0 = d /\ bf_wf b1 /\ bf_wf b2 /\ has_fields (bf_layout b2) format
  /\ ascii_write_e chunk w0 b1 = (w1, Err) /\ ascii_write_e chunk w1 b2 = (w2, Ok tt) /\ bf_points b2 = [p]
  /\ ascii_reader_new order (aw_out w2) format d = Ok r /\ mb_wf b /\ mb_layout b = bf_layout b2 /\ mb_len b = 1
  /\ ascii_read_into r b 1 = Ok (b', r', 1) /\ ar_text r' = [] /\ mb_points b' = [q]
  /\ ~ same_columns format (bf_layout b2) p (mb_layout b') q.
Proof. exact garbled. Qed.
Print Assumptions C94_refuted.

(* a read that meets a malformed line fails; the points of the lines before it are in the buffer, the other points of the buffer are unchanged,
   and the reader goes on behind the malformed line as a new reader on the rest of the file would *)
Theorem C94_reader_goes_on_behind_malformed_line : forall order file format d r b count k line, ascii_reader_new order file format d = Ok r -> mb_wf b ->
  k < count -> k <= mb_len b -> nth_error (lines_of file) k = Some line -> ~ good_line format d line -> Forall (good_line format d) (firstn k (lines_of file)) ->
  exists b' r' rest ps, ascii_read_into_e r b count = (b', r', Err) /\ ascii_reader_new order rest format d = Ok r' /\ lines_of rest = skipn (S k) (lines_of file)
    /\ mb_wf b' /\ mb_layout b' = mb_layout b /\ mb_points b' = ps ++ skipn (length ps) (mb_points b)
    /\ Forall2 (line_point (mb_layout b) format d) (firstn k (lines_of file)) ps.
Proof. exact reads_on. Qed.
Print Assumptions C94_reader_goes_on_behind_malformed_line.

(* the writer of the letters r and i after a failed write of a point without intensity: both theorems about writes apply to it *)
Example C94_write_applies : let w := a_writer (txt "ri") in let w1 := fst (ascii_write_e 2 w (Of r_points)) in
  reachable_after_errors 2 (txt "r" ++ 105%Z :: []) w /\ bf_wf (Of r_points) /\ meaning_of 105 = Some (Field INTENSITY 0 PU16 false)
  /\ member_of (bf_layout (Of r_points)) INTENSITY = None /\ has_fields (bf_layout (Of r_points)) (txt "r") /\ only "sxyzirntpRGBedaI" (txt "ri")
  /\ ascii_write_e 2 w (Of r_points) = (w1, Err) /\ aw_out w1 = txt "3, "
  /\ reachable_after_errors 2 (txt "ri") w1 /\ bf_wf (Of c_points) /\ has_fields (bf_layout (Of c_points)) (txt "ri")
  /\ aw_out (fst (ascii_write_e 2 w1 (Of c_points))) = txt "3, 1, 300" ++ [10%Z].
Proof.
  cbv zeta. split; [exists (a_writer (txt "ri")), []; split; vm_compute; reflexivity|]. split; [exact r_points_wf|]. split; [reflexivity|]. split; [vm_compute; reflexivity|].
  split; [intros c a o pr flag [<-|[]] M; vm_compute in M; injection M as <- <- <- <-; vm_compute; discriminate|].
  split; [intros c I; destruct I as [<-|[<-|[]]]; vm_compute; tauto|]. split; [vm_compute; reflexivity|]. split; [vm_compute; reflexivity|].
  split; [exists (a_writer (txt "ri")), [WritePoints (Of r_points)]; split; vm_compute; reflexivity|]. split; [exact c_points_wf|].
  split; [intros c a o pr flag [<-|[<-|[]]] M; vm_compute in M; injection M as <- <- <- <-; vm_compute; discriminate|]. vm_compute; reflexivity.
Qed.
Example C94_read_applies : ascii_reader_new id_order bad_file (txt "ri") (txt ", ") = Ok (a_reader bad_file (txt "ri") (txt ", "))
  /\ mb_wf (a_empty 3) /\ nth_error (lines_of bad_file) 1 = Some (txt "x, 300") /\ ~ good_line (txt "ri") (txt ", ") (txt "x, 300")
  /\ Forall (good_line (txt "ri") (txt ", ")) (firstn 1 (lines_of bad_file))
  /\ (let '(b, r, x) := ascii_read_into_e (a_reader bad_file (txt "ri") (txt ", ")) (a_empty 3) 3 in
      (mb_points b, ar_text r, x) = ([[0; 3; 1; 0; 0; 0]%Z; repeat 0%Z 6; repeat 0%Z 6], txt "7, 9" ++ [10%Z], Err)).
Proof. exact bad_file_applies. Qed.
