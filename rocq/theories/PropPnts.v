(* C52-C55, C90: 3D Tiles PNTS files. *)
From Coq Require Import String List ZArith Lia Bool Arith Permutation SpecFloat.
From Verif Require Import Base LayoutModel LayoutSpec BufferModel BufferSpec TraitModel TraitSpec NumModel NumSpec ConvModel ConvSpec MathModel LasIoModel
  PntsModel PntsSpec PntsProofs8 PntsProofs9 PntsProofs10 PntsProofs11 PntsProofs12 PntsExamples.
Import ListNotations.
Open Scope nat_scope.

(* ---- C52 ---- *)
(* Whatever the history and the layout, the file is a PNTS file with the points written before the first flush. *)
Theorem C52_files_well_formed :
  forall c reread order l calls w0 w,
  json_ok c reread -> (forall x, Permutation (order x) x) -> good_layout l -> pnts_ready l -> Forall (call_ok l) calls ->
  writer_new order l = Ok w0 -> run_and_drop c w0 calls = Ok w ->
  pnts_file c l (option_map (map_p3 reread) (centre_set (before_flush calls))) (written (before_flush calls)) (pw_out w).
Proof.
  intros c reread order l calls w0 w J P G RD OK N R. destruct (file_written c reread l order calls J P G RD OK) as (w0' & E & H). rewrite N in E. injection E as <-. exact (H w R).
Qed.
Print Assumptions C52_files_well_formed.

(* a writer can be made, and no call fails as long as the file stays below 4 GiB *)
Theorem C52_files_are_written :
  forall c order l calls k,
  (forall x, Permutation (order x) x) -> good_layout l -> pnts_ready l -> Forall (call_ok l) calls -> tables_within c k ->
  (28 + 2 * (Z.of_nat k + 7) + 4 * (12 * Z.of_nat (length (written (before_flush calls))) + 7) < 2 ^ 32)%Z ->
  exists w0 w, writer_new order l = Ok w0 /\ run_and_drop c w0 calls = Ok w.
Proof.
  intros c order l calls k P G RD OK TW B. destruct (PntsProofs3.writer_new_ok order l P G RD) as (w0 & E & _). exists w0.
  destruct (history_fits c l order calls k w0 P G RD OK TW B E) as (w & R). exists w. auto.
Qed.
Print Assumptions C52_files_are_written.

Example C52_ex : json_ok ex_codec ex_reread /\ tables_within ex_codec 300 /\ good_layout t_layout /\ pnts_ready t_layout /\ Forall (call_ok t_layout) t_calls
  /\ writer_new (fun x => x) t_layout = Ok t_writer /\ run_and_drop ex_codec t_writer t_calls = Ok (t_done t_calls)
  /\ length (written (before_flush t_calls)) = 4 /\ length (pw_out (t_done t_calls)) = 192.
Proof.
  destruct t_runs as (N & R & O & F). split; [exact ex_codec_ok|]. split; [exact ex_codec_within|]. split; [exact t_good|]. split; [exact t_ready|]. split; [exact t_calls_ok|].
  split; [exact N|]. split; [exact R|]. split; [reflexivity|]. rewrite O. reflexivity.
Qed.

(* ---- C53 ---- *)
(* Writes, at most one flush at the end, and a read of the whole file: all points are there, in order. *)
Theorem C53_points_survive :
  forall c reread order l ws calls w0 w b,
  json_ok c reread -> (forall x, Permutation (order x) x) -> good_layout l -> pnts_ready l -> Forall (call_ok l) ws ->
  ~ In Flush ws -> calls = ws \/ calls = ws ++ [Flush] ->
  writer_new order l = Ok w0 -> run_and_drop c w0 calls = Ok w ->
  mb_wf b -> mb_len b = length (written ws) -> 0 < length (written ws) -> file_readable (mb_layout b) ->
  exists r b' r', from_read c (pw_out w) = Ok r /\ pr_num r = length (written ws) /\ pr_rtc r = option_map (map_p3 reread) (centre_set ws)
  /\ read_into (set_read_positions_mode r RelativeToCenter) b (length (written ws)) = Ok (length (written ws), b', r')
  /\ mb_wf b' /\ length (mb_points b') = length (written ws)
  /\ forall i p old q, nth_error (written ws) i = Some p -> nth_error (mb_points b) i = Some old -> nth_error (mb_points b') i = Some q ->
       came_back l (mb_layout b) p old q.
Proof. exact points_survive. Qed.
Print Assumptions C53_points_survive.

(* the reader opened on it holds exactly those points, so C55 describes all other ways of reading *)
Theorem C53_reader_holds_points :
  forall c reread order l calls w0 w,
  json_ok c reread -> (forall x, Permutation (order x) x) -> good_layout l -> pnts_ready l -> Forall (call_ok l) calls ->
  writer_new order l = Ok w0 -> run_and_drop c w0 calls = Ok w ->
  exists r, from_read c (pw_out w) = Ok r /\ reader_ok r /\ holds r l (written (before_flush calls))
  /\ pr_rtc r = option_map (map_p3 reread) (centre_set (before_flush calls)) /\ pr_index r = 0 /\ pr_mode r = Absolute.
Proof. exact (fun c reread order l calls w0 w => reopened c reread l order calls w0 w). Qed.
Print Assumptions C53_reader_holds_points.

Example C53_ex : ~ In Flush t_calls /\ mb_wf (t_empty 4) /\ mb_len (t_empty 4) = length (written t_calls) /\ file_readable t_layout.
Proof.
  split; [intros [E|[E|[E|[]]]]; discriminate E|]. split; [apply t_empty_wf|]. split; [reflexivity|]. exact (proj2 (proj2 t_fits)).
Qed.

(* ---- C54 ---- *)
(* The full property: the file holds the points of all writes. It holds those before the first flush, and later flushes change nothing. *)
Theorem C54_no_point_lost_partial :
  forall c reread order l calls w0 w,
  json_ok c reread -> (forall x, Permutation (order x) x) -> good_layout l -> pnts_ready l -> Forall (call_ok l) calls ->
  writer_new order l = Ok w0 -> run_and_drop c w0 calls = Ok w ->
  exists r, from_read c (pw_out w) = Ok r /\ holds r l (written (before_flush calls)).
Proof.
  intros c reread order l calls w0 w J P G RD OK N R. destruct (reopened c reread l order calls w0 w J P G RD OK N R) as (r & E & _ & H & _). exists r. auto.
Qed.
Print Assumptions C54_no_point_lost_partial.

(* with any non-empty write after a flush the file has fewer points than were written *)
Theorem C54_no_point_lost_refuted :
  (forall c reread order l ws p w0 w,
    json_ok c reread -> (forall x, Permutation (order x) x) -> good_layout l -> pnts_ready l -> Forall (call_ok l) (ws ++ [Flush; Write p]) ->
    writer_new order l = Ok w0 -> run_and_drop c w0 (ws ++ [Flush; Write p]) = Ok w -> bf_points p <> [] ->
    exists r, from_read c (pw_out w) = Ok r /\ pr_num r < length (written (ws ++ [Flush; Write p])))
  /\ exists r, writer_new (fun x => x) t_layout = Ok t_writer /\ Forall (call_ok t_layout) t_lost /\ run_and_drop ex_codec t_writer t_lost = Ok (t_done t_lost)
     /\ from_read ex_codec (pw_out (t_done t_lost)) = Ok r /\ pr_num r = 2 /\ length (written t_lost) = 4.
Proof.
  split; [exact lost_points|]. destruct t_lost_runs as (r & A & B & C & D). exists r. split; [exact (proj1 t_runs)|]. split; [|auto].
  constructor; [split; [exact t_points_wf|reflexivity]|]. constructor; [exact I|]. constructor; [split; [exact t_points_wf|reflexivity]|constructor].
Qed.
Print Assumptions C54_no_point_lost_refuted.

(* ---- C55 ---- *)
(* Histories of seeks, reads and changes of the mode. What is missing: where a centre is added, the buffer has no points but those read. *)
Theorem C55_reader_is_cursor_partial :
  forall r calls,
  reader_ok r -> (Z.of_nat (pr_num r) < 2 ^ 63)%Z -> calls_fit r (pr_index r) (pr_mode r) calls ->
  exists r' es, run_calls r calls = Ok (r', es) /\ pr_index r' <= pr_num r
  /\ cursor_history r (pr_index r) (pr_mode r) calls es (pr_index r') (pr_mode r').
Proof. exact cursor. Qed.
Print Assumptions C55_reader_is_cursor_partial.

(* every file the writer made is such a file; one read of any other buffer with a centre: the positions of all its points are moved *)
Theorem C55_rest_of_buffer_refuted :
  (forall r b count c, reader_ok r -> pr_mode r = Absolute -> pr_rtc r = Some c ->
    0 < Nat.min (pr_num r - pr_index r) count -> fits r Absolute (Nat.min (pr_num r - pr_index r) count) b ->
    exists b' r', read_into r b count = Ok (Nat.min (pr_num r - pr_index r) count, b', r')
    /\ forall k old q, nth_error (mb_points b) k = Some old -> nth_error (mb_points b') k = Some q ->
         Nat.min (pr_num r - pr_index r) count <= k -> point_moved (mb_layout b) c old q)
  /\ exists r' old q, reader_ok t_reader /\ mb_wf (t_empty 2) /\ read_into t_reader (t_empty 2) 1 = Ok (1, t_read, r')
     /\ nth_error (mb_points (t_empty 2)) 1 = Some old /\ nth_error (mb_points t_read) 1 = Some q /\ q <> old.
Proof.
  split; [exact rest_moved|]. destruct t_read_runs as (r' & old & q & A & B & C & D). exists r', old, q. split; [exact (proj1 t_reader_ok)|]. split; [apply t_empty_wf|]. auto.
Qed.
Print Assumptions C55_rest_of_buffer_refuted.

(* seeking to i64::MAX points behind the end does not lead to the end *)
Theorem C55_seek_refuted :
  forall r, 0 < pr_num r -> (Z.of_nat (pr_num r) < 2 ^ 63)%Z -> seek_point r (FromEnd (2 ^ 63 - 1)) = Panic.
Proof. exact seek_overflow. Qed.
Print Assumptions C55_seek_refuted.

Example C55_ex : reader_ok t_reader /\ pr_num t_reader = 4 /\ pr_rtc t_reader <> None
  /\ calls_fit t_reader (pr_index t_reader) (pr_mode t_reader)
       [RRead (t_empty 1) 1; RSeek (FromEnd (-2)); RRead (t_empty 2) 5; RRead (t_empty 1) 1; RSeek (FromCurrent (-9)); RMode RelativeToCenter; RSeek (FromStart 1); RRead (t_empty 7) 2].
Proof. exact t_history. Qed.

(* ---- C90 ---- *)
(* Any bytes, any JSON parser. What is missing: offsets of 2^63 and more. *)
Theorem C90_open_partial :
  forall c bytes, (Z.of_nat (length bytes) < 2 ^ 62)%Z ->
  (forall fields o, feature_table c bytes fields -> stated_offset fields o -> (o < 2 ^ 63)%Z) ->
  from_read c bytes = Err \/ exists r, from_read c bytes = Ok r.
Proof. intros c bytes L S. pose proof (open_no_panic c bytes L S) as H. destruct (from_read c bytes); [right; eauto|now left|now destruct H]. Qed.
Print Assumptions C90_open_partial.

(* The reader of any bytes, at any of the points they claim to have. What is missing: points from 2^57 on, offsets of 2^62 and more. *)
Theorem C90_read_partial :
  forall c bytes r, from_read c bytes = Ok r -> (Z.of_nat (length bytes) < 2 ^ 62)%Z ->
  (forall fields o, feature_table c bytes fields -> stated_offset fields o -> (o < 2 ^ 62)%Z) ->
  forall i m b count, let n := Nat.min (pr_num r - i) count in
  i <= pr_num r -> (Z.of_nat i < 2 ^ 57)%Z -> (Z.of_nat count < 2 ^ 57)%Z -> fits r m n b ->
  read_into (at_point r i m) b count = Err \/ exists b', read_into (at_point r i m) b count = Ok (n, b', at_point r (i + n) m).
Proof. exact read_no_panic. Qed.
Print Assumptions C90_read_partial.

(* seeking, whatever number of points the file claims to have: FromEnd fails where that number is no i64 *)
Theorem C90_seek_partial :
  forall r s, (seek_fits (pr_num r) (pr_index r) s \/ (2 ^ 63 <= Z.of_nat (pr_num r))%Z /\ exists k, s = FromEnd k) ->
  seek_point r s = Err \/ exists j, j <= pr_num r /\ seek_point r s = Ok (j, at_point r j (pr_mode r)).
Proof. exact seek_no_panic. Qed.
Print Assumptions C90_seek_partial.

(* a file of 70 bytes that cannot be opened: its feature table states the offset u64::MAX *)
Theorem C90_refuted :
  length huge_file = 70 /\ json_parse ex_codec (skipn 28 huge_file) = Some huge_table /\ from_read ex_codec huge_file = Panic.
Proof. exact huge_panics. Qed.
Print Assumptions C90_refuted.

(* a file without its last 20 bytes is opened, its points cannot be read; one that ends in the feature table is not opened *)
Example C90_ex :
  (forall fields o, feature_table ex_codec t_cut fields -> stated_offset fields o -> (o < 2 ^ 62)%Z)
  /\ from_read ex_codec t_cut = Ok t_cut_reader /\ pr_num t_cut_reader = 4 /\ fits t_cut_reader Absolute 4 (t_empty 4)
  /\ read_into t_cut_reader (t_empty 4) 4 = Err /\ from_read ex_codec (firstn 40 t_file) = Err.
Proof. exact t_cut_ok. Qed.
