(* Property of GenericPointReader, the reader of a program that does not know the format of its file. Only statements; the proofs are in
   GenericProofs.v and GenericExamples.v. chunk is the buffer size in the LAS reader. *)
From Coq Require Import String List ZArith Lia Bool Arith SpecFloat.
From Verif Require Import Base LayoutModel LayoutSpec BufferModel BufferSpec TraitModel TraitSpec NumModel NumSpec ConvModel ConvSpec MathModel LasModel LasSpec LasIoModel LasIoSpec
  LasIoProofs11 PntsModel PntsSpec PntsExamples InfoModel PathModel PathSpec GenericModel GenericSpec GenericProofs GenericExamples.
Import ListNotations.
Open Scope nat_scope.

(* ---- C97 ---- *)
(* LAS and LAZ: any history of seeks and reads that does not panic is that of a cursor over the points of the file, also at its end. *)
Theorem C97_las_cursor :
  forall c chunk d stem ext f raw g calls, proper stem ext -> las_extension ext -> d (named stem ext) = Some (LasContent f) -> open_file c d (named stem ext) = Ok g ->
  file_ok f raw -> l_size raw <= chunk -> (Z.of_nat (length (records f)) < 2 ^ 63)%Z -> calls_ok f raw 0 (map las_call calls) ->
  exists g' es last, run_generic chunk g calls = Ok (g', es)
  /\ one_cursor (length (records f)) (fun i n b b' => filled f raw (firstn n (skipn i (records f))) b b') 0 calls es last
  /\ generic_point_index g' = Ok (g', last) /\ generic_point_count g' = Ok (g', length (records f)).
Proof. exact las_generic. Qed.
Print Assumptions C97_las_cursor.

(* PNTS: the same cursor, with the points of a PNTS file. What is missing: reads without a point to read, see below; as in C55, where a centre is
   added the buffer has no points but those read. *)
Theorem C97_pnts_cursor_partial :
  forall c chunk d stem ext bytes r g calls, proper stem ext -> pnts_extension ext -> d (named stem ext) = Some (Bytes bytes) -> open_file c d (named stem ext) = Ok g ->
  from_read c bytes = Ok r -> reader_ok r -> (Z.of_nat (pr_num r) < 2 ^ 63)%Z -> calls_fit r 0 Absolute (map pnts_call calls) -> points_left (pr_num r) 0 calls ->
  exists g' es last, run_generic chunk g calls = Ok (g', es) /\ one_cursor (pr_num r) (points_read r Absolute) 0 calls es last
  /\ generic_point_index g' = Ok (g', last) /\ generic_point_count g' = Ok (g', pr_num r).
Proof. exact pnts_generic. Qed.
Print Assumptions C97_pnts_cursor_partial.

(* At the end of a LAS file no points are read; at the end of a PNTS file, of this one and of any other, reading is an error. *)
Theorem C97_end_refuted :
  (forall chunk r b count, pr_index r = pr_num r -> generic_read_into chunk (OfPnts r) b count = Err)
  /\ exists gl gp bl bp, generic_seek_point (opened "a.las") (FromEnd 0) = Ok (gl, 2) /\ generic_read_into 64 gl bl 1 = Ok (bl, gl, 0) /\ mb_wf bl /\ mb_len bl = 1
     /\ generic_seek_point (opened "b.pnts") (FromEnd 0) = Ok (gp, 4) /\ generic_read_into 64 gp bp 1 = Err /\ mb_wf bp /\ mb_len bp = 1.
Proof. split; [exact pnts_end|exact ends_differ]. Qed.
Print Assumptions C97_end_refuted.

(* a seek to before the first point is a panic with a LAS file and an error with a PNTS file *)
Theorem C97_start_refuted :
  generic_seek_point (opened "a.las") (FromCurrent (-1)) = Panic /\ generic_seek_point (opened "b.pnts") (FromCurrent (-1)) = Err.
Proof. exact starts_differ. Qed.
Print Assumptions C97_start_refuted.

(* both files of the examples are opened by their names *)
Example C97_opened : open_file ex_codec two_files "a.las" = Ok (opened "a.las") /\ open_file ex_codec two_files "b.pnts" = Ok (opened "b.pnts")
  /\ from_read ex_codec t_file = Ok t_reader.
Proof. exact two_opened. Qed.
(* six calls for each of them *)
Example C97_ex : proper "a" "las" /\ las_extension "las" /\ proper "b" "pnts" /\ pnts_extension "pnts"
  /\ file_ok las_file2 raw0 /\ length (records las_file2) = 2 /\ calls_ok las_file2 raw0 0 (map las_call (some_calls (new_buffer KindVector raw0 1)))
  /\ reader_ok t_reader /\ pr_num t_reader = 4 /\ calls_fit t_reader 0 Absolute (map pnts_call (some_calls (t_empty 1))) /\ points_left 4 0 (some_calls (t_empty 1)).
Proof. exact calls_apply. Qed.
