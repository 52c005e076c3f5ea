(* Property of GenericPointWriter, the writer of a program that does not know the format of its file. Only statements; the proofs are in
   GenericWriteProofs.v and GenericWriteExamples.v. chunk and chunk' are the buffer sizes in the LAS writer and reader. *)
From Coq Require Import String List ZArith Lia Bool Arith Permutation SpecFloat.
From Verif Require Import Base LayoutModel LayoutSpec BufferModel BufferSpec TraitModel TraitSpec NumModel NumSpec ConvModel ConvSpec MathModel LasModel LasSpec LasIoModel LasIoSpec
  LasIoProofs11 PntsModel PntsSpec PntsExamples InfoModel PathModel PathSpec PathExamples GenericModel GenericSpec GenericExamples GenericWriteModel GenericWriteSpec GenericWriteProofs GenericWriteExamples.
Import ListNotations.
Open Scope nat_scope.

(* ---- C98 ---- *)
(* LAS and LAZ: points in the default layout of a format, written in any pieces, come back in any pieces and from any place; flags keep their
   lowest bits, positions go through the grid of millimetres. What is missing: other layouts (C96 has them for a single write), LAZ with further
   flushes, and writers that are dropped without a flush, see below. *)
Theorem C98_las_pieces_partial :
  forall c order chunk chunk' d stem ext n l0 ops d' calls, proper stem ext -> las_extension ext -> (ext = "laz"%string -> writes_only ops) ->
  0 < chunk -> ops_wf ops -> ops_layout l0 ops ->
  format_to_u8 (las_point_format_from_point_layout l0) = Ok n -> las_type_layout n = Ok l0 -> (ext = "laz"%string -> n <> 9 /\ n <> 10) ->
  write_history c order chunk d (named stem ext) l0 (ops ++ [LasIoSpec.Flush]) = Ok d' ->
  record_length n <= chunk' -> (Z.of_nat (length (points_of ops)) < 2 ^ 63)%Z -> reads_ok l0 (length (points_of ops)) 0 (map las_call calls) ->
  exists g g' es last, open_file c d' (named stem ext) = Ok g /\ run_generic chunk' g calls = Ok (g', es)
  /\ one_cursor (length (points_of ops)) (fun i n' _ b' => holds_back (Nat.ltb 5 n) default_transforms l0 (firstn n' (skipn i (points_of ops))) b') 0 calls es last.
Proof. intros c order chunk chunk' d stem ext n l0 ops d' calls P L _. exact (las_written_read c order chunk chunk' d stem ext n l0 ops d' calls P L). Qed.
Print Assumptions C98_las_pieces_partial.

(* PNTS: the same with every layout that can be written. What is missing: writes after a flush, see below, and reads without a point to read, see C97. *)
Theorem C98_pnts_pieces_partial :
  forall c reread order chunk chunk' d stem ext l ops d' calls, json_ok c reread -> (forall x, Permutation (order x) x) -> proper stem ext -> pnts_extension ext ->
  good_layout l -> pnts_ready l -> ops_wf ops -> ops_layout l ops -> flushed_last ops -> write_history c order chunk d (named stem ext) l ops = Ok d' ->
  (Z.of_nat (length (points_of ops)) < 2 ^ 63)%Z -> reads_within (length (points_of ops)) 0 calls ->
  exists g g' es last, open_file c d' (named stem ext) = Ok g /\ run_generic chunk' g calls = Ok (g', es)
  /\ one_cursor (length (points_of ops)) (points_back l (points_of ops)) 0 calls es last.
Proof. exact pnts_written_read. Qed.
Print Assumptions C98_pnts_pieces_partial.

(* These histories succeed, so the theorems above are about all of them: LAS and LAZ if the points fit into the format and the grid; *)
Theorem C98_las_writes_succeed :
  forall c order chunk d stem ext n l ops, proper stem ext -> las_extension ext -> (ext = "laz"%string -> writes_only ops \/ exists ops', ops = ops' ++ [LasIoSpec.Flush] /\ writes_only ops') ->
  0 < chunk -> ops_wf ops -> format_to_u8 (las_point_format_from_point_layout l) = Ok n ->
  (forall p, In p (LasIoSpec.written ops) -> representable n default_transforms (fst p) (snd p)) ->
  exists d', write_history c order chunk d (named stem ext) l ops = Ok d'.
Proof. intros c order chunk d stem ext n l ops P L _. exact (las_total c order chunk d stem ext n l ops P L). Qed.
Print Assumptions C98_las_writes_succeed.

(* PNTS if the file has less than 2^32 bytes, k of them at most for the JSON of a table. *)
Theorem C98_pnts_writes_succeed :
  forall c order chunk d stem ext l ops k, (forall x, Permutation (order x) x) -> proper stem ext -> pnts_extension ext -> good_layout l -> pnts_ready l ->
  ops_wf ops -> ops_layout l ops -> tables_within c k -> (28 + 2 * (Z.of_nat k + 7) + 4 * (12 * Z.of_nat (length (points_of ops)) + 7) < 2 ^ 32)%Z ->
  exists d', write_history c order chunk d (named stem ext) l ops = Ok d'.
Proof. exact pnts_total. Qed.
Print Assumptions C98_pnts_writes_succeed.

(* the same for write_all *)
Theorem C96_pnts_writes_succeed :
  forall c order chunk d stem ext b k, (forall x, Permutation (order x) x) -> proper stem ext -> pnts_extension ext -> bf_wf b -> pnts_ready (bf_layout b) ->
  tables_within c k -> (28 + 2 * (Z.of_nat k + 7) + 4 * (12 * Z.of_nat (bf_len b) + 7) < 2 ^ 32)%Z -> exists d', write_all_file c order chunk d (named stem ext) b = (d', Ok tt).
Proof. exact pnts_write_all_total. Qed.
Print Assumptions C96_pnts_writes_succeed.

(* the same calls lose points if the extension is pnts: four are written with a flush between them, two are in the file *)
Theorem C98_flush_refuted :
  ops_wf lossy_ops /\ ops_layout t_layout lossy_ops /\ length (points_of lossy_ops) = 4
  /\ write_history ex_codec (fun x => x) 2 nothing "b.pnts" t_layout lossy_ops = Ok (after_pnts lossy_ops) /\ count_in (after_pnts lossy_ops) "b.pnts" = Some 2.
Proof. exact flush_loses. Qed.
Print Assumptions C98_flush_refuted.

(* a LAS writer that is dropped without a flush: three points are written, none is in the file *)
Theorem C98_drop_refuted :
  exists d', write_history ex_codec (fun x => x) 2 nothing "a.las" (las_layout 0) [LasIoSpec.Write three_points] = Ok d' /\ bf_wf three_points /\ bf_len three_points = 3
  /\ count_in d' "a.las" = Some 0.
Proof. exact drop_loses. Qed.
Print Assumptions C98_drop_refuted.

(* two writes of three points to a LAS file with a flush between them, then six calls *)
Example C98_las_ex : ops_wf las_ops /\ ops_layout (las_layout 0) las_ops /\ las_type_layout 0 = Ok (las_layout 0)
  /\ format_to_u8 (las_point_format_from_point_layout (las_layout 0)) = Ok 0 /\ length (points_of las_ops) = 6
  /\ write_history ex_codec (fun x => x) 2 nothing "a.las" (las_layout 0) (las_ops ++ [LasIoSpec.Flush]) = Ok after_las /\ count_in after_las "a.las" = Some 6
  /\ reads_ok (las_layout 0) 6 0 (map las_call (some_calls (new_buffer KindHashMap (las_layout 0) 1))).
Proof. exact las_ops_apply. Qed.
(* two writes of two points to a PNTS file, then six calls *)
Example C98_pnts_ex : good_layout t_layout /\ pnts_ready t_layout /\ ops_wf pnts_ops /\ ops_layout t_layout pnts_ops /\ flushed_last pnts_ops /\ length (points_of pnts_ops) = 4
  /\ write_history ex_codec (fun x => x) 2 nothing "b.pnts" t_layout pnts_ops = Ok (after_pnts pnts_ops) /\ count_in (after_pnts pnts_ops) "b.pnts" = Some 4
  /\ reads_within 4 0 (some_calls (t_empty 1)).
Proof. exact pnts_ops_apply. Qed.
(* and the sizes: the tables of the codec of the examples have at most 300 bytes; the points of the LAS example fit *)
Example C98_sizes : tables_within ex_codec 300 /\ (28 + 2 * (Z.of_nat 300 + 7) + 4 * (12 * Z.of_nat (length (points_of pnts_ops)) + 7) < 2 ^ 32)%Z
  /\ (forall p, In p (LasIoSpec.written las_ops) -> representable 0 default_transforms (fst p) (snd p)).
Proof. exact sizes_ok. Qed.
