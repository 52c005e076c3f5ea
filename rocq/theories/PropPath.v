(* Property of files that are written and read by their names: write_all and read_all on a directory. Only statements; the proofs are in PathProofs.v
   and PathExamples.v. chunk and chunk' as in PropWriteAll.v. *)
From Coq Require Import String List ZArith Lia Bool Arith Permutation SpecFloat.
From Verif Require Import Base LayoutModel LayoutSpec BufferModel BufferSpec TraitModel TraitSpec NumModel NumSpec ConvModel ConvSpec MathModel LasModel LasSpec LasIoModel LasIoSpec
  WriteAllExamples PntsModel PntsSpec PntsExamples InfoModel PathModel PathSpec PathProofs PathExamples.
Import ListNotations.
Open Scope nat_scope.

(* ---- C96 ---- *)
(* Other files are not touched, whatever happens. *)
Theorem C96_other_files : forall c order chunk d name b other, other <> name -> fst (write_all_file c order chunk d name b) other = d other.
Proof. exact others. Qed.
Print Assumptions C96_other_files.

(* With another extension nothing is created, replaced or read. *)
Theorem C96_unsupported_names :
  forall c order chunk k d stem ext b x, proper stem ext -> ~ las_extension ext -> ~ pnts_extension ext ->
  write_all_file c order chunk d (named stem ext) b = (d, Err)
  /\ read_all_file c chunk k d (named stem ext) = Err /\ read_all_into_file c chunk x d (named stem ext) = Err.
Proof. exact unsupported. Qed.
Print Assumptions C96_unsupported_names.

(* After any sequence of writes to any files, each file has what the last write to it left, as if it had been the first. *)
Theorem C96_last_write_counts :
  forall c order chunk d before name b after kind, get_extension_lookup name = Ok kind -> ~ In name (map fst after) ->
  write_files c order chunk d (before ++ (name, b) :: after) name = fst (write_all_file c order chunk d name b) name.
Proof. exact last_write. Qed.
Print Assumptions C96_last_write_counts.

(* LAS and LAZ: the points come back, as in C84. *)
Theorem C96_las_round_trip :
  forall c order chunk chunk' k d stem ext b n l0, proper stem ext -> las_extension ext ->
  0 < chunk -> bf_wf b -> format_to_u8 (las_point_format_from_point_layout (bf_layout b)) = Ok n -> las_type_layout n = Ok l0 ->
  (ext = "laz"%string -> n <> 9 /\ n <> 10) -> record_length n <= chunk' -> (forall p, In p (bf_points b) -> representable n default_transforms (bf_layout b) p) ->
  exists d' b', write_all_file c order chunk d (named stem ext) b = (d', Ok tt) /\ read_all_file c chunk' k d' (named stem ext) = Ok b'
  /\ mb_wf b' /\ mb_layout b' = l0 /\ mb_len b' = bf_len b
  /\ forall i p tm, nth_error (bf_points b) i = Some p -> In tm (l_attrs l0) ->
     exists p', nth_error (mb_points b') i = Some p' /\ LasIoSpec.came_back (Nat.ltb 5 n) default_transforms (bf_layout b) tm p = Some (attr_value tm p').
Proof. exact las_round_trip. Qed.
Print Assumptions C96_las_round_trip.

(* PNTS: if the file was written, all points are read, in their order, and the attributes with a semantic have the values of the written ones,
   converted to the datatype of the semantic; there are no other attributes. What is missing: buffers without points, see below. *)
Theorem C96_pnts_round_trip_partial :
  forall c reread order chunk chunk' k d stem ext b d', json_ok c reread -> (forall x, Permutation (order x) x) -> proper stem ext -> pnts_extension ext ->
  bf_wf b -> pnts_ready (bf_layout b) -> 0 < bf_len b -> write_all_file c order chunk d (named stem ext) b = (d', Ok tt) ->
  exists b', read_all_file c chunk' k d' (named stem ext) = Ok b' /\ mb_wf b' /\ mb_len b' = bf_len b
  /\ (forall m key t, In m (l_attrs (bf_layout b)) -> semantic (m_name m) key t ->
        exists tm, In tm (l_attrs (mb_layout b')) /\ m_name tm = m_name m /\ m_type tm = t
        /\ forall i p, nth_error (bf_points b) i = Some p ->
             exists q, nth_error (mb_points b') i = Some q /\ value_as (m_type m) t (attr_value m p) = Some (attr_value tm q))
  /\ (forall tm, In tm (l_attrs (mb_layout b')) -> exists m key, In m (l_attrs (bf_layout b)) /\ m_name m = m_name tm /\ semantic (m_name m) key (m_type tm)).
Proof. exact pnts_round_trip. Qed.
Print Assumptions C96_pnts_round_trip_partial.

(* a PNTS file without points is written, but reading it is an error *)
Theorem C96_no_points_refuted :
  exists b d', bf_wf b /\ pnts_ready (bf_layout b) /\ write_all_file ex_codec (fun x => x) 3 nothing "a.pnts" b = (d', Ok tt)
  /\ read_all_file ex_codec 64 KindVector d' "a.pnts" = Err.
Proof. exact empty_pnts. Qed.
Print Assumptions C96_no_points_refuted.

(* read_all_into of a LAS or LAZ file is that of C46. *)
Theorem C96_read_all_into_las :
  forall c chunk d stem ext x f, proper stem ext -> las_extension ext -> d (named stem ext) = Some (LasContent f) -> f_laz f = String.eqb ext "laz" ->
  read_all_into_file c chunk x d (named stem ext) = read_all_into chunk x f.
Proof. exact into_las. Qed.
Print Assumptions C96_read_all_into_las.

(* The full property: the points are appended to the buffer. With a PNTS file they replace those of a buffer of the same length. *)
Theorem C96_read_all_into_pnts_partial :
  forall c reread order chunk chunk' d stem ext b d' x, json_ok c reread -> (forall x, Permutation (order x) x) -> proper stem ext -> pnts_extension ext ->
  bf_wf b -> pnts_ready (bf_layout b) -> 0 < bf_len b -> write_all_file c order chunk d (named stem ext) b = (d', Ok tt) ->
  mb_wf x -> mb_len x = bf_len b -> file_readable (mb_layout x) ->
  exists x', read_all_into_file c chunk' x d' (named stem ext) = Ok (x', bf_len b) /\ mb_wf x' /\ mb_layout x' = mb_layout x /\ mb_len x' = mb_len x
  /\ forall i p old q, nth_error (bf_points b) i = Some p -> nth_error (mb_points x) i = Some old -> nth_error (mb_points x') i = Some q ->
       PntsSpec.came_back (bf_layout b) (mb_layout x) p old q.
Proof. exact into_pnts. Qed.
Print Assumptions C96_read_all_into_pnts_partial.

(* a buffer of two points has two points afterwards, an empty one leads to a panic *)
Theorem C96_read_all_into_refuted :
  exists d' x', write_all_file ex_codec (fun x => x) 3 nothing "tile.pnts" (Of t_points) = (d', Ok tt) /\ mb_wf (t_empty 2) /\ file_readable t_layout
  /\ read_all_into_file ex_codec 64 (t_empty 2) d' "tile.pnts" = Ok (x', 2) /\ mb_len x' = 2
  /\ read_all_into_file ex_codec 64 (t_empty 0) d' "tile.pnts" = Panic.
Proof. exact into_refuted. Qed.
Print Assumptions C96_read_all_into_refuted.

(* What a write to a LAS or LAZ file leaves. The full property: a write that fails leaves the file as it was. *)
Theorem C96_outcome_partial :
  forall c order chunk d stem ext b, proper stem ext -> las_extension ext -> 0 < chunk -> bf_wf b ->
  match write_all chunk (String.eqb ext "laz") b with
  | Ok f => f_laz f = String.eqb ext "laz" /\ write_all_file c order chunk d (named stem ext) b = (put d (named stem ext) (LasContent f), Ok tt)
  | Err => write_all_file c order chunk d (named stem ext) b = (put d (named stem ext) (Bytes []), Err)
  | Panic => snd (write_all_file c order chunk d (named stem ext) b) = Panic
  end.
Proof. exact write_all_outcome. Qed.
Print Assumptions C96_outcome_partial.

(* a file of two points; a write of points for which LAS has no format fails, and the two points are gone *)
Theorem C96_failed_write_refuted :
  exists d b d', bf_wf b /\ readable_points (read_all_file ex_codec 64 KindVector d "scan.las") = 2
  /\ write_all_file ex_codec (fun x => x) 3 d "scan.las" b = (d', Err) /\ read_all_file ex_codec 64 KindVector d' "scan.las" = Err.
Proof. exact old_file_lost. Qed.
Print Assumptions C96_failed_write_refuted.

(* a file named .LAZ is not compressed *)
Theorem C96_compressed_refuted :
  exists f, fst (write_all_file ex_codec (fun x => x) 3 nothing "scan.LAZ" near_buffer) "scan.LAZ"%string = Some (LasContent f) /\ f_laz f = false
  /\ same_up_to_case "LAZ" "laz".
Proof. exact upper_case. Qed.
Print Assumptions C96_compressed_refuted.

Example C96_names : proper "scan.v2" "LaS" /\ las_extension "LaS" /\ proper "tile" "pnts" /\ pnts_extension "pnts" /\ named "tile" "pnts" = "tile.pnts"%string
  /\ proper "a" "txt" /\ ~ las_extension "txt" /\ ~ pnts_extension "txt".
Proof. exact names_ok. Qed.
(* two points in a PNTS file beside a LAS file; the other hypotheses of the round trips are met by C84_applies and C52_ex *)
Example C96_ex : bf_wf (Of t_points) /\ bf_len (Of t_points) = 2
  /\ exists d', write_all_file ex_codec (fun x => x) 3 (scan_las nothing) "tile.pnts" (Of t_points) = (d', Ok tt)
     /\ readable_points (read_all_file ex_codec 64 KindHashMap d' "tile.pnts") = 2 /\ readable_points (read_all_file ex_codec 64 KindHashMap d' "scan.las") = 2.
Proof. exact pnts_runs. Qed.
