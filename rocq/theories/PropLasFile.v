(* Property theorems about the structure of LAS and LAZ files: C87. *)
From Coq Require Import String List ZArith Lia Bool Arith.
From Verif Require Import Base LasModel LasIoModel LasFileModel LasFileSpec LasFileProofs LasFileProofs2 LasFileExamples.
Import ListNotations.
Open Scope nat_scope.

(* ---- C87 ---- *)
(* LAS. Missing: VLR padding, large VLRs, and that the start of the extended VLRs is the one in the header (refuted below). *)
Theorem C87_las_file_partial :
  forall (cr : crates) (hd : head) (ops : list file_op),
  headers_fit cr -> Forall small_vlr (hd_vlrs hd) -> hd_padding hd = [] ->
  exists w, file_of cr false hd ops = Ok w
    /\ fw_stream w = cr_header cr (fw_raw w) ++ vlrs_bytes cr (hd_vlrs hd) ++ snd (written ops) ++ evlrs_bytes cr (hd_evlrs hd)
    /\ rh_vlrs (fw_raw w) = length (hd_vlrs hd) /\ rh_points (fw_raw w) = fst (written ops)
    /\ rh_offset (fw_raw w) = length (cr_header cr (fw_raw w) ++ vlrs_bytes cr (hd_vlrs hd))
    /\ rh_evlr (fw_raw w) = match hd_evlrs hd with [] => None | vs => Some (cr_first_evlr cr hd, length vs) end.
Proof. exact (fun cr hd ops F => las_file cr F hd ops). Qed.
Print Assumptions C87_las_file_partial.

(* where a reader looks for the points there are the points *)
Theorem C87_points_at_offset_partial :
  forall (cr : crates) (hd : head) (ops : list file_op) (w : file_writer),
  headers_fit cr -> hd_padding hd = [] -> file_of cr false hd ops = Ok w -> lies_at (snd (written ops)) (rh_offset (fw_raw w)) (fw_stream w).
Proof. exact points_at_offset. Qed.
Print Assumptions C87_points_at_offset_partial.

(* flushes in between change nothing *)
Theorem C87_flush_partial :
  forall (cr : crates) (hd : head) (ops ops' : list file_op) (w : file_writer),
  headers_fit cr -> written ops = written ops' -> file_of cr false hd ops = Ok w -> exists w', file_of cr false hd ops' = Ok w' /\ fw_stream w' = fw_stream w.
Proof. exact flushes_do_not_matter. Qed.
Print Assumptions C87_flush_partial.

(* A header with VLR padding, such as the reader gives for a file with a gap before the points: writing a LAS file panics. *)
Theorem C87_padding_refuted :
  forall (cr : crates) (hd : head) (ops : list file_op), headers_fit cr -> hd_padding hd <> [] -> file_of cr false hd ops = Panic.
Proof. exact padding_panics. Qed.
Print Assumptions C87_padding_refuted.

(* ... and in a LAZ file the points do not start where the header says *)
Theorem C87_laz_padding_refuted :
  forall (cr : crates) (hd : head) (ops : list file_op), headers_fit cr -> ~ In FFlush ops ->
  exists w, file_of cr true hd ops = Ok w
    /\ skipn (rh_offset (fw_raw w)) (fw_stream w) = hd_padding hd ++ snd (written ops) ++ cr_done cr ++ evlrs_bytes cr (hd_evlrs hd).
Proof. exact laz_points_after_padding. Qed.
Print Assumptions C87_laz_padding_refuted.

(* Whatever start of the extended VLRs the crate las puts into the header when the file is opened: it is not the one of some file. *)
Theorem C87_evlr_start_refuted :
  forall cr : crates, headers_fit cr -> exists hd ops w start n, file_of cr false hd ops = Ok w
  /\ rh_evlr (fw_raw w) = Some (start, n) /\ start <> rh_offset (fw_raw w) + length (snd (written ops)).
Proof. exact evlr_start_wrong. Qed.
Print Assumptions C87_evlr_start_refuted.

(* LAZ, without flushes in between. Missing: the VLRs of the header, and its fields for the extended VLRs (refuted below). *)
Theorem C87_laz_file_partial :
  forall (cr : crates) (hd : head) (ops : list file_op), headers_fit cr -> ~ In FFlush ops ->
  exists w, file_of cr true hd ops = Ok w
    /\ fw_stream w = cr_header cr (fw_raw w) ++ cr_vlr cr (cr_laszip cr) ++ hd_padding hd ++ snd (written ops) ++ cr_done cr ++ evlrs_bytes cr (hd_evlrs hd)
    /\ rh_vlrs (fw_raw w) = 1 /\ rh_points (fw_raw w) = fst (written ops)
    /\ rh_offset (fw_raw w) = length (cr_header cr (fw_raw w) ++ cr_vlr cr (cr_laszip cr))
    /\ rh_evlr (fw_raw w) = None.
Proof. exact (fun cr hd ops F => laz_file cr F hd ops). Qed.
Print Assumptions C87_laz_file_partial.

(* the VLRs of the header do not get into a LAZ file *)
Theorem C87_laz_vlrs_refuted :
  forall (cr : crates) (padding : list Z) (evlrs vs vs' : list vlr) (ops : list file_op),
  file_of cr true (mk_head vs padding evlrs) ops = file_of cr true (mk_head vs' padding evlrs) ops.
Proof. exact laz_vlrs_lost. Qed.
Print Assumptions C87_laz_vlrs_refuted.

(* a flush before into_inner: the end of the compressed stream and the extended VLRs are there twice *)
Theorem C87_laz_flush_refuted :
  forall (cr : crates) (hd : head) (ops : list file_op), headers_fit cr -> ~ In FFlush ops ->
  exists w, file_of cr true hd (ops ++ [FFlush]) = Ok w
    /\ fw_stream w = cr_header cr (fw_raw w) ++ cr_vlr cr (cr_laszip cr) ++ hd_padding hd ++ snd (written ops)
         ++ cr_done cr ++ evlrs_bytes cr (hd_evlrs hd) ++ cr_done cr ++ evlrs_bytes cr (hd_evlrs hd).
Proof. exact (fun cr hd ops F => laz_flush_twice cr F hd ops). Qed.
Print Assumptions C87_laz_flush_refuted.

Example C87_las_example : headers_fit toy /\ Forall small_vlr (hd_vlrs toy_head) /\ hd_padding toy_head = [] /\ hd_evlrs toy_head <> []
  /\ stream_of (file_of toy false toy_head toy_history) = [2; 9; 6; 3;  2; 5; 6; 1; 7;  11; 12; 13; 14; 15; 16;  99; 8]%Z.
Proof. exact (conj toy_fits (conj toy_small (conj eq_refl (conj toy_evlrs toy_las)))). Qed.
Example C87_laz_example : headers_fit toy
  /\ stream_of (file_of toy true toy_head toy_history) = [1; 6; 0; 3;  1; 77;  11; 12;  88; 99; 8;  88; 99; 8;  13; 14; 15; 16;  88; 99; 8]%Z.
Proof. exact (conj toy_fits toy_laz). Qed.
