(* ASCII files with floating point columns: C50. Vocabulary in AsciiSpec.v and AsciiFloatSpec.v, model in AsciiModel.v. *)
From Coq Require Import String Ascii List ZArith QArith Qabs Bool Arith Lia SpecFloat Permutation.
From Verif Require Import Base LayoutModel LayoutSpec BufferModel BufferSpec TraitModel TraitSpec NumModel NumSpec AsciiModel AsciiSpec
  AsciiProofs8 AsciiFloatSpec AsciiFloat3 AsciiFloatExamples.
Import ListNotations.
Open Scope nat_scope.

(* C50: all columns that were written are read back, one line per point. Integers, NaN and infinities are the same, other numbers differ
   by at most one unit of the last decimal place, and not at all if they have no more decimal places. Missing: the letters c and u
   (see C50_refuted), precision 0 (see C49_refuted). *)
Theorem C50_all_columns_are_read_back_partial : forall chunk order format prec d w0 pts b, 0 < chunk -> (forall l, Permutation (order l) l) ->
  ascii_writer_new format = Ok w0 -> only "sxyzirntpRGBedaI" format -> 0 < prec -> float_delimiter d ->
  bf_wf pts -> has_fields (bf_layout pts) format -> (forall p, In p (bf_points pts) -> is_bytes p /\ flags_ok format (bf_layout pts) p) ->
  mb_wf b -> bf_len pts <= mb_len b ->
  exists w r b' r' read, ascii_write chunk (set_precision (set_delimiter w0 d) prec) pts = Ok w /\ length (lines_of (aw_out w)) = bf_len pts
   /\ ascii_reader_new order (aw_out w) format d = Ok r
   /\ ascii_read_into r b (bf_len pts) = Ok (b', r', bf_len pts) /\ mb_layout b' = mb_layout b
   /\ mb_points b' = read ++ skipn (bf_len pts) (mb_points b)
   /\ Forall2 (fun p q => columns_read_back prec format (bf_layout pts) p (mb_layout b) q) (bf_points pts) read.
Proof. exact round_trip_f. Qed.
Print Assumptions C50_all_columns_are_read_back_partial.

(* a point at (1.5, -0.1, 10^22) with time NaN, with two decimal places: 1.5, -0.1 and 10^22 are read back exactly *)
Example C50_floats_apply : only "sxyzirntpRGBedaI" (txt "xyzti") /\ float_delimiter (txt "; ") /\ bf_wf (Of f_points) /\ has_fields f_layout (txt "xyzti")
  /\ (forall p, In p (bf_points (Of f_points)) -> is_bytes p /\ flags_ok (txt "xyzti") f_layout p)
  /\ short_decimal 2 f_minus_tenth
  /\ match ascii_write 2 (set_precision (set_delimiter (a_writer (txt "xyzti")) (txt "; ")) 2) (Of f_points) with
     | Ok w => aw_out w = txt "1.5; -0.1; 10000000000000000000000.0; NaN; 300" ++ [10%Z]
               /\ match ascii_read_into (a_reader (aw_out w) (txt "xyzti") (txt "; ")) (f_empty 1) 1 with
                  | Ok (b, _, 1) => mb_points b = bf_points (Of f_points)
                  | _ => False end
     | _ => False end.
Proof. exact float_example. Qed.
