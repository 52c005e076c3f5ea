(* ASCII point files: C47 to C51. Vocabulary in AsciiSpec.v, model in AsciiModel.v. *)
From Coq Require Import String Ascii List ZArith QArith Bool Arith Lia SpecFloat Permutation.
From Verif Require Import Base LayoutModel LayoutSpec BufferModel BufferSpec TraitModel TraitSpec NumModel NumSpec AsciiModel AsciiSpec
  AsciiProofs AsciiProofs2 AsciiProofs4 AsciiProofs5 AsciiProofs6 AsciiProofs7 AsciiProofs8.
Import ListNotations.
Open Scope nat_scope.

(* C47: a reader or writer is created exactly if every character of the format is a known letter. order is the iteration order of a hash set. *)
Theorem C47_reader_created_iff_letters_known : forall order file format d, (forall l, Permutation (order l) l) ->
  ((exists r, ascii_reader_new order file format d = Ok r) <-> Forall known format)
  /\ ascii_reader_new order file format d <> Panic.
Proof.
  intros order file format d O. split; [exact (reader_created order file format d O)|].
  destruct (reader_layout order file format d O) as [(r & -> & _)| ->]; discriminate.
Qed.
Print Assumptions C47_reader_created_iff_letters_known.

Theorem C47_writer_created_iff_letters_known : forall format,
  ((exists w, ascii_writer_new format = Ok w) <-> Forall known format) /\ ascii_writer_new format <> Panic.
Proof.
  intros format. split; [exact (writer_created format)|]. unfold ascii_writer_new. destruct (get_parse_layout format) eqn:E; [discriminate|discriminate|destruct (parse_layout_total _ E)].
Qed.
Print Assumptions C47_writer_created_iff_letters_known.

(* the point layout of a new reader has exactly the attributes that are named in the format, each once *)
Theorem C47_reader_layout_has_named_attributes : forall order file format d, (forall l, Permutation (order l) l) -> Forall known format ->
  exists r, ascii_reader_new order file format d = Ok r
    /\ NoDup (map m_def (l_attrs (ar_layout r)))
    /\ (forall a, In a (map m_def (l_attrs (ar_layout r))) <-> exists c o pr flag, In c format /\ meaning_of c = Some (Field a o pr flag))
    /\ (l_attrs (ar_layout r) <> [] -> good_layout (ar_layout r)).
Proof.
  intros order file format d O K. destruct (reader_layout order file format d O) as [X|X]; [exact X|].
  apply (reader_created order file format d O) in K. destruct K as [r R]. rewrite R in X. discriminate X.
Qed.
Print Assumptions C47_reader_layout_has_named_attributes.

Example C47_accepts : match ascii_reader_new id_order [] (txt "xyzRGBi") (txt ",") with Ok r => length (l_attrs (ar_layout r)) =? 3 | _ => false end = true.
Proof. vm_compute. reflexivity. Qed.
Example C47_rejects : ascii_reader_new id_order [] (txt "xyzQ") (txt ",") = Err /\ ascii_writer_new (txt "xyzQ") = Err.
Proof. split; vm_compute; reflexivity. Qed.

(* C48: every column shows the value of the attribute of its letter. Missing: the letters c and u (see C48_refuted), and floating point
   columns with precision 0 (see C49_refuted). *)
Theorem C48_columns_show_attributes_partial : forall chunk format w b, 0 < chunk -> reachable chunk format w -> bf_wf b ->
  only "sxyzirntpRGBedaI" format -> (aw_precision w = 0 -> only "sirncupRGBedaI" format) -> has_fields (bf_layout b) format ->
  exists w' lines, ascii_write chunk w b = Ok w' /\ aw_out w' = aw_out w ++ concat (map terminated lines)
    /\ aw_delimiter w' = aw_delimiter w /\ aw_precision w' = aw_precision w /\ reachable chunk format w'
    /\ Forall2 (point_line (aw_precision w) (bf_layout b) format (aw_delimiter w)) (bf_points b) lines.
Proof. exact write_ok_lines. Qed.
Print Assumptions C48_columns_show_attributes_partial.

Theorem C48_missing_attribute_is_an_error : forall chunk format w b c a o pr flag, 0 < chunk -> reachable chunk format w -> bf_wf b -> 0 < bf_len b ->
  only "sxyzirntpRGBedaI" format -> In c format -> meaning_of c = Some (Field a o pr flag) -> member_of (bf_layout b) a = None ->
  ascii_write chunk w b = Err.
Proof. exact write_missing. Qed.
Print Assumptions C48_missing_attribute_is_an_error.

(* the columns c and u show the return number *)
Theorem C48_refuted : exists chunk format w b w', 0 < chunk /\ reachable chunk format w /\ bf_wf b /\ has_fields (bf_layout b) format
  /\ ascii_write chunk w b = Ok w'
  /\ ~ exists lines, aw_out w' = aw_out w ++ concat (map terminated lines)
         /\ Forall2 (point_line (aw_precision w) (bf_layout b) format (aw_delimiter w)) (bf_points b) lines.
Proof. exact wrong_column. Qed.
Print Assumptions C48_refuted.

Example C48_applies : exists w, reachable 2 (txt "irse") w /\ bf_wf (Of a_points) /\ has_fields (bf_layout (Of a_points)) (txt "irse")
  /\ a_written w (Of a_points) = txt "300; 1; ; 1" ++ [10%Z] ++ txt "65535; 3; ; 0" ++ [10%Z].
Proof.
  exists (set_delimiter (a_writer (txt "irse")) (txt "; ")). split; [exists (a_writer (txt "irse")), [SetDelimiter (txt "; ")]; split; reflexivity|]. split; [exact a_points_wf|]. split.
  - intros c a o pr flag I M. cbn [txt map In] in I. destruct I as [<-|[<-|[<-|[<-|[]]]]]; vm_compute in M; try discriminate M; injection M as <- <- <- <-; vm_compute; discriminate.
  - vm_compute. reflexivity.
Qed.

(* C49: dropping zeros does not change the number, for precisions above 0; NaN and the infinities are not changed *)
Theorem C49_trimming_keeps_the_number_partial : forall prec x, 0 < prec ->
  (float_Q x <> None -> same_number (trim_zeros (format_fixed prec x)) (format_fixed prec x))
  /\ (float_Q x = None -> trim_zeros (format_fixed prec x) = format_fixed prec x).
Proof. intros prec x P. split; [exact (trim_format prec x P)|exact (trim_special prec x)]. Qed.
Print Assumptions C49_trimming_keeps_the_number_partial.

(* the same for every decimal number with digits after the point *)
Theorem C49_trimming_keeps_decimals : forall neg i f, Forall (fun c => 48 <= c <= 57)%Z i -> i <> [] -> Forall (fun c => 48 <= c <= 57)%Z f -> f <> [] ->
  let t := (if neg : bool then [ch "-"] else []) ++ i ++ ch "." :: f in same_number (trim_zeros t) t.
Proof. exact trim_same. Qed.
Print Assumptions C49_trimming_keeps_decimals.

(* and what is written is within half a unit of the last place of the value *)
Theorem C49_trimmed_number_is_rounded_value : forall prec x, 0 < prec -> shows prec false (NFlt x) (trim_zeros (format_fixed prec x)).
Proof. exact shows_float. Qed.
Print Assumptions C49_trimmed_number_is_rounded_value.

(* with precision 0 the number 100 is written as 1 *)
Theorem C49_refuted : exists prec x, float_Q x <> None /\ ~ same_number (trim_zeros (format_fixed prec x)) (format_fixed prec x).
Proof. exact trimmed_integer. Qed.
Print Assumptions C49_refuted.

Example C49_applies : trim_zeros (format_fixed 5 (S754_finite true 5 (-1))) = txt "-2.5" /\ format_fixed 5 (S754_finite true 5 (-1)) = txt "-2.50000"
  /\ trim_zeros (format_fixed 3 (S754_finite false 100 0)) = txt "100.0".
Proof. repeat split; vm_compute; reflexivity. Qed.

(* C50: integer columns that were written are read back, one line per point. Missing: the letters c and u (see C50_refuted). *)
Theorem C50_written_points_are_read_back_partial : forall chunk order format d w0 pts b, 0 < chunk -> (forall l, Permutation (order l) l) ->
  ascii_writer_new format = Ok w0 -> only "sirnpRGBedaI" format -> good_delimiter d ->
  bf_wf pts -> has_fields (bf_layout pts) format -> (forall p, In p (bf_points pts) -> is_bytes p /\ flags_ok format (bf_layout pts) p) ->
  mb_wf b -> bf_len pts <= mb_len b ->
  exists w r b' r' read, ascii_write chunk (set_delimiter w0 d) pts = Ok w /\ length (lines_of (aw_out w)) = bf_len pts
   /\ ascii_reader_new order (aw_out w) format d = Ok r
   /\ ascii_read_into r b (bf_len pts) = Ok (b', r', bf_len pts) /\ mb_layout b' = mb_layout b
   /\ mb_points b' = read ++ skipn (bf_len pts) (mb_points b)
   /\ Forall2 (fun p q => same_columns format (bf_layout pts) p (mb_layout b) q) (bf_points pts) read.
Proof. exact round_trip. Qed.
Print Assumptions C50_written_points_are_read_back_partial.

(* a classification of 2 is read back as 1 *)
Theorem C50_refuted : exists chunk order format d w0 pts w r b b' r' n, 0 < chunk /\ (forall l, Permutation (order l) l)
  /\ ascii_writer_new format = Ok w0 /\ good_delimiter d /\ bf_wf pts /\ has_fields (bf_layout pts) format
  /\ ascii_write chunk (set_delimiter w0 d) pts = Ok w /\ ascii_reader_new order (aw_out w) format d = Ok r
  /\ mb_wf b /\ ascii_read_into r b (bf_len pts) = Ok (b', r', n)
  /\ ~ Forall2 (fun p q => same_columns format (bf_layout pts) p (mb_layout b) q) (bf_points pts) (mb_points b').
Proof. exact classification_lost. Qed.
Print Assumptions C50_refuted.

Example C50_applies : only "sirnpRGBedaI" (txt "irse") /\ good_delimiter (txt "; ") /\ (forall p, In p (bf_points (Of a_points)) -> is_bytes p /\ flags_ok (txt "irse") a_layout p)
  /\ match ascii_write 2 (set_delimiter (a_writer (txt "irse")) (txt "; ")) (Of a_points) with
     | Ok w => match ascii_read_into (a_reader (aw_out w) (txt "irse") (txt "; ")) (a_empty 2) 2 with
               | Ok (b, _, 2) => if list_eq_dec (list_eq_dec Z.eq_dec) (mb_points b) [[0; 1; 44; 1; 1; 0]; [0; 3; 255; 255; 0; 0]]%Z then true else false
               | _ => false end
     | _ => false end = true.
Proof.
  split; [|split; [|split]].
  - intros c I. cbn [txt map In] in I. destruct I as [<-|[<-|[<-|[<-|[]]]]]; vm_compute; tauto.
  - split; [|split; vm_compute; intuition discriminate]. exists (ch ";"). split; [left; reflexivity|]. vm_compute. intuition discriminate.
  - intros p I. change (bf_points (Of a_points)) with [[2; 1; 44; 1; 1; 0]; [7; 3; 255; 255; 0; 0]]%Z in I.
    destruct I as [<-|[<-|[]]]; (split; [apply Forall_forall; intros x X; cbn [In] in X; lia|]); intros c a o pr bs I M FB; cbn [txt map In] in I; destruct I as [<-|[<-|[<-|[<-|[]]]]]; vm_compute in M; try discriminate M;
      injection M as <- <- <-; vm_compute in FB; injection FB as <-; tauto.
  - vm_compute. reflexivity.
Qed.

(* C51: the next lines of the file become the first points of the buffer; a malformed line is an error. Missing: the number returned if there
   are fewer lines than asked for (see C51_refuted). *)
Theorem C51_lines_become_points_partial : forall order file format d r b count, ascii_reader_new order file format d = Ok r -> mb_wf b ->
  length (firstn count (lines_of file)) <= mb_len b ->
  (Forall (good_line format d) (firstn count (lines_of file)) ->
   exists b' r' rest ps n, ascii_read_into r b count = Ok (b', r', n)
     /\ (count <= length (lines_of file) -> n = length ps)
     /\ ascii_reader_new order rest format d = Ok r' /\ lines_of rest = skipn count (lines_of file)
     /\ mb_wf b' /\ mb_layout b' = mb_layout b
     /\ mb_points b' = ps ++ skipn (length ps) (mb_points b)
     /\ Forall2 (line_point (mb_layout b) format d) (firstn count (lines_of file)) ps)
  /\ (~ Forall (good_line format d) (firstn count (lines_of file)) -> ascii_read_into r b count = Err).
Proof.
  intros order file format d r b count R W LE. split; [|exact (read_into_bad order file format d r b count R W LE)].
  intros GL. destruct (read_into_ok order file format d r b count R W LE GL) as (b' & r' & rest & ps & E & RN & RL & W' & L' & P & LP).
  exists b', r', rest, ps, count. split; [exact E|]. split; [|auto 6]. intros C. pose proof (Forall2_len _ _ _ LP) as Q. rewrite firstn_length in Q. lia.
Qed.
Print Assumptions C51_lines_become_points_partial.

(* three points are reported for a file of one line *)
Theorem C51_refuted : exists order file format d r b count b' r' n, (forall l, Permutation (order l) l)
  /\ ascii_reader_new order file format d = Ok r /\ mb_wf b /\ count <= mb_len b /\ Forall (good_line format d) (lines_of file)
  /\ ascii_read_into r b count = Ok (b', r', n) /\ n <> Nat.min count (length (lines_of file)).
Proof. exact short_file. Qed.
Print Assumptions C51_refuted.

Example C51_applies : match ascii_read_into (a_reader (txt "7,9,+4" ++ [13; 10]%Z ++ txt "8,1,65535,extra" ++ [10%Z] ++ txt "x") (txt "sri") (txt ",")) (a_empty 2) 2 with
                      | Ok (b, r, 2) => (if list_eq_dec (list_eq_dec Z.eq_dec) (mb_points b) [[0; 9; 4; 0; 0; 0]; [0; 1; 255; 255; 0; 0]]%Z then true else false) && text_eqb (ar_text r) (txt "x")
                      | _ => false end = true
  /\ ascii_read_into (a_reader (txt "7,9") (txt "sri") (txt ",")) (a_empty 2) 1 = Err
  /\ ascii_read_into (a_reader (txt "7,9,65536") (txt "sri") (txt ",")) (a_empty 2) 1 = Err.
Proof. repeat split; vm_compute; reflexivity. Qed.
