(* Concrete files of ASCII readers and writers after errors. *)
From Coq Require Import String Ascii List ZArith Bool Arith Lia SpecFloat Permutation.
From Verif Require Import Base LayoutModel LayoutSpec LayoutProofs BufferModel BufferSpec TraitModel TraitSpec NumModel NumSpec BufferProofs TraitProofs2
  AsciiModel AsciiSpec AsciiProofs8 AsciiErrModel AsciiErrSpec.
Import ListNotations.
Open Scope nat_scope.

(* a point that has a return number only *)
Definition r_layout : layout := Eval vm_compute in unwrap_layout (from_attributes [RETURN_NUMBER]).
Definition r_points : mbuf := VecB (mk_vbuf [3%Z] r_layout 1).
Lemma r_good : good_layout r_layout.
Proof.
  apply (grown_good (map (fun a => (a, Default)) [RETURN_NUMBER])).
  - rewrite <- from_attributes_history. vm_compute. reflexivity.
  - discriminate.
  - intros a fa I. cbn [map In] in I. destruct I as [E|[]]; injection E as <- <-; vm_compute; lia.
Qed.
Lemma r_points_wf : bf_wf (Of r_points).
Proof. split; [split; [exact r_good|reflexivity]|exact I] || (split; [exact r_good|reflexivity]). Qed.

(* the write of r_points fails after "3, "; the next write succeeds, and its point is not what a reader reads *)
Lemma garbled : exists chunk order format d w0 b1 w1 b2 w2 r b b' r' p q, 0 < chunk /\ (forall l, Permutation (order l) l)
  /\ ascii_writer_new format = Ok w0 /\ aw_delimiter w0 = d /\ bf_wf b1 /\ bf_wf b2 /\ has_fields (bf_layout b2) format
  /\ ascii_write_e chunk w0 b1 = (w1, Err) /\ ascii_write_e chunk w1 b2 = (w2, Ok tt) /\ bf_points b2 = [p]
  /\ ascii_reader_new order (aw_out w2) format d = Ok r /\ mb_wf b /\ mb_layout b = bf_layout b2 /\ mb_len b = 1
  /\ ascii_read_into r b 1 = Ok (b', r', 1) /\ ar_text r' = [] /\ mb_points b' = [q]
  /\ ~ same_columns format (bf_layout b2) p (mb_layout b') q.
Proof.
  exists 2, id_order, (txt "ri"), (txt ", "), (a_writer (txt "ri")), (Of r_points), (fst (ascii_write_e 2 (a_writer (txt "ri")) (Of r_points))), (Of c_points).
  exists (fst (ascii_write_e 2 (fst (ascii_write_e 2 (a_writer (txt "ri")) (Of r_points))) (Of c_points))).
  exists (a_reader (txt "3, 1, 300" ++ [10%Z]) (txt "ri") (txt ", ")), (a_empty 1), (VecB (mk_vbuf [0; 3; 1; 0; 0; 0]%Z a_layout 1)).
  exists (a_reader [] (txt "ri") (txt ", ")), [2; 1; 44; 1; 1; 0]%Z, [0; 3; 1; 0; 0; 0]%Z.
  split; [lia|]. split; [intros l; apply Permutation_refl|]. split; [vm_compute; reflexivity|]. split; [vm_compute; reflexivity|].
  split; [exact r_points_wf|]. split; [exact c_points_wf|]. split.
  { intros c a o pr flag I M. destruct I as [<-|[<-|[]]]; vm_compute in M; injection M as <- <- <- <-; vm_compute; discriminate. }
  split; [vm_compute; reflexivity|]. split; [vm_compute; reflexivity|]. split; [reflexivity|]. split; [vm_compute; reflexivity|].
  split; [apply a_empty_wf|]. split; [reflexivity|]. split; [reflexivity|]. split; [vm_compute; reflexivity|]. split; [vm_compute; reflexivity|]. split; [reflexivity|].
  intros S. specialize (S 114%Z RETURN_NUMBER 0 PU8 false [3%Z] (or_introl eq_refl) eq_refl eq_refl). vm_compute in S. discriminate S.
Qed.

(* three lines of which the second has a letter instead of a number *)
Definition bad_file : text := txt "3, 1" ++ [10%Z] ++ txt "x, 300" ++ [10%Z] ++ txt "7, 9" ++ [10%Z].
Lemma bad_file_applies : ascii_reader_new id_order bad_file (txt "ri") (txt ", ") = Ok (a_reader bad_file (txt "ri") (txt ", "))
  /\ mb_wf (a_empty 3) /\ nth_error (lines_of bad_file) 1 = Some (txt "x, 300") /\ ~ good_line (txt "ri") (txt ", ") (txt "x, 300")
  /\ Forall (good_line (txt "ri") (txt ", ")) (firstn 1 (lines_of bad_file))
  /\ (let '(b, r, x) := ascii_read_into_e (a_reader bad_file (txt "ri") (txt ", ")) (a_empty 3) 3 in
      (mb_points b, ar_text r, x) = ([[0; 3; 1; 0; 0; 0]%Z; repeat 0%Z 6; repeat 0%Z 6], txt "7, 9" ++ [10%Z], Err)).
Proof.
  split; [vm_compute; reflexivity|]. split; [apply a_empty_wf|]. split; [vm_compute; reflexivity|]. split.
  { intros (_ & G). apply (G 0 114%Z RETURN_NUMBER 0 PU8 false (txt "x")); vm_compute; reflexivity. }
  split; [|vm_compute; reflexivity].
  replace (firstn 1 (lines_of bad_file)) with [txt "3, 1"] by (vm_compute; reflexivity). constructor; [|constructor].
  split; [vm_compute; lia|]. intros k c a o pr flag t K M T.
  destruct k as [|[|k]]; [| |destruct k; discriminate K]; vm_compute in K; injection K as <-; vm_compute in M; injection M as <- <- <- <-; vm_compute in T; injection T as <-; vm_compute; discriminate.
Qed.
