(* Concrete files: cases that meet the hypotheses of the theorems, and counterexamples. *)
From Coq Require Import String Ascii List ZArith QArith Bool Arith Lia SpecFloat Permutation.
From Verif Require Import Base LayoutModel LayoutSpec LayoutProofs BufferModel BufferSpec TraitModel TraitSpec NumModel NumSpec
  BufferProofs TraitProofs2 AsciiModel AsciiSpec AsciiProofs AsciiProofs4 AsciiProofs5 AsciiProofs6 AsciiProofs7.
Import ListNotations.
Open Scope nat_scope.

Definition unwrap_layout (x : res layout) : layout := match x with Ok l => l | _ => layout_default end.
(* classification, return number, intensity and position *)
Definition a_layout : layout := Eval vm_compute in unwrap_layout (from_attributes [CLASSIFICATION; RETURN_NUMBER; INTENSITY; EDGE_OF_FLIGHT_LINE]).
Definition a_points : mbuf := VecB (mk_vbuf ([2; 1; 44; 1; 1; 0] ++ [7; 3; 255; 255; 0; 0])%Z a_layout 2).
Definition a_empty (n : nat) : mbuf := VecB (mk_vbuf (repeat 0%Z (n * l_size a_layout)) a_layout n).

Lemma a_good : good_layout a_layout.
Proof.
  apply (grown_good (map (fun a => (a, Default)) [CLASSIFICATION; RETURN_NUMBER; INTENSITY; EDGE_OF_FLIGHT_LINE])).
  - rewrite <- from_attributes_history. vm_compute. reflexivity.
  - discriminate.
  - intros a fa I. cbn [map In] in I. destruct I as [E|[E|[E|[E|[]]]]]; injection E as <- <-; vm_compute; lia.
Qed.
Lemma a_points_wf : bf_wf (Of a_points).
Proof. split; [split; [exact a_good|reflexivity]|exact I] || (split; [exact a_good|reflexivity]). Qed.
Lemma a_empty_wf n : mb_wf (a_empty n).
Proof. split; [exact a_good|]. cbn [vb_storage vb_len vb_layout]. apply repeat_length. Qed.

Definition a_writer (format : text) : ascii_writer := match ascii_writer_new format with Ok w => w | _ => mk_awriter [] [] 0 [] end.
Definition a_written (w : ascii_writer) (b : buffer) : text := match ascii_write 2 w b with Ok w => aw_out w | _ => [] end.

(* a file of one point with classification 2 and return number 1, written with format "c", holds the line "1" *)
Definition c_points : mbuf := VecB (mk_vbuf [2; 1; 44; 1; 1; 0]%Z a_layout 1).
Lemma c_points_wf : bf_wf (Of c_points).
Proof. split; [split; [exact a_good|reflexivity]|exact I] || (split; [exact a_good|reflexivity]). Qed.
Lemma wrong_column : exists chunk format w b w', 0 < chunk /\ reachable chunk format w /\ bf_wf b /\ has_fields (bf_layout b) format
  /\ ascii_write chunk w b = Ok w'
  /\ ~ exists lines, aw_out w' = aw_out w ++ concat (map terminated lines) /\ Forall2 (point_line (aw_precision w) (bf_layout b) format (aw_delimiter w)) (bf_points b) lines.
Proof.
  exists 2, (txt "c"), (a_writer (txt "c")), (Of c_points), (mk_awriter (txt "1" ++ [10%Z]) (txt ", ") 5 [Classification]).
  split; [lia|]. split; [exists (a_writer (txt "c")), []; split; reflexivity|]. split; [exact c_points_wf|]. split.
  { intros c a o pr flag I M. destruct I as [<-|[]]. vm_compute in M. injection M as <- <- <- <-. vm_compute. discriminate. }
  split; [vm_compute; reflexivity|]. intros (lines & E & F). change (aw_out (a_writer (txt "c"))) with (@nil Z) in E. cbn [app aw_out] in E.
  change (bf_points (Of c_points)) with [[2; 1; 44; 1; 1; 0]%Z] in F. inversion F as [|? line ? ? P F']; subst. inversion F'; subst. cbn [map concat] in E. rewrite app_nil_r in E. unfold terminated in E.
  apply app_inj_tail in E. destruct E as [<- _]. destruct P as (ts & J & C). inversion C as [|? t ? ? S C']; subst. inversion C'; subst. cbn [join] in J. subst t.
  unfold column_shows in S. change (meaning_of 99) with (Some (Field CLASSIFICATION 0 PU8 false)) in S. cbv iota in S. destruct S as (bs & B & S). vm_compute in B. injection B as <-.
  change (dec_num PU8 [2%Z]) with (NInt 2) in S. cbn [shows] in S. destruct S as (ds & E & D & _). change (2 <? 0)%Z with false in E. cbn [app] in E. subst ds. vm_compute in D. discriminate D.
Qed.

Lemma trimmed_integer : exists prec x, float_Q x <> None /\ ~ same_number (trim_zeros (format_fixed prec x)) (format_fixed prec x).
Proof.
  exists 0, (S754_finite false 100 0). split; [discriminate|]. intros (q & q' & E & E' & Q).
  assert (X : trim_zeros (format_fixed 0 (S754_finite false 100 0)) = txt "1") by (vm_compute; reflexivity). rewrite X in E.
  assert (X' : format_fixed 0 (S754_finite false 100 0) = txt "100") by (vm_compute; reflexivity). rewrite X' in E'.
  vm_compute in E, E'. injection E as <-. injection E' as <-. vm_compute in Q. discriminate Q.
Qed.

Definition id_order (l : list attr_def) : list attr_def := l.
Definition a_reader (file format d : text) : ascii_reader := match ascii_reader_new id_order file format d with Ok r => r | _ => mk_areader [] [] layout_default [] end.
Lemma short_file : exists order file format d r b count b' r' n, (forall l, Permutation (order l) l)
  /\ ascii_reader_new order file format d = Ok r /\ mb_wf b /\ count <= mb_len b /\ Forall (good_line format d) (lines_of file)
  /\ ascii_read_into r b count = Ok (b', r', n) /\ n <> Nat.min count (length (lines_of file)).
Proof.
  exists id_order, (txt "5" ++ [10%Z]), (txt "i"), (txt ","), (a_reader (txt "5" ++ [10%Z]) (txt "i") (txt ",")), (a_empty 3), 3,
    (VecB (mk_vbuf (([0; 0; 5; 0; 0; 0] ++ repeat 0 12)%Z) a_layout 3)), (a_reader [] (txt "i") (txt ",")), 3.
  split; [intros l; apply Permutation_refl|]. split; [vm_compute; reflexivity|]. split; [apply a_empty_wf|]. split; [cbn; lia|]. split.
  - change (lines_of (txt "5" ++ [10%Z])) with [txt "5"]. constructor; [|constructor]. split; [vm_compute; lia|].
    intros [|[|k]] c a o pr flag t E M T; try discriminate E. vm_compute in E. injection E as <-. vm_compute in M. injection M as <- <- <- <-. vm_compute in T. injection T as <-. vm_compute. discriminate.
  - split; [vm_compute; reflexivity|]. vm_compute. discriminate.
Qed.
Lemma classification_lost : exists chunk order format d w0 pts w r b b' r' n, 0 < chunk /\ (forall l, Permutation (order l) l)
  /\ ascii_writer_new format = Ok w0 /\ good_delimiter d /\ bf_wf pts /\ has_fields (bf_layout pts) format
  /\ ascii_write chunk (set_delimiter w0 d) pts = Ok w /\ ascii_reader_new order (aw_out w) format d = Ok r
  /\ mb_wf b /\ ascii_read_into r b (bf_len pts) = Ok (b', r', n)
  /\ ~ Forall2 (fun p q => same_columns format (bf_layout pts) p (mb_layout b) q) (bf_points pts) (mb_points b').
Proof.
  exists 2, id_order, (txt "c"), (txt ","), (a_writer (txt "c")), (Of c_points), (mk_awriter (txt "1" ++ [10%Z]) (txt ",") 5 [Classification]),
    (a_reader (txt "1" ++ [10%Z]) (txt "c") (txt ",")), (a_empty 1), (VecB (mk_vbuf [1; 0; 0; 0; 0; 0]%Z a_layout 1)), (a_reader [] (txt "c") (txt ",")), 1.
  split; [lia|]. split; [intros l; apply Permutation_refl|]. split; [reflexivity|]. split.
  { split; [|split; vm_compute; intuition discriminate]. exists (ch ","). split; [left; reflexivity|]. vm_compute. intuition discriminate. }
  split; [exact c_points_wf|]. split.
  { intros c a o pr flag I M. destruct I as [<-|[]]. vm_compute in M. injection M as <- <- <- <-. vm_compute. discriminate. }
  split; [vm_compute; reflexivity|]. split; [vm_compute; reflexivity|]. split; [apply a_empty_wf|]. split; [vm_compute; reflexivity|].
  intros F. inversion F as [|? ? ? ? S _]; subst. specialize (S 99%Z CLASSIFICATION 0 PU8 false [1%Z] (or_introl eq_refl) eq_refl eq_refl). vm_compute in S. discriminate S.
Qed.
