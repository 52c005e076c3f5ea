(* Consequences for readers of the files. *)
From Coq Require Import String List ZArith Lia Bool Arith.
From Verif Require Import Base LasModel LasIoModel ListLemmas LasFileModel LasFileSpec LasFileProofs.
Import ListNotations.
Open Scope nat_scope.

Lemma skipn_front {A} (a b : list A) : skipn (length a) (a ++ b) = b.
Proof. rewrite skipn_app, skipn_all, Nat.sub_diag. reflexivity. Qed.
Lemma opened_small cr hd ops w : file_of cr false hd ops = Ok w -> Forall small_vlr (hd_vlrs hd).
Proof.
  unfold file_of, open_file, open_las. destruct (existsb has_large_data (hd_vlrs hd)) eqn:L; cbn [negb assert bind]; [discriminate|]. intros _.
  revert L. induction (hd_vlrs hd) as [|v vs IH]; intros L; constructor.
  - apply orb_false_iff in L. destruct L as (L & _). unfold has_large_data in L. unfold small_vlr. apply Z.ltb_ge in L. exact L.
  - apply IH. apply orb_false_iff in L. tauto.
Qed.
Lemma points_at_offset cr hd ops w : headers_fit cr -> hd_padding hd = [] -> file_of cr false hd ops = Ok w ->
  lies_at (snd (written ops)) (rh_offset (fw_raw w)) (fw_stream w).
Proof.
  intros F NP O. destruct (las_file cr F hd ops (opened_small _ _ _ _ O) NP) as (w' & O' & S & _ & _ & P & _). rewrite O in O'. injection O' as <-.
  unfold lies_at. rewrite P, S, app_assoc, skipn_front, firstn_app, firstn_all, Nat.sub_diag. cbn [firstn]. apply app_nil_r.
Qed.
Lemma open_no_padding cr hd w ops : headers_fit cr -> file_of cr false hd ops = Ok w -> hd_padding hd = [].
Proof.
  intros F O. destruct (hd_padding hd) eqn:E; [reflexivity|]. unfold file_of, open_file in O. rewrite open_padding_panics in O; [discriminate|exact F|congruence].
Qed.
Lemma padding_panics cr hd ops : headers_fit cr -> hd_padding hd <> [] -> file_of cr false hd ops = Panic.
Proof. intros F N. unfold file_of, open_file. now rewrite open_padding_panics. Qed.
Lemma inv_raw cr hd w n D : inv cr hd w n D -> fw_raw w = mk_raw_head (rh_vlrs (into_raw cr hd)) (rh_offset (into_raw cr hd)) (rh_evlr (into_raw cr hd)) n.
Proof. intros (H & T & _ & _ & _ & R & _). exact R. Qed.
Lemma flushes_do_not_matter cr hd ops ops' w : headers_fit cr -> written ops = written ops' -> file_of cr false hd ops = Ok w ->
  exists w', file_of cr false hd ops' = Ok w' /\ fw_stream w' = fw_stream w.
Proof.
  intros F W O. pose proof (opened_small _ _ _ _ O) as SV. pose proof (open_no_padding _ _ _ _ F O) as NP.
  destruct (las_file cr F hd ops SV NP) as (w1 & O1 & S1 & A1 & A2 & A3 & A4). rewrite O in O1. injection O1 as <-.
  destruct (las_file cr F hd ops' SV NP) as (w' & O' & S' & B1 & B2 & B3 & B4). exists w'. split; [exact O'|].
  rewrite S1, S', W. f_equal. f_equal. rewrite app_length, F in A3, B3.
  destruct (fw_raw w) as [a1 a2 a3 a4], (fw_raw w') as [b1 b2 b3 b4]. cbn in A1, A2, A3, A4, B1, B2, B3, B4. subst. rewrite W. reflexivity.
Qed.
Lemma laz_points_after_padding cr hd ops : headers_fit cr -> ~ In FFlush ops ->
  exists w, file_of cr true hd ops = Ok w
    /\ skipn (rh_offset (fw_raw w)) (fw_stream w) = hd_padding hd ++ snd (written ops) ++ cr_done cr ++ evlrs_bytes cr (hd_evlrs hd).
Proof.
  intros F N. destruct (laz_file cr F hd ops N) as (w & O & S & _ & _ & P & _). exists w. split; [exact O|]. rewrite P, S, (app_assoc (cr_header _ _)). apply skipn_front.
Qed.
