(* Proofs about the structure of LAS and LAZ files. *)
From Coq Require Import String List ZArith Lia Bool Arith.
From Verif Require Import Base LasModel LasIoModel ListLemmas LasFileModel LasFileSpec.
Import ListNotations.
Open Scope nat_scope.

Lemma put_in A B bytes : put (A ++ B) (length A) bytes = A ++ bytes ++ skipn (length bytes) B.
Proof.
  unfold put. rewrite firstn_app, Nat.sub_diag, firstn_all. cbn [firstn]. rewrite app_nil_r. f_equal. f_equal.
  rewrite skipn_app. replace (length A + length bytes - length A) with (length bytes) by lia.
  rewrite (skipn_all2 A) by lia. reflexivity.
Qed.
Lemma put_head H rest bytes : length bytes = length H -> put (H ++ rest) 0 bytes = bytes ++ rest.
Proof.
  intros L. unfold put. cbn [firstn app Nat.add]. f_equal. rewrite L, skipn_app, skipn_all2, Nat.sub_diag by lia. reflexivity.
Qed.

(* a writer whose stream is A before the position and B behind it *)
Definition split_at (w : file_writer) (A B : list Z) : Prop := fw_stream w = A ++ B /\ fw_position w = length A.
Lemma emit_split w A B bytes : split_at w A B -> split_at (emit w bytes) (A ++ bytes) (skipn (length bytes) B).
Proof.
  intros (S & P). split; cbn [emit fw_stream fw_position].
  - rewrite S, P, put_in, app_assoc. reflexivity.
  - rewrite P, app_length. reflexivity.
Qed.
Lemma emit_raw w bytes : fw_raw (emit w bytes) = fw_raw w /\ fw_evlrs (emit w bytes) = fw_evlrs w /\ fw_requires_flush (emit w bytes) = fw_requires_flush w.
Proof. auto. Qed.
Lemma emit_all g (vs : list vlr) : forall w A B, split_at w A B ->
  split_at (fold_left (fun w v => emit w (g v)) vs w) (A ++ concat (map g vs)) (skipn (length (concat (map g vs))) B)
  /\ fw_raw (fold_left (fun w v => emit w (g v)) vs w) = fw_raw w /\ fw_evlrs (fold_left (fun w v => emit w (g v)) vs w) = fw_evlrs w
  /\ fw_requires_flush (fold_left (fun w v => emit w (g v)) vs w) = fw_requires_flush w.
Proof.
  induction vs as [|v vs IH]; intros w A B S; cbn [fold_left map concat].
  - cbn [length skipn]. rewrite app_nil_r. auto.
  - destruct (IH _ _ _ (emit_split w A B (g v) S)) as (I1 & I2 & I3 & I4).
    rewrite app_length. rewrite ListLemmas.skipn_skipn in I1. rewrite <- app_assoc in I1.
    replace (length (g v) + length (concat (map g vs))) with (length (concat (map g vs)) + length (g v)) by lia. auto.
Qed.

Section Las.
Variable cr : crates.
Hypothesis fit : headers_fit cr.
Variable hd : head.
Let V := vlrs_bytes cr (hd_vlrs hd).
Let E := evlrs_bytes cr (hd_evlrs hd).

(* D: the bytes of the points so far, n: their number *)
Definition inv (w : file_writer) (n : nat) (D : list Z) : Prop :=
  exists H T, length H = cr_header_size cr /\ split_at w (H ++ V ++ D) T /\ length T <= length E
    /\ fw_raw w = mk_raw_head (rh_vlrs (into_raw cr hd)) (rh_offset (into_raw cr hd)) (rh_evlr (into_raw cr hd)) n
    /\ fw_evlrs w = hd_evlrs hd
    /\ (fw_requires_flush w = false -> H = cr_header cr (fw_raw w) /\ T = E).

Lemma inv_write w n D k bytes : inv w n D -> inv (file_write w k bytes) (if Nat.eqb k 0 then n else n + k) (if Nat.eqb k 0 then D else D ++ bytes).
Proof.
  intros (H & T & LH & S & LT & R & EV & F). unfold file_write. destruct (Nat.eqb k 0); [now exists H, T|].
  pose proof (emit_split w _ _ bytes S) as S'. exists H, (skipn (length bytes) T). split; [exact LH|].
  split; [destruct S' as (S1 & S2); split; [cbn [fw_stream] in *; rewrite S1, <- !app_assoc; reflexivity|cbn [fw_position] in *; rewrite S2, <- !app_assoc; reflexivity]|].
  split; [rewrite skipn_length; lia|]. cbn [fw_raw emit fw_evlrs fw_requires_flush]. rewrite R. cbn [rh_vlrs rh_offset rh_evlr rh_points].
  split; [reflexivity|]. split; [exact EV|]. discriminate.
Qed.
Lemma inv_flush w n D : inv w n D -> inv (flush_las cr w) n D /\ fw_stream (flush_las cr w) = cr_header cr (fw_raw (flush_las cr w)) ++ V ++ D ++ E.
Proof.
  intros (H & T & LH & (S & P) & LT & R & EV & F). unfold flush_las. destruct (fw_requires_flush w) eqn:RF; cbn [negb].
  - set (w1 := write_header cr w).
    assert (S1 : split_at w1 (cr_header cr (fw_raw w) ++ V ++ D) T).
    { split; cbn [w1 write_header seek_to emit fw_stream fw_position].
      - rewrite S, <- !app_assoc. rewrite put_head by (rewrite fit; lia). reflexivity.
      - rewrite P, !app_length, fit, LH. reflexivity. }
    destruct (emit_all (cr_evlr cr) (fw_evlrs w1) w1 _ _ S1) as ((S2 & P2) & R2 & E2 & F2).
    assert (EW : fw_evlrs w1 = hd_evlrs hd) by exact EV. rewrite EW in S2.
    fold (evlrs_bytes cr (hd_evlrs hd)) in S2. fold E in S2. rewrite (skipn_all2 T) in S2 by lia. rewrite app_nil_r in S2.
    assert (X : fw_stream (write_evlrs cr w1) = cr_header cr (fw_raw w) ++ V ++ D ++ E).
    { unfold write_evlrs. rewrite EW, S2, <- !app_assoc. reflexivity. }
    split; [|cbn [seek_to fw_stream fw_raw]; rewrite X; unfold write_evlrs; rewrite R2; reflexivity].
    exists (cr_header cr (fw_raw w)), E. split; [apply fit|].
    split; [split; cbn [seek_to fw_stream fw_position]; [rewrite X, <- !app_assoc; reflexivity|rewrite P, !app_length, fit, LH; reflexivity]|].
    split; [lia|]. cbn [seek_to fw_raw fw_evlrs fw_requires_flush]. unfold write_evlrs. rewrite R2, E2.
    split; [exact R|]. split; [exact EV|]. intros _. split; reflexivity.
  - destruct (F eq_refl) as (-> & ->). split.
    + exists (cr_header cr (fw_raw w)), E. repeat split; auto.
    + rewrite S, <- !app_assoc. reflexivity.
Qed.
Lemma inv_ops ops : forall w n D, inv w n D -> inv (fold_left (file_step cr false) ops w) (n + fst (written ops)) (D ++ snd (written ops)).
Proof.
  induction ops as [|o ops IH]; intros w n D I; cbn [fold_left written].
  - cbn [fst snd]. rewrite Nat.add_0_r, app_nil_r. exact I.
  - destruct o as [k bytes|]; cbn [file_step].
    + pose proof (IH _ _ _ (inv_write w n D k bytes I)) as J. destruct (Nat.eqb k 0); [exact J|]. cbn [fst snd].
      rewrite Nat.add_assoc, app_assoc. exact J.
    + apply IH. now apply inv_flush.
Qed.
Lemma open_inv w : open_las cr hd = Ok w -> inv w 0 [].
Proof.
  unfold open_las. intros O. destruct (existsb has_large_data (hd_vlrs hd)); cbn [negb assert bind] in O; [discriminate|].
  set (w0 := mk_fw [] 0 (into_raw cr hd) (hd_evlrs hd) true) in *.
  assert (S0 : split_at w0 [] []) by (split; reflexivity). pose proof (emit_split _ _ _ (cr_header cr (into_raw cr hd)) S0) as S1.
  destruct (emit_all (cr_vlr cr) (hd_vlrs hd) _ _ _ S1) as (S2 & R2 & E2 & F2). cbn [app] in S2. rewrite !skipn_nil in S2.
  destruct (Nat.eqb _ _) in O; cbn [assert bind] in O; [|discriminate]. injection O as <-.
  exists (cr_header cr (into_raw cr hd)), []. split; [apply fit|]. rewrite app_nil_r. split; [exact S2|]. split; [cbn; lia|].
  rewrite R2, E2, F2. split; [reflexivity|]. split; [reflexivity|]. discriminate.
Qed.
Lemma large_small : Forall small_vlr (hd_vlrs hd) -> existsb has_large_data (hd_vlrs hd) = false.
Proof.
  induction 1 as [|v vs L _ IH]; [reflexivity|]. cbn [existsb]. rewrite IH, orb_false_r. unfold has_large_data, small_vlr in *.
  destruct (Z.ltb_spec 65535 (Z.of_nat (length (v_data v)))); [lia|reflexivity].
Qed.
Lemma open_ok : Forall small_vlr (hd_vlrs hd) -> hd_padding hd = [] -> exists w, open_las cr hd = Ok w.
Proof.
  intros SV NP. unfold open_las. rewrite (large_small SV). cbn [negb assert bind].
  set (w0 := mk_fw [] 0 (into_raw cr hd) (hd_evlrs hd) true).
  assert (S0 : split_at w0 [] []) by (split; reflexivity). pose proof (emit_split _ _ _ (cr_header cr (into_raw cr hd)) S0) as S1.
  destruct (emit_all (cr_vlr cr) (hd_vlrs hd) _ _ _ S1) as ((_ & P2) & _).
  rewrite P2. cbn [app]. rewrite app_length, fit. unfold into_raw at 1. cbn [rh_offset]. rewrite NP. cbn [length]. rewrite Nat.add_0_r.
  fold (vlrs_bytes cr (hd_vlrs hd)). rewrite Nat.eqb_refl. cbn [assert bind]. eauto.
Qed.
Lemma open_padding_panics : hd_padding hd <> [] -> open_las cr hd = Panic.
Proof.
  intros NP. unfold open_las. destruct (existsb has_large_data (hd_vlrs hd)); cbn [negb assert bind]; [reflexivity|].
  set (w0 := mk_fw [] 0 (into_raw cr hd) (hd_evlrs hd) true).
  assert (S0 : split_at w0 [] []) by (split; reflexivity). pose proof (emit_split _ _ _ (cr_header cr (into_raw cr hd)) S0) as S1.
  destruct (emit_all (cr_vlr cr) (hd_vlrs hd) _ _ _ S1) as ((_ & P2) & _).
  rewrite P2. cbn [app]. rewrite app_length, fit. unfold into_raw at 1. cbn [rh_offset]. fold (vlrs_bytes cr (hd_vlrs hd)).
  destruct (hd_padding hd); [congruence|]. cbn [length]. match goal with |- context [Nat.eqb ?a ?b] => destruct (Nat.eqb_spec a b); [lia|] end. reflexivity.
Qed.
Lemma las_file ops : Forall small_vlr (hd_vlrs hd) -> hd_padding hd = [] ->
  exists w, file_of cr false hd ops = Ok w
    /\ fw_stream w = cr_header cr (fw_raw w) ++ vlrs_bytes cr (hd_vlrs hd) ++ snd (written ops) ++ evlrs_bytes cr (hd_evlrs hd)
    /\ rh_vlrs (fw_raw w) = length (hd_vlrs hd) /\ rh_points (fw_raw w) = fst (written ops)
    /\ rh_offset (fw_raw w) = length (cr_header cr (fw_raw w) ++ vlrs_bytes cr (hd_vlrs hd))
    /\ rh_evlr (fw_raw w) = match hd_evlrs hd with [] => None | vs => Some (cr_first_evlr cr hd, length vs) end.
Proof.
  intros SV NP. destruct (open_ok SV NP) as (w0 & O). unfold file_of, open_file. rewrite O. cbn [bind file_step].
  pose proof (inv_ops ops _ _ _ (open_inv _ O)) as I. cbn [Nat.add app] in I. destruct (inv_flush _ _ _ I) as ((H & T & _ & _ & _ & R & _) & S).
  eexists. split; [reflexivity|]. split; [exact S|]. rewrite R. cbn [rh_vlrs rh_points rh_offset rh_evlr into_raw]. rewrite app_length, fit, NP. cbn [length].
  repeat split; auto.
Qed.
Lemma flush_again w n D : inv w n D -> flush_las cr (flush_las cr w) = flush_las cr w.
Proof.
  intros I. unfold flush_las at 1. replace (fw_requires_flush (flush_las cr w)) with false; [reflexivity|].
  unfold flush_las. destruct (fw_requires_flush w) eqn:F; cbn [negb]; [reflexivity|now rewrite F].
Qed.
End Las.

Lemma file_flush_once cr hd ops w : headers_fit cr -> file_of cr false hd (ops ++ [FFlush]) = Ok w -> file_of cr false hd ops = Ok w.
Proof.
  intros F. unfold file_of, open_file. destruct (open_las cr hd) as [w0| |] eqn:O; cbn [bind]; try discriminate. rewrite fold_left_app. cbn [fold_left file_step].
  rewrite (flush_again cr hd _ _ _ (inv_ops cr F hd ops _ _ _ (open_inv cr F hd _ O))). auto.
Qed.

(* ---- the start of the extended VLRs ---- *)
Definition one_evlr : vlr := mk_vlr EmptyString 0 [].
Lemma evlr_start_wrong cr : headers_fit cr -> exists hd ops w start n, file_of cr false hd ops = Ok w
  /\ rh_evlr (fw_raw w) = Some (start, n) /\ start <> rh_offset (fw_raw w) + length (snd (written ops)).
Proof.
  intros F. pose (hd := mk_head [] [] [one_evlr]).
  destruct (las_file cr F hd [] (Forall_nil _) eq_refl) as (w0 & O0 & _ & _ & _ & P0 & E0).
  destruct (las_file cr F hd [FWrite 1 [0%Z]] (Forall_nil _) eq_refl) as (w1 & O1 & _ & _ & _ & P1 & E1).
  rewrite app_length, F in P0, P1.
  destruct (Nat.eq_dec (cr_first_evlr cr hd) (rh_offset (fw_raw w0))) as [X|X].
  - exists hd, [FWrite 1 [0%Z]], w1. eexists. eexists. split; [exact O1|]. split; [exact E1|]. cbn [written Nat.eqb snd app length]. lia.
  - exists hd, [], w0. eexists. eexists. split; [exact O0|]. split; [exact E0|]. cbn [written snd length]. lia.
Qed.

(* ---- LAZ ---- *)
Lemma laz_vlrs_lost cr padding evlrs vs1 vs2 ops :
  file_of cr true (mk_head vs1 padding evlrs) ops = file_of cr true (mk_head vs2 padding evlrs) ops.
Proof. reflexivity. Qed.

Section Laz.
Variable cr : crates.
Hypothesis fit : headers_fit cr.
Variable hd : head.
Let L := cr_vlr cr (cr_laszip cr).
Definition inv_laz (w : file_writer) (n : nat) (D : list Z) : Prop :=
  exists H, length H = cr_header_size cr /\ split_at w (H ++ L ++ hd_padding hd ++ D) []
    /\ fw_raw w = mk_raw_head 1 (cr_header_size cr + length L) None n /\ fw_evlrs w = hd_evlrs hd.
Lemma laz_open : exists w, open_laz cr hd = Ok w /\ inv_laz w 0 [].
Proof.
  unfold open_laz. eexists. split; [reflexivity|]. set (raw := into_raw cr (mk_head [cr_laszip cr] [] [])).
  set (w0 := mk_fw [] 0 raw (hd_evlrs hd) false). assert (S0 : split_at w0 [] []) by (split; reflexivity).
  pose proof (emit_split _ _ _ (cr_header cr raw) S0) as S1. cbn [hd_vlrs fold_left].
  pose proof (emit_split _ _ _ L S1) as S2. pose proof (emit_split _ _ _ (hd_padding hd) S2) as S3. rewrite !skipn_nil in S3. cbn [app] in S3.
  exists (cr_header cr raw). split; [apply fit|]. split; [rewrite app_nil_r; rewrite <- !app_assoc in S3; exact S3|]. split; [|reflexivity].
  cbn [emit fw_raw w0]. unfold raw, into_raw. cbn [hd_vlrs hd_padding hd_evlrs length vlrs_bytes map concat]. unfold vlrs_bytes. cbn [map concat].
  rewrite app_nil_r, Nat.add_0_r. reflexivity.
Qed.
Lemma laz_write w n D k bytes : inv_laz w n D -> inv_laz (file_write w k bytes) (if Nat.eqb k 0 then n else n + k) (if Nat.eqb k 0 then D else D ++ bytes).
Proof.
  intros (H & LH & S & R & EV). unfold file_write. destruct (Nat.eqb k 0); [now exists H|].
  pose proof (emit_split w _ _ bytes S) as S'. rewrite skipn_nil in S'. exists H. split; [exact LH|].
  split; [destruct S' as (S1 & S2); split; [cbn [fw_stream] in *; rewrite S1, <- !app_assoc; reflexivity|cbn [fw_position] in *; rewrite S2, <- !app_assoc; reflexivity]|].
  cbn [fw_raw emit fw_evlrs]. rewrite R. split; [reflexivity|exact EV].
Qed.
Lemma laz_flush w n D : inv_laz w n D -> inv_laz (flush_laz cr w) n (D ++ cr_done cr ++ evlrs_bytes cr (hd_evlrs hd))
  /\ fw_stream (flush_laz cr w) = cr_header cr (fw_raw (flush_laz cr w)) ++ L ++ hd_padding hd ++ D ++ cr_done cr ++ evlrs_bytes cr (hd_evlrs hd).
Proof.
  intros (H & LH & S & R & EV). unfold flush_laz. pose proof (emit_split w _ _ (cr_done cr) S) as S1. rewrite skipn_nil in S1.
  destruct (emit_all (cr_evlr cr) (fw_evlrs (emit w (cr_done cr))) _ _ _ S1) as (S2 & R2 & E2 & _).
  assert (EW : fw_evlrs (emit w (cr_done cr)) = hd_evlrs hd) by exact EV.
  set (w2 := write_evlrs cr (emit w (cr_done cr))) in *. unfold write_evlrs in w2.
  assert (S2' : split_at w2 ((H ++ L ++ hd_padding hd ++ D) ++ cr_done cr ++ evlrs_bytes cr (hd_evlrs hd)) []).
  { unfold w2. rewrite EW in S2 |- *. rewrite skipn_nil in S2. rewrite <- app_assoc in S2. exact S2. }
  assert (RW : fw_raw w2 = fw_raw w) by exact R2. assert (EW2 : fw_evlrs w2 = hd_evlrs hd) by (unfold w2; rewrite E2; exact EW).
  assert (S3 : split_at (write_header cr w2) (cr_header cr (fw_raw w2) ++ L ++ hd_padding hd ++ D ++ cr_done cr ++ evlrs_bytes cr (hd_evlrs hd)) []).
  { destruct S2' as (A & B). split; cbn [write_header seek_to emit fw_stream fw_position].
    - rewrite A, <- !app_assoc. rewrite put_head by (rewrite fit; lia). rewrite !app_nil_r. reflexivity.
    - rewrite B, !app_length, fit, LH. lia. }
  split; [|destruct S3 as (S3 & _); rewrite app_nil_r in S3; exact S3].
  exists (cr_header cr (fw_raw w2)). split; [apply fit|]. split; [exact S3|]. cbn [write_header seek_to emit fw_raw fw_evlrs]. rewrite RW. split; [exact R|exact EW2].
Qed.
(* the point data and what flushes put between them *)
Fixpoint compressed (ops : list file_op) : nat * list Z :=
  match ops with
  | [] => (0, [])
  | FWrite n bytes :: ops => if Nat.eqb n 0 then compressed ops else (n + fst (compressed ops), bytes ++ snd (compressed ops))
  | FFlush :: ops => (fst (compressed ops), (cr_done cr ++ evlrs_bytes cr (hd_evlrs hd)) ++ snd (compressed ops))
  end.
Lemma laz_ops ops : forall w n D, inv_laz w n D -> inv_laz (fold_left (file_step cr true) ops w) (n + fst (compressed ops)) (D ++ snd (compressed ops)).
Proof.
  induction ops as [|o ops IH]; intros w n D I; cbn [fold_left compressed].
  - cbn [fst snd]. rewrite Nat.add_0_r, app_nil_r. exact I.
  - destruct o as [k bytes|]; cbn [file_step].
    + pose proof (IH _ _ _ (laz_write w n D k bytes I)) as J. destruct (Nat.eqb k 0); [exact J|]. cbn [fst snd].
      rewrite Nat.add_assoc, app_assoc. exact J.
    + cbn [fst snd]. rewrite app_assoc. apply IH. now apply laz_flush.
Qed.
Lemma compressed_written ops : ~ In FFlush ops -> compressed ops = written ops.
Proof.
  induction ops as [|o ops IH]; intros N; [reflexivity|]. assert (I : compressed ops = written ops) by (apply IH; intros X; apply N; now right).
  destruct o; cbn [compressed written]; [now rewrite I|]. elim N. now left.
Qed.
Lemma laz_file ops : ~ In FFlush ops ->
  exists w, file_of cr true hd ops = Ok w
    /\ fw_stream w = cr_header cr (fw_raw w) ++ cr_vlr cr (cr_laszip cr) ++ hd_padding hd ++ snd (written ops) ++ cr_done cr ++ evlrs_bytes cr (hd_evlrs hd)
    /\ rh_vlrs (fw_raw w) = 1 /\ rh_points (fw_raw w) = fst (written ops)
    /\ rh_offset (fw_raw w) = length (cr_header cr (fw_raw w) ++ cr_vlr cr (cr_laszip cr))
    /\ rh_evlr (fw_raw w) = None.
Proof.
  intros N. destruct laz_open as (w0 & O & I0). unfold file_of, open_file. rewrite O. cbn [bind file_step].
  pose proof (laz_ops ops _ _ _ I0) as I. rewrite (compressed_written _ N) in I. cbn [Nat.add app] in I.
  destruct (laz_flush _ _ _ I) as ((H & _ & _ & R & _) & S). eexists. split; [reflexivity|]. split; [exact S|]. rewrite R.
  cbn [rh_vlrs rh_points rh_offset rh_evlr]. rewrite app_length, fit. auto.
Qed.
Lemma laz_flush_twice ops : ~ In FFlush ops ->
  exists w, file_of cr true hd (ops ++ [FFlush]) = Ok w
    /\ fw_stream w = cr_header cr (fw_raw w) ++ cr_vlr cr (cr_laszip cr) ++ hd_padding hd ++ snd (written ops)
         ++ cr_done cr ++ evlrs_bytes cr (hd_evlrs hd) ++ cr_done cr ++ evlrs_bytes cr (hd_evlrs hd).
Proof.
  intros N. destruct laz_open as (w0 & O & I0). unfold file_of, open_file. rewrite O. cbn [bind file_step]. rewrite fold_left_app. cbn [fold_left file_step].
  pose proof (laz_ops ops _ _ _ I0) as I. rewrite (compressed_written _ N) in I. cbn [Nat.add app] in I.
  destruct (laz_flush _ _ _ I) as (I1 & _). destruct (laz_flush _ _ _ I1) as (_ & S). eexists. split; [reflexivity|]. rewrite S, <- !app_assoc. reflexivity.
Qed.
End Laz.
