(* Proofs about programs that stop while they write a LAS file. *)
From Coq Require Import String List ZArith Lia Bool Arith.
From Verif Require Import Base LasModel LasIoModel ListLemmas LasFileModel LasFileSpec LasFileProofs LasFileProofs2 LasCrashModel LasCrashSpec.
Import ListNotations.
Open Scope nat_scope.

(* ---- writes and seeks ---- *)
Lemma put_none d p : put d p [] = d.
Proof. unfold put. cbn [app length]. rewrite Nat.add_0_r. apply firstn_skipn. Qed.
Lemma put_put d p a b : p <= length d -> put (put d p a) (p + length a) b = put d p (a ++ b).
Proof.
  intros P. pose proof (firstn_skipn p d) as E. set (A := firstn p d) in *. set (B := skipn p d) in *. assert (LA : length A = p) by (unfold A; rewrite firstn_length; lia).
  rewrite <- E. replace p with (length A) at 1 2 3 by exact LA. rewrite put_in, app_assoc. rewrite <- app_length, put_in. replace p with (length A) by exact LA.
  rewrite put_in, <- !app_assoc, ListLemmas.skipn_skipn, app_length. do 4 f_equal. lia.
Qed.
Definition exec_from (s : list Z * nat) (ps : list prim) : list Z * nat := fold_left prim_step ps s.
Lemma exec_app a b : exec (a ++ b) = exec_from (exec a) b.
Proof. unfold exec, exec_from. apply fold_left_app. Qed.
Lemma exec_writes bs : forall s, snd s <= length (fst s) -> exec_from s (map PWrite bs) = (put (fst s) (snd s) (concat bs), snd s + length (concat bs)).
Proof.
  induction bs as [|b bs IH]; intros (d, p) L; cbn [map exec_from fold_left concat].
  - cbn [fst snd length]. now rewrite put_none, Nat.add_0_r.
  - cbn [prim_step fst snd] in *. change (fold_left prim_step (map PWrite bs) ?s) with (exec_from s (map PWrite bs)). rewrite IH.
    + cbn [fst snd]. rewrite put_put by exact L. f_equal. rewrite app_length. lia.
    + cbn [fst snd]. unfold put. rewrite !app_length, firstn_length, skipn_length. lia.
Qed.
Lemma bytes_writes bs : bytes_of (map PWrite bs) = concat bs.
Proof. unfold bytes_of. rewrite map_map. f_equal. now rewrite map_id. Qed.
Lemma in_writes bs p : ~ In (PSeek p) (map PWrite bs).
Proof. intros H. apply in_map_iff in H. destruct H as (b & E & _). discriminate. Qed.
(* after the last seek *)
Lemma lb_seek a p bs disk : p <= length (fst (exec a)) -> left_behind (a ++ PSeek p :: map PWrite bs) disk ->
  exists b1 b2, concat bs = b1 ++ b2 /\ disk = put (fst (exec a)) p b1.
Proof.
  intros L (t1 & t2 & b1 & b2 & E & N & B & ->).
  assert (S : exists bs1 bs2, bs = bs1 ++ bs2 /\ t1 = a ++ PSeek p :: map PWrite bs1 /\ t2 = map PWrite bs2).
  { revert a E L. induction t1 as [|x t1 IH]; intros a E L.
    - cbn [app] in E. destruct (N p). rewrite <- E. apply in_or_app. right. now left.
    - destruct a as [|y a].
      + cbn [app] in E. injection E as <- E. clear IH L. revert bs E. induction t1 as [|z t1 IH]; intros bs E; [exists [], bs; auto|].
        destruct bs as [|b bs]; [discriminate|]. injection E as <- E. destruct (IH bs E) as (bs1 & bs2 & -> & Q & ->). injection Q as ->. exists (b :: bs1), bs2. auto.
      + cbn [app] in E. injection E as <- E.
        assert (K : forall a, a ++ PSeek p :: map PWrite bs = t1 ++ t2 -> exists bs1 bs2, bs = bs1 ++ bs2 /\ t1 = a ++ PSeek p :: map PWrite bs1 /\ t2 = map PWrite bs2).
        { clear IH E L a y. induction t1 as [|z t1 IH]; intros a E.
          - cbn [app] in E. destruct (N p). rewrite <- E. apply in_or_app. right. now left.
          - destruct a as [|y a]; [|cbn [app] in E; injection E as <- E; destruct (IH a E) as (bs1 & bs2 & -> & -> & ->); now exists bs1, bs2].
            cbn [app] in E. injection E as <- E. clear IH. revert bs E. induction t1 as [|z t1 IH]; intros bs E; [exists [], bs; auto|].
            destruct bs as [|b bs]; [discriminate|]. injection E as <- E. destruct (IH bs E) as (bs1 & bs2 & -> & Q & ->). injection Q as ->. exists (b :: bs1), bs2. auto. }
        destruct (K a E) as (bs1 & bs2 & -> & -> & ->). now exists bs1, bs2. }
  destruct S as (bs1 & bs2 & -> & -> & ->). rewrite bytes_writes in B. exists (concat bs1 ++ b1), b2. split; [rewrite concat_app, B, app_assoc; reflexivity|].
  rewrite exec_app. change (PSeek p :: map PWrite bs1) with ([PSeek p] ++ map PWrite bs1). unfold exec_from. rewrite fold_left_app. cbn [fold_left prim_step].
  change (fold_left prim_step (map PWrite bs1) ?s) with (exec_from s (map PWrite bs1)). rewrite exec_writes by exact L. cbn [fst snd prim_step]. now apply put_put.
Qed.
Lemma lb_start bs disk : left_behind (map PWrite bs) disk -> exists rest, concat bs = disk ++ rest.
Proof.
  intros (t1 & t2 & b1 & b2 & E & N & B & ->). apply map_eq_app in E. destruct E as (bs1 & bs2 & -> & <- & <-). rewrite bytes_writes in B.
  unfold exec. change (fold_left prim_step (map PWrite bs1) ?s) with (exec_from s (map PWrite bs1)). rewrite exec_writes by (cbn; lia). cbn [fst snd prim_step].
  assert (P : put [] 0 (concat bs1) = concat bs1) by (unfold put; rewrite skipn_nil, app_nil_r; reflexivity). rewrite P.
  exists b2. rewrite concat_app, B, app_assoc. f_equal. unfold put. cbn [Nat.add]. rewrite firstn_all, (skipn_all2 (concat bs1)) by lia. now rewrite app_nil_r.
Qed.

Lemma list_last {A} (l : list A) : l = [] \/ exists l' x, l = l' ++ [x].
Proof. destruct l as [|y l]; [now left|right]. destruct (exists_last (l := y :: l)) as (l' & x & E); [discriminate|]. eauto. Qed.

(* ---- calls ---- *)
Lemma written_app a b : written (a ++ b) = (fst (written a) + fst (written b), snd (written a) ++ snd (written b)).
Proof.
  induction a as [|o a IH]; cbn [app written]; [now destruct (written b)|]. destruct o as [n bytes|]; [|exact IH]. destruct (Nat.eqb n 0); [exact IH|]. rewrite IH. cbn [fst snd].
  now rewrite Nat.add_assoc, app_assoc.
Qed.
Lemma flushed_write ops n bytes : flushed (ops ++ [FWrite n bytes]) = flushed ops.
Proof. induction ops as [|o ops IH]; cbn [app flushed]; [reflexivity|]. now rewrite IH. Qed.
Lemma flushed_flush ops : flushed (ops ++ [FFlush]) = ops ++ [FFlush].
Proof. induction ops as [|o ops IH]; cbn [app flushed]; [reflexivity|]. rewrite IH. destruct (ops ++ [FFlush]) eqn:E; [destruct ops; discriminate|reflexivity]. Qed.
Lemma trace_app cr a b : forall w, trace cr w (a ++ b) = trace cr w a ++ trace cr (fold_left (file_step cr false) a w) b.
Proof. induction a as [|o a IH]; intros w; cbn [app trace fold_left]; [reflexivity|]. now rewrite IH, app_assoc. Qed.

Section Las.
Variable cr : crates.
Hypothesis fit : headers_fit cr.
Variable hd : head.
Let V := vlrs_bytes cr (hd_vlrs hd).
Let size := cr_header_size cr.
Let SH := stated_header cr hd.
Lemma header_length n : length (SH n) = size.
Proof. apply fit. Qed.

Definition at_flush (s : list Z * nat) (n : nat) (D : list Z) : Prop := exists T, fst s = SH n ++ V ++ D ++ T /\ snd s = length (SH n ++ V ++ D).
Definition J (w : file_writer) (ops : list file_op) (tr : list prim) : Prop :=
  let F := written (flushed ops) in
  exists t p bs, tr = t ++ PSeek p :: map PWrite bs /\ at_flush (fst (exec t), p) (fst F) (snd F) /\ snd F ++ concat bs = snd (written ops)
    /\ exec tr = (fw_stream w, fw_position w)
    /\ fw_raw w = mk_raw_head (rh_vlrs (into_raw cr hd)) (rh_offset (into_raw cr hd)) (rh_evlr (into_raw cr hd)) (fst (written ops))
    /\ fw_evlrs w = hd_evlrs hd /\ (fw_requires_flush w = false -> bs = [] /\ fst F = fst (written ops)).

Lemma put_after n D T b : put (SH n ++ V ++ D ++ T) (length (SH n ++ V ++ D)) b = SH n ++ V ++ (D ++ b) ++ skipn (length b) T.
Proof. replace (SH n ++ V ++ D ++ T) with ((SH n ++ V ++ D) ++ T) by (now rewrite <- !app_assoc). rewrite put_in, <- !app_assoc. reflexivity. Qed.
Lemma stream_of_J w ops tr : J w ops tr -> exists T, fw_stream w = SH (fst (written (flushed ops))) ++ V ++ snd (written ops) ++ T
  /\ fw_position w = length (SH (fst (written (flushed ops))) ++ V ++ snd (written ops)).
Proof.
  intros (t & p & bs & -> & (T & S & P) & D & E & _). cbn [fst snd] in S, P. rewrite exec_app in E. cbn [exec_from fold_left prim_step] in E.
  change (fold_left prim_step (map PWrite bs) ?s) with (exec_from s (map PWrite bs)) in E. rewrite exec_writes in E.
  - cbn [fst snd] in E. injection E as E1 E2. rewrite S, P in E1. rewrite put_after, D in E1. eexists. split; [symmetry; exact E1|]. rewrite <- E2, P, <- D, !app_length. lia.
  - cbn [fst snd]. rewrite S, P, !app_length. lia.
Qed.

Lemma J_write w ops tr n bytes : J w ops tr -> J (file_write w n bytes) (ops ++ [FWrite n bytes]) (tr ++ step_prims cr w (FWrite n bytes)).
Proof.
  intros (t & p & bs & -> & A & D & E & R & EV & F). unfold J. rewrite flushed_write, written_app. cbn [written step_prims]. unfold file_write. destruct (Nat.eqb n 0) eqn:N.
  - exists t, p, bs. cbn [fst snd]. rewrite !app_nil_r, Nat.add_0_r. auto 10.
  - exists t, p, (bs ++ [bytes]). cbn [fst snd]. split; [rewrite map_app, <- app_assoc; reflexivity|]. split; [exact A|]. split; [rewrite concat_app; cbn [concat]; rewrite app_assoc, D, !app_nil_r; reflexivity|].
    split; [rewrite exec_app, E; reflexivity|]. cbn [fw_raw emit fw_evlrs fw_requires_flush]. rewrite R. cbn [rh_vlrs rh_offset rh_evlr rh_points]. rewrite Nat.add_0_r. split; [reflexivity|]. split; [exact EV|]. discriminate.
Qed.
Lemma fold_emit g (vs : list vlr) : forall w, let w' := fold_left (fun w v => emit w (g v)) vs w in
  (fw_stream w', fw_position w') = exec_from (fw_stream w, fw_position w) (map (fun v => PWrite (g v)) vs)
  /\ fw_raw w' = fw_raw w /\ fw_evlrs w' = fw_evlrs w /\ fw_requires_flush w' = fw_requires_flush w.
Proof. induction vs as [|v vs IH]; intros w; cbn [fold_left map]; [auto|]. exact (IH (emit w (g v))). Qed.
Lemma evlr_prims (g : vlr -> list Z) vs : map (fun v => PWrite (g v)) vs = map PWrite (map g vs).
Proof. now rewrite map_map. Qed.
Definition before_evlrs (w : file_writer) : list prim := let p := fw_position w in [PSeek p; PSeek p; PSeek 0; PWrite (cr_header cr (fw_raw w))].
Lemma J_flush w ops tr : J w ops tr -> J (flush_las cr w) (ops ++ [FFlush]) (tr ++ step_prims cr w FFlush).
Proof.
  intros H. destruct (stream_of_J w ops tr H) as (T & S & P). destruct H as (t & p & bs & Q & A & D & E & R & EV & F). unfold J. rewrite flushed_flush, written_app. cbn [written fst snd]. rewrite Nat.add_0_r, app_nil_r.
  cbn [step_prims]. unfold flush_las. destruct (fw_requires_flush w) eqn:RF; cbn [negb].
  - set (q := fw_position w) in *. set (w1 := write_header cr w). set (n := fst (written ops)) in *. set (DD := snd (written ops)) in *.
    assert (HD : cr_header cr (fw_raw w) = SH n) by (rewrite R; reflexivity).
    assert (W1 : fw_stream w1 = SH n ++ V ++ DD ++ T /\ fw_position w1 = q).
    { split; [|reflexivity]. cbn [w1 write_header seek_to emit fw_stream]. rewrite HD, S. rewrite put_head by (rewrite !header_length; reflexivity). reflexivity. }
    destruct W1 as (W1 & WP).
    assert (XB : exec (tr ++ before_evlrs w) = (fw_stream w1, size)).
    { rewrite exec_app, E. cbn [before_evlrs exec_from fold_left prim_step fst snd]. f_equal. cbn [Nat.add]. apply fit. }
    destruct (fold_emit (cr_evlr cr) (fw_evlrs w1) w1) as (X1 & X2 & X3 & _). fold (write_evlrs cr w1) in X1, X2, X3. rewrite WP in X1. rewrite evlr_prims in X1.
    assert (QL : q = length (SH n ++ V ++ DD)) by (rewrite P, !app_length, !header_length; reflexivity).
    rewrite exec_writes in X1 by (cbn [fst snd]; rewrite W1, QL, !app_length; lia). apply (f_equal fst) in X1. cbn [fst snd] in X1. rewrite W1, QL in X1. rewrite put_after in X1.
    exists (tr ++ before_evlrs w ++ PSeek q :: map PWrite (map (cr_evlr cr) (fw_evlrs w1))), q, [].
    assert (XF : exec (tr ++ before_evlrs w ++ PSeek q :: map PWrite (map (cr_evlr cr) (fw_evlrs w1))) = (fw_stream (write_evlrs cr w1), q + length (concat (map (cr_evlr cr) (fw_evlrs w1))))).
    { rewrite app_assoc, exec_app, XB. change (PSeek q :: map PWrite ?m) with ([PSeek q] ++ map PWrite m). unfold exec_from. rewrite fold_left_app. cbn [fold_left prim_step fst].
      change (fold_left prim_step (map PWrite ?m) ?s) with (exec_from s (map PWrite m)). rewrite exec_writes by (cbn [fst snd]; rewrite W1, QL, !app_length; lia). cbn [fst snd]. f_equal.
      rewrite X1, W1, QL. rewrite put_after. reflexivity. }
    split. { rewrite <- evlr_prims, <- !app_assoc. cbn [map before_evlrs app]. change (fw_evlrs w1) with (fw_evlrs w). reflexivity. }
    split. { rewrite XF. exists (concat (map (cr_evlr cr) (fw_evlrs w1)) ++ skipn (length (concat (map (cr_evlr cr) (fw_evlrs w1)))) T). cbn [fst snd]. split; [rewrite X1, <- !app_assoc; reflexivity|exact QL]. }
    split; [apply app_nil_r|]. split.
    { match goal with |- exec (tr ++ ?m) = _ => replace (tr ++ m) with ((tr ++ before_evlrs w ++ PSeek q :: map PWrite (map (cr_evlr cr) (fw_evlrs w1))) ++ [PSeek q]) end.
      - rewrite exec_app, XF. reflexivity.
      - rewrite <- evlr_prims, <- !app_assoc. cbn [before_evlrs app]. change (fw_evlrs w1) with (fw_evlrs w). reflexivity. }
    cbn [seek_to fw_raw fw_evlrs fw_requires_flush]. rewrite X2, X3. split; [exact R|]. split; [exact EV|]. auto.
  - destruct (F eq_refl) as (-> & N). exists t, p, []. rewrite app_nil_r. split; [exact Q|]. cbn [concat] in D. rewrite app_nil_r in D. split; [rewrite <- N, <- D; exact A|]. split; [apply app_nil_r|].
    split; [exact E|]. split; [exact R|]. split; [exact EV|]. auto.
Qed.
Lemma J_ops w : J w [] (open_prims cr hd) -> forall ops, J (fold_left (file_step cr false) ops w) ops (open_prims cr hd ++ trace cr w ops).
Proof.
  intros O ops. induction ops as [|o ops IH] using rev_ind; [cbn [fold_left trace]; now rewrite app_nil_r|]. rewrite fold_left_app, trace_app, app_assoc. cbn [fold_left trace]. rewrite app_nil_r.
  destruct o; [now apply J_write|now apply J_flush].
Qed.
Lemma J_open w : open_las cr hd = Ok w -> J w [] (open_prims cr hd).
Proof.
  intros O. unfold open_las in O. destruct (existsb has_large_data (hd_vlrs hd)); cbn [negb assert bind] in O; [discriminate|].
  set (w0 := mk_fw [] 0 (into_raw cr hd) (hd_evlrs hd) true) in *. set (w1 := emit w0 (cr_header cr (into_raw cr hd))) in *.
  destruct (fold_emit (cr_vlr cr) (hd_vlrs hd) w1) as (X1 & X2 & X3 & X4). set (w2 := fold_left _ _ _) in *.
  destruct (Nat.eqb_spec (fw_position w2) (rh_offset (into_raw cr hd))) as [PO|]; cbn [assert bind] in O; [|discriminate]. injection O as <-.
  set (t := PWrite (cr_header cr (into_raw cr hd)) :: map (fun v => PWrite (cr_vlr cr v)) (hd_vlrs hd)).
  assert (XT : exec t = (fw_stream w2, fw_position w2)) by (rewrite X1; reflexivity).
  assert (C : exec t = (cr_header cr (into_raw cr hd) ++ V, length (cr_header cr (into_raw cr hd) ++ V))).
  { unfold t. rewrite evlr_prims. change (PWrite ?a :: map PWrite ?m) with (map PWrite (a :: m)). unfold exec. change (fold_left prim_step (map PWrite ?m) ?s) with (exec_from s (map PWrite m)).
    rewrite exec_writes by (cbn; lia). cbn [fst snd concat]. fold (vlrs_bytes cr (hd_vlrs hd)). fold V. f_equal. unfold put. rewrite skipn_nil, app_nil_r. reflexivity. }
  unfold J. cbn [flushed written fst snd]. exists t, (rh_offset (into_raw cr hd)), []. split; [reflexivity|]. split.
  - exists []. cbn [fst snd]. rewrite !app_nil_r. rewrite C. cbn [fst]. split; [reflexivity|]. rewrite <- PO. rewrite C in XT. injection XT as _ XT. now rewrite <- XT.
  - split; [reflexivity|]. split; [unfold open_prims; fold t; rewrite exec_app, XT; cbn [exec_from fold_left prim_step fst]; now rewrite PO|]. rewrite X2, X3, X4. split; [reflexivity|]. split; [reflexivity|]. discriminate.
Qed.
Lemma prefix_split {A} (a b c d : list A) : a ++ b = c ++ d -> (exists m, c = a ++ m /\ b = m ++ d) \/ exists m, a = c ++ m /\ d = m ++ b.
Proof.
  revert c. induction a as [|x a IH]; intros c E; [left; exists c; auto|]. destruct c as [|y c]; [right; exists (x :: a); auto|]. injection E as <- E.
  destruct (IH c E) as [(m & -> & ->)|(m & -> & ->)]; [left|right]; exists m; auto.
Qed.
Lemma lb_J w ops tr disk : J w ops tr -> left_behind tr disk -> exists rest, disk = SH (fst (written (flushed ops))) ++ V ++ snd (written (flushed ops)) ++ rest.
Proof.
  intros (t & p & bs & -> & (T & S & P) & D & _) LB. cbn [fst snd] in S, P. apply lb_seek in LB; [|rewrite S, P, !app_length; lia]. destruct LB as (b1 & b2 & _ & ->). rewrite S, P, put_after, <- !app_assoc. eauto.
Qed.
Lemma crash_ok w ops o done disk : open_las cr hd = Ok w -> stopped cr hd w ops o done -> left_behind done disk ->
  exists j points rest,
    disk = (firstn j (SH (fst (written ops))) ++ skipn j (SH (fst (written (flushed ops))))) ++ V ++ points ++ rest
    /\ (j = 0 /\ points = snd (written (flushed ops)) \/ o = FFlush /\ 0 < j /\ points = snd (written ops)).
Proof.
  intros O (part & more & SP & ->) LB. pose proof (J_ops w (J_open w O) ops) as JJ. set (w' := fold_left (file_step cr false) ops w) in *. rewrite app_assoc in LB. set (tr := open_prims cr hd ++ trace cr w ops) in *.
  assert (OLD : left_behind tr disk -> exists j points rest,
    disk = (firstn j (SH (fst (written ops))) ++ skipn j (SH (fst (written (flushed ops))))) ++ V ++ points ++ rest
    /\ (j = 0 /\ points = snd (written (flushed ops)) \/ o = FFlush /\ 0 < j /\ points = snd (written ops))).
  { intros L. destruct (lb_J _ _ _ _ JJ L) as (rest & ->). exists 0, (snd (written (flushed ops))), rest. cbn [firstn skipn app]. auto. }
  destruct part as [|x part]; [rewrite app_nil_r in LB; auto|]. destruct o as [n bytes|].
  - cbn [step_prims] in SP. destruct (Nat.eqb n 0) eqn:N0; [discriminate|]. injection SP as <- SP. symmetry in SP. apply app_eq_nil in SP. destruct SP as (-> & _).
    pose proof (J_write w' ops tr n bytes JJ) as J2. cbn [step_prims] in J2. rewrite N0 in J2. destruct (lb_J _ _ _ _ J2 LB) as (rest & ->). rewrite flushed_write.
    exists 0, (snd (written (flushed ops))), rest. cbn [firstn skipn app]. auto.
  - destruct (stream_of_J _ _ _ JJ) as (T & S & P). pose proof JJ as (_ & _ & _ & _ & _ & _ & E & R & EV & _). cbn [step_prims] in SP. destruct (fw_requires_flush w') eqn:RFT; cbn [negb] in SP; [|discriminate].
    set (q := fw_position w') in *. set (n := fst (written ops)) in *. set (m := fst (written (flushed ops))) in *. set (D := snd (written ops)) in *.
    assert (HD : cr_header cr (fw_raw w') = SH n) by (rewrite R; reflexivity). rewrite HD in SP.
    assert (PRE : exists rest, D = snd (written (flushed ops)) ++ rest) by (destruct JJ as (_ & _ & bs & _ & _ & Q & _); exists (concat bs); now rewrite Q).
    assert (SAME : forall a, fst (exec a) = fw_stream w' -> left_behind (a ++ [PSeek q]) disk \/ left_behind (a ++ [PSeek 0]) disk -> disk = fw_stream w').
    { intros a X [L|L]; apply (lb_seek _ _ []) in L; try (rewrite X, S, ?P, !app_length; lia); destruct L as (b1 & b2 & Q & ->); symmetry in Q; apply app_eq_nil in Q; destruct Q as (-> & _); now rewrite put_none. }
    assert (OLD2 : disk = fw_stream w' -> exists j points rest, disk = (firstn j (SH n) ++ skipn j (SH m)) ++ V ++ points ++ rest
      /\ (j = 0 /\ points = snd (written (flushed ops)) \/ FFlush = FFlush /\ 0 < j /\ points = D)).
    { intros ->. destruct PRE as (r & PRE). rewrite S, PRE. exists 0, (snd (written (flushed ops))), (r ++ T). cbn [firstn skipn app]. rewrite <- !app_assoc. auto. }
    cbn [app] in SP. injection SP as <- SP. assert (X0 : fst (exec tr) = fw_stream w') by now rewrite E.
    destruct part as [|x part]; [apply OLD2, (SAME tr X0); auto|]. injection SP as <- SP.
    assert (X1 : fst (exec (tr ++ [PSeek q])) = fw_stream w') by (rewrite exec_app; exact X0).
    destruct part as [|x part]; [apply OLD2, (SAME _ X1); left; rewrite <- app_assoc; exact LB|]. injection SP as <- SP.
    assert (X2 : fst (exec (tr ++ [PSeek q; PSeek q])) = fw_stream w') by (rewrite exec_app; exact X0).
    destruct part as [|x part]; [apply OLD2, (SAME _ X2); right; rewrite <- app_assoc; exact LB|]. injection SP as <- SP.
    assert (X3 : forall b, put (fw_stream w') 0 (firstn b (SH n)) = (firstn b (SH n) ++ skipn b (SH m)) ++ V ++ D ++ T).
    { intros b. rewrite S. unfold put. cbn [firstn app Nat.add]. rewrite <- app_assoc. f_equal. rewrite firstn_length, header_length.
      destruct (Nat.le_gt_cases b size); [rewrite Nat.min_l by lia; rewrite skipn_app, header_length; replace (b - size) with 0 by lia; reflexivity|].
      rewrite Nat.min_r by lia. rewrite skipn_app, header_length, Nat.sub_diag.
      assert (Z1 : skipn size (SH m) = []) by (apply skipn_all2; rewrite header_length; lia). assert (Z2 : skipn b (SH m) = []) by (apply skipn_all2; rewrite header_length; lia). rewrite Z1, Z2. reflexivity. }
    assert (HDR : forall b, disk = put (fw_stream w') 0 (firstn b (SH n)) -> exists j points rest, disk = (firstn j (SH n) ++ skipn j (SH m)) ++ V ++ points ++ rest
      /\ (j = 0 /\ points = snd (written (flushed ops)) \/ FFlush = FFlush /\ 0 < j /\ points = D)).
    { intros [|b] Q; [apply OLD2; rewrite Q; cbn [firstn]; apply put_none|]. rewrite Q, X3. exists (Datatypes.S b), D, T. split; [reflexivity|]. right. auto with arith. }
    destruct part as [|x part].
    { replace (tr ++ [PSeek q; PSeek q; PSeek 0; PWrite (SH n)]) with ((tr ++ [PSeek q; PSeek q]) ++ PSeek 0 :: map PWrite [SH n]) in LB by (rewrite <- app_assoc; reflexivity).
      apply lb_seek in LB; [|lia]. destruct LB as (b1 & b2 & Q & DK). rewrite X2 in DK. apply (HDR (length b1)). rewrite DK. cbn [concat] in Q. rewrite app_nil_r in Q. rewrite Q.
      rewrite firstn_app, firstn_all, Nat.sub_diag. cbn [firstn]. now rewrite app_nil_r. }
    injection SP as <- SP. rewrite evlr_prims in SP.
    assert (X4 : exec (tr ++ [PSeek q; PSeek q; PSeek 0; PWrite (SH n)]) = (SH n ++ V ++ D ++ T, size)).
    { rewrite exec_app, E. cbn [exec_from fold_left prim_step fst snd Nat.add]. rewrite header_length. f_equal. pose proof (X3 size) as X. rewrite firstn_all2 in X by (rewrite header_length; lia). rewrite X.
      rewrite (skipn_all2 (SH m)) by (rewrite header_length; lia). now rewrite app_nil_r. }
    assert (QL : q = length (SH n ++ V ++ D)) by (rewrite P, !app_length, !header_length; reflexivity).
    assert (NEW : (exists rest, disk = SH n ++ V ++ D ++ rest) -> exists j points rest, disk = (firstn j (SH n) ++ skipn j (SH m)) ++ V ++ points ++ rest
      /\ (j = 0 /\ points = snd (written (flushed ops)) \/ FFlush = FFlush /\ 0 < j /\ points = D)).
    { intros (rest & ->). exists (Datatypes.S size), D, rest. rewrite firstn_all2, (skipn_all2 (SH m)) by (rewrite header_length; lia). rewrite app_nil_r. split; [reflexivity|]. right. auto with arith. }
    apply NEW. symmetry in SP. destruct (prefix_split _ _ _ _ SP) as [(more' & Q & _)|(more' & Q & Q2)].
    + apply map_eq_app in Q. destruct Q as (b1 & b2 & _ & <- & _).
      replace (tr ++ PSeek q :: PSeek q :: PSeek 0 :: PWrite (SH n) :: PSeek q :: map PWrite b1) with ((tr ++ [PSeek q; PSeek q; PSeek 0; PWrite (SH n)]) ++ PSeek q :: map PWrite b1) in LB by (rewrite <- app_assoc; reflexivity).
      apply lb_seek in LB; rewrite X4 in *; cbn [fst] in *; [|rewrite QL, !app_length; lia]. destruct LB as (c1 & c2 & _ & ->). rewrite QL, put_after, <- !app_assoc. eauto.
    + destruct more' as [|y more']; [|injection Q2 as <- Q2; symmetry in Q2; apply app_eq_nil in Q2; destruct Q2 as (-> & _)].
      * rewrite app_nil_r in Q. subst part.
        match type of LB with left_behind (tr ++ ?l) _ => replace (tr ++ l) with ((tr ++ [PSeek q; PSeek q; PSeek 0; PWrite (SH n)]) ++ PSeek q :: map PWrite (map (cr_evlr cr) (fw_evlrs w'))) in LB by (rewrite <- app_assoc; reflexivity) end.
        apply lb_seek in LB; rewrite X4 in *; cbn [fst] in *; [|rewrite QL, !app_length; lia]. destruct LB as (c1 & c2 & _ & ->). rewrite QL, put_after, <- !app_assoc. eauto.
      * subst part. pose proof (J_flush w' ops tr JJ) as J2. cbn [step_prims] in J2. rewrite RFT in J2. cbn [negb] in J2. rewrite HD, evlr_prims in J2.
        destruct (lb_J _ _ _ _ J2 LB) as (rest & ->). rewrite flushed_flush, written_app. cbn [written fst snd]. rewrite Nat.add_0_r, app_nil_r. fold n D. eauto.
Qed.
Lemma trace_ok w ops : open_las cr hd = Ok w -> let w' := fold_left (file_step cr false) ops w in exec (open_prims cr hd ++ trace cr w ops) = (fw_stream w', fw_position w').
Proof. intros O. now destruct (J_ops w (J_open w O) ops) as (_ & _ & _ & _ & _ & _ & E & _). Qed.
Lemma crash_open done more disk : open_prims cr hd = done ++ more -> left_behind done disk -> exists rest, SH 0 ++ V = disk ++ rest.
Proof.
  intros E LB. unfold open_prims in E. rewrite evlr_prims in E. change (PWrite ?a :: map PWrite ?m) with (map PWrite (a :: m)) in E. symmetry in E.
  assert (Q : SH 0 ++ V = concat (cr_header cr (into_raw cr hd) :: map (cr_vlr cr) (hd_vlrs hd))) by reflexivity. rewrite Q. clear Q. set (bs := cr_header cr (into_raw cr hd) :: map (cr_vlr cr) (hd_vlrs hd)) in *.
  destruct (prefix_split _ _ _ _ E) as [(m & Q & _)|(m & -> & Q)].
  - apply map_eq_app in Q. destruct Q as (b1 & b2 & -> & <- & _). destruct (lb_start _ _ LB) as (rest & R). exists (rest ++ concat b2). now rewrite concat_app, R, app_assoc.
  - destruct m as [|x m]; [rewrite app_nil_r in LB; exact (lb_start _ _ LB)|]. injection Q as <- Q. symmetry in Q. apply app_eq_nil in Q. destruct Q as (-> & _).
    destruct LB as (t1 & t2 & b1 & b2 & T & N & B & ->). destruct (list_last t2) as [->|(t2' & y & ->)].
    + cbn in B. symmetry in B. apply app_eq_nil in B. destruct B as (-> & _). rewrite app_nil_r in T. subst t1. cbn [prim_step fst]. rewrite put_none, exec_app. cbn [exec_from fold_left prim_step fst].
      unfold exec. change (fold_left prim_step (map PWrite bs) ?s) with (exec_from s (map PWrite bs)). rewrite exec_writes by (cbn; lia). exists []. cbn [fst snd]. unfold put. now rewrite skipn_nil, !app_nil_r.
    + rewrite app_assoc in T. apply app_inj_tail in T. destruct T as (_ & <-). destruct (N (rh_offset (into_raw cr hd))). apply in_or_app. right. now left.
Qed.
Lemma flushed_inside before after : flushed (before ++ FFlush :: after) = before ++ FFlush :: flushed after.
Proof. induction before as [|o before IH]; cbn [app flushed]; [destruct (flushed after); reflexivity|]. rewrite IH. destruct (before ++ FFlush :: flushed after) eqn:E; [destruct before; discriminate|reflexivity]. Qed.
Lemma durable w before after o done disk : open_las cr hd = Ok w -> stopped cr hd w (before ++ FFlush :: after) o done -> left_behind done disk ->
  lies_at (snd (written before)) (rh_offset (into_raw cr hd)) disk.
Proof.
  intros O ST LB. destruct (crash_ok w _ o done disk O ST LB) as (j & points & rest & -> & K).
  assert (PT : exists r, points = snd (written before) ++ r).
  { destruct K as [(_ & ->)|(_ & _ & ->)]; rewrite ?flushed_inside, written_app; cbn [snd]; eauto. }
  destruct PT as (r & ->). assert (OFF : rh_offset (into_raw cr hd) = length ((firstn j (SH (fst (written (before ++ FFlush :: after)))) ++ skipn j (SH (fst (written (flushed (before ++ FFlush :: after)))))) ++ V)).
  { destruct (J_open w O) as (t & p & bs & Q & (T & S & P) & _). cbn [fst snd] in S, P. unfold open_prims in Q.
    destruct (list_last bs) as [->|(bs' & b & ->)].
    - cbn [map] in Q. apply app_inj_tail in Q. destruct Q as (_ & Q). assert (QP : rh_offset (into_raw cr hd) = p) by congruence. rewrite QP, P. cbn [flushed written fst snd]. rewrite app_nil_r, !app_length, !header_length, firstn_length, skipn_length, !header_length. lia.
    - rewrite map_app in Q. cbn [map] in Q. change (t ++ PSeek p :: map PWrite bs' ++ [PWrite b]) with (t ++ (PSeek p :: map PWrite bs') ++ [PWrite b]) in Q. rewrite app_assoc in Q. apply app_inj_tail in Q. now destruct Q. }
  rewrite OFF. unfold lies_at. rewrite app_assoc. set (A := _ ++ V). rewrite <- app_assoc. rewrite skipn_app, skipn_all, Nat.sub_diag. cbn [skipn app]. rewrite firstn_app, firstn_all, Nat.sub_diag. cbn [firstn]. apply app_nil_r.
Qed.
Lemma no_flush ops : ~ In FFlush ops -> flushed ops = [].
Proof. induction ops as [|o ops IH]; intros N; cbn [flushed]; [reflexivity|]. rewrite IH by (intros I; apply N; now right). destruct o; [reflexivity|]. destruct N. now left. Qed.
Lemma dropped w ops : open_las cr hd = Ok w -> ~ In FFlush ops ->
  exists rest, fw_stream (fold_left (file_step cr false) ops w) = SH 0 ++ V ++ snd (written ops) ++ rest.
Proof. intros O N. destruct (stream_of_J _ _ _ (J_ops w (J_open w O) ops)) as (T & S & _). rewrite (no_flush ops N) in S. exists T. exact S. Qed.
End Las.

(* ---- examples ---- *)
From Verif Require Import LasFileExamples.
Definition crash_ops : list file_op := [FWrite 1 [11; 12]%Z; FFlush; FWrite 1 [13; 14]%Z].
Definition opened (cr : crates) (hd : head) : file_writer := match open_las cr hd with Ok w => w | _ => mk_fw [] 0 (into_raw cr hd) [] false end.
Lemma crash_evlrs : exists cr hd w ops o done disk, headers_fit cr /\ open_las cr hd = Ok w /\ stopped cr hd w ops o done /\ left_behind done disk
  /\ rh_evlr (into_raw cr hd) <> None
  /\ ~ lies_at (evlrs_bytes cr (hd_evlrs hd)) (rh_offset (into_raw cr hd) + length (snd (written (flushed ops)))) disk.
Proof.
  set (w := opened toy toy_head). exists toy, toy_head, w, crash_ops, (FWrite 0 []), (open_prims toy toy_head ++ trace toy w crash_ops ++ []), [2; 9; 6; 1; 2; 5; 6; 1; 7; 11; 12; 13; 14]%Z.
  split; [exact toy_fits|]. split; [reflexivity|]. split; [exists [], []; split; reflexivity|]. split.
  - exists (open_prims toy toy_head ++ trace toy w crash_ops ++ []), [], [], []. split; [rewrite app_nil_r; reflexivity|]. split; [intros p []|]. split; [reflexivity|]. vm_compute. reflexivity.
  - split; [discriminate|]. vm_compute. discriminate.
Qed.
(* headers with the number of points twice, as those of LAS 1.4 *)
Definition twice : crates := mk_crates (fun r => [Z.of_nat (rh_points r); Z.of_nat (rh_points r)]) 2 (fun v => v_data v) (fun v => v_data v) (fun _ => 0) (mk_vlr "laszip" 22204 []) [].
Definition plain_head : head := mk_head [] [] [].
Lemma crash_torn : exists cr hd w ops o done disk, headers_fit cr /\ open_las cr hd = Ok w /\ stopped cr hd w ops o done /\ left_behind done disk
  /\ forall n rest, disk <> stated_header cr hd n ++ rest.
Proof.
  set (w := opened twice plain_head).
  set (ops := [FWrite 1 [11]%Z]). set (part := [PSeek 3; PSeek 3; PSeek 0; PWrite [1; 1]%Z]). exists twice, plain_head, w, ops, FFlush, (open_prims twice plain_head ++ trace twice w ops ++ part), [1; 0; 11]%Z.
  split; [intros r; reflexivity|]. split; [reflexivity|]. split; [exists part, [PSeek 3; PSeek 3]; split; reflexivity|]. split.
  - exists (open_prims twice plain_head ++ trace twice w ops ++ [PSeek 3; PSeek 3; PSeek 0]), [PWrite [1; 1]%Z], [1]%Z, [1]%Z. split; [reflexivity|].
    split; [intros p [E|[]]; discriminate|]. split; [reflexivity|]. vm_compute. reflexivity.
  - intros n rest E. unfold stated_header in E. cbn in E. injection E as E1 E2 _. rewrite <- E1 in E2. discriminate.
Qed.
