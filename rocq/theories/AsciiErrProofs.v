(* Proofs about ASCII readers and writers after errors. *)
From Coq Require Import String Ascii List ZArith Bool Arith Lia SpecFloat Permutation.
From Verif Require Import Base LayoutModel LayoutSpec LayoutProofs BufferModel BufferSpec TraitModel TraitSpec NumModel NumSpec NumProofs ConvModel ListLemmas BufferProofs TraitProofs TraitProofs2
  BufferSteps LasIoProofs3 LasIoProofs6 LasIoProofs9 AsciiModel AsciiSpec AsciiProofs AsciiProofs2 AsciiProofs3 AsciiProofs4 AsciiProofs5 AsciiProofs6 AsciiProofs7 AsciiProofs8 AsciiErrModel AsciiErrSpec.
Import ListNotations.
Open Scope nat_scope.

(* ---- the same results ---- *)
Definition agrees {S} (x : res S) (y : S * res unit) : Prop :=
  match x with Ok s => y = (s, Ok tt) | Err => snd y = Err | Panic => snd y = Panic end.
Lemma agrees_fold {A S} (f : S -> A -> res S) g (l : list A) : (forall s a, In a l -> agrees (f s a) (g s a)) -> forall s, agrees (foldM f l s) (foldE g l s).
Proof.
  induction l as [|a l IH]; intros H s; cbn [foldM foldE]; [reflexivity|]. specialize (H s a (or_introl eq_refl)) as H0. destruct (f s a) as [s'| |]; cbn [agrees bind] in *.
  - rewrite H0. apply IH. intros s0 a0 I. apply H. now right.
  - destruct (g s a) as (s', x). cbn [snd] in H0. now subst x.
  - destruct (g s a) as (s', x). cbn [snd] in H0. now subst x.
Qed.
Lemma agrees_before {A S} (s : S) (x : res A) f g : (forall a, agrees (f a) (g a)) -> agrees (bind x f) (before s x g).
Proof. intros H. destruct x; cbn [bind before]; [apply H|reflexivity..]. Qed.
Lemma write_point_agrees w l p out : agrees (let* t := point_text w l p in Ok (out ++ t)) (write_point_e w l p out).
Proof.
  unfold point_text, write_point_e.
  assert (X : forall es acc out, foldM (fun out e => let '(index, c) := e in
                       let* t := column_text (aw_precision w) l p c in
                       Ok (out ++ t ++ (if Nat.eqb index (length (aw_columns w) - 1) then [] else aw_delimiter w))) es (out ++ acc)
          = let* t := foldM (fun out e => let '(index, c) := e in
                       let* t := column_text (aw_precision w) l p c in
                       Ok (out ++ t ++ (if Nat.eqb index (length (aw_columns w) - 1) then [] else aw_delimiter w))) es acc in Ok (out ++ t)).
  { induction es as [|(i, c) es IH]; intros acc o; cbn [foldM bind]; [reflexivity|]. destruct (column_text (aw_precision w) l p c); cbn [bind]; [|reflexivity..]. rewrite <- app_assoc. apply IH. }
  specialize (X (combine (range 0 (length (aw_columns w))) (aw_columns w)) [] out). rewrite app_nil_r in X.
  match goal with |- context [foldE ?g ?es out] => pose proof (agrees_fold (fun out e => let '(index, c) := e in
                       let* t := column_text (aw_precision w) l p c in
                       Ok (out ++ t ++ (if Nat.eqb index (length (aw_columns w) - 1) then [] else aw_delimiter w))) g es) as Y; set (y := foldE g es out) in * end.
  assert (Y' : agrees (foldM (fun out e => let '(index, c) := e in
                       let* t := column_text (aw_precision w) l p c in
                       Ok (out ++ t ++ (if Nat.eqb index (length (aw_columns w) - 1) then [] else aw_delimiter w))) (combine (range 0 (length (aw_columns w))) (aw_columns w)) out) y).
  { apply Y. intros s (i, c) _. apply agrees_before. intros t. reflexivity. }
  rewrite X in Y'. clear X Y. destruct (foldM _ _ []) as [t| |]; cbn [bind agrees] in *.
  - rewrite Y'. now rewrite app_assoc.
  - destruct y as (o, x). cbn [snd] in Y'. now subst x.
  - destruct y as (o, x). cbn [snd] in Y'. now subst x.
Qed.
Lemma write_chunk_agrees chunk w b st k : agrees (ascii_write_chunk chunk w b st k) (ascii_write_chunk_e chunk w b st k).
Proof.
  destruct st as (cb, out). unfold ascii_write_chunk, ascii_write_chunk_e. apply agrees_before. intros dst. apply agrees_before. intros bytes.
  match goal with |- agrees (bind (foldM ?f ?l ?s) _) (let '(_, _) := foldE ?g ?l ?s in _) => pose proof (agrees_fold f g l) as Y end.
  match type of Y with ?H -> _ => assert (Y0 : H) end. { intros s i _. apply agrees_before. intros p. apply write_point_agrees. }
  specialize (Y Y0 out). clear Y0. match goal with |- agrees (bind ?M _) (let '(_, _) := ?E in _) => set (x := M) in *; set (y := E) in * end. change (agrees x y) in Y. clearbody x y.
  destruct x as [t| |], y as (o, r); cbn [bind snd] in *; unfold agrees in *; [injection Y; intros; subst; reflexivity|exact Y..].
Qed.
Lemma write_agrees chunk w b : agrees (ascii_write chunk w b) (ascii_write_e chunk w b).
Proof.
  unfold ascii_write, ascii_write_e. set (s := (repeat 0%Z _, aw_out w)). pose proof (agrees_fold _ _ (range 0 ((bf_len b + (chunk - 1)) / chunk)) (fun st k _ => write_chunk_agrees chunk w b st k) s) as Y.
  match type of Y with agrees ?M ?E => set (x := M) in *; set (y := E) in * end. clearbody x y.
  destruct x as [(cb, t)| |], y as ((cb', o), r); cbn [bind agrees snd] in *; [unfold agrees in *; congruence|exact Y..].
Qed.
Lemma read_lines_agrees cols d : forall n i file temp b, agrees (read_lines cols d n i file temp b) (read_lines_e cols d n i file temp b).
Proof.
  induction n as [|n IH]; intros i file temp b; cbn [read_lines read_lines_e]; [reflexivity|]. destruct (next_line file) as [(line, rest)|]; [|reflexivity].
  apply agrees_before. intros t. apply agrees_before. intros b'. apply IH.
Qed.
Lemma read_same r b count : match ascii_read_into r b count with
  | Ok (b', r', n) => ascii_read_into_e r b count = (b', r', Ok n)
  | Err => snd (ascii_read_into_e r b count) = Err
  | Panic => snd (ascii_read_into_e r b count) = Panic
  end.
Proof.
  unfold ascii_read_into, ascii_read_into_e. pose proof (read_lines_agrees (ar_columns r) (ar_delimiter r) count 0 (ar_text r) (repeat 0%Z (l_size (mb_layout b))) b) as Y.
  destruct (read_lines _ _ _ _ _ _ _) as [(b', file)| |]; cbn [bind agrees] in *.
  - now rewrite Y.
  - destruct (read_lines_e _ _ _ _ _ _ _) as ((b', file), x). cbn [snd] in *. now subst x.
  - destruct (read_lines_e _ _ _ _ _ _ _) as ((b', file), x). cbn [snd] in *. now subst x.
Qed.

(* ---- what is written is appended ---- *)
Lemma fold_appends {A} (g : text -> A -> text * res unit) l : (forall s a, exists m, fst (g s a) = s ++ m) -> forall s, exists m, fst (foldE g l s) = s ++ m.
Proof.
  intros H. induction l as [|a l IH]; intros s; cbn [foldE]; [exists []; now rewrite app_nil_r|]. destruct (H s a) as (m & M). destruct (g s a) as (s', x). cbn [fst] in M. subst s'.
  destruct x; [|exists m; reflexivity..]. destruct (IH (s ++ m)) as (m' & M'). exists (m ++ m'). now rewrite app_assoc.
Qed.
Lemma before_appends {A} (s : text) (x : res A) k : (forall a, exists m, fst (k a) = s ++ m) -> exists m, fst (before s x k) = s ++ m.
Proof. intros H. destruct x; [apply H|exists []; now rewrite app_nil_r..]. Qed.
Lemma point_appends w l p out : exists m, fst (write_point_e w l p out) = out ++ m.
Proof.
  unfold write_point_e. match goal with |- context [foldE ?g ?es out] => destruct (fold_appends g es) with (s := out) as (m & M) end.
  - intros s (i, c). apply before_appends. intros t. eexists. reflexivity.
  - unfold text in *. destruct (foldE _ _ out) as (o, x). cbn [fst] in M. subst o. destruct x; cbn [fst]; [exists (m ++ [10%Z]); rewrite app_assoc; reflexivity|exists m; reflexivity..].
Qed.
Lemma write_appends chunk w b : exists m, fst (ascii_write_e chunk w b) = mk_awriter (aw_out w ++ m) (aw_delimiter w) (aw_precision w) (aw_columns w).
Proof.
  unfold ascii_write_e. set (nc := _ / _). set (cb := repeat 0%Z _). clearbody cb.
  assert (X : forall ks cb out, exists m, snd (fst (foldE (ascii_write_chunk_e chunk w b) ks (cb, out))) = out ++ m).
  { induction ks as [|k ks IH]; intros cb0 out; cbn [foldE]; [exists []; now rewrite app_nil_r|].
    assert (Y : exists m, snd (fst (ascii_write_chunk_e chunk w b (cb0, out) k)) = out ++ m).
    { unfold ascii_write_chunk_e. destruct (slice_get cb0 0 _); cbn [before]; [|exists []; now rewrite app_nil_r..]. destruct (bf_get_point_range _ _ _ _); cbn [before]; [|exists []; now rewrite app_nil_r..].
      match goal with |- context [foldE ?g ?es out] => destruct (fold_appends g es) with (s := out) as (m & M) end; [intros s i; apply before_appends; intros p; apply point_appends|].
      unfold text in *. destruct (foldE _ _ out) as (o, x). exists m. exact M. }
    destruct Y as (m & Y). destruct (ascii_write_chunk_e chunk w b (cb0, out) k) as ((cb1, o), x). cbn [fst snd] in Y. subst o. destruct x; [|exists m; reflexivity..].
    destruct (IH cb1 (out ++ m)) as (m' & M'). exists (m ++ m'). now rewrite app_assoc. }
  destruct (X (range 0 nc) cb (aw_out w)) as (m & M). destruct (foldE _ _ _) as ((cb', o), x). cbn [fst snd] in M. subst o. exists m. reflexivity.
Qed.
Lemma after_errors_columns chunk format w : reachable_after_errors chunk format w -> columns_of format (aw_columns w).
Proof.
  intros (w0 & ops & N & ->). destruct (writer_new _ _ N) as (F & _). clear N. revert w0 F. induction ops as [|o ops IH]; intros w0 F; cbn [fold_left]; [exact F|]. apply IH.
  destruct o as [d|n|b]; [exact F|exact F|]. cbn [ascii_step_e]. destruct (write_appends chunk w0 b) as (m & ->). exact F.
Qed.

(* ---- a write that succeeds ---- *)
Lemma write_after_errors chunk format w b : 0 < chunk -> reachable_after_errors chunk format w -> bf_wf b -> only "sxyzirntpRGBedaI" format -> (aw_precision w = 0 -> only "sirncupRGBedaI" format) ->
  has_fields (bf_layout b) format ->
  exists w' lines, ascii_write_e chunk w b = (w', Ok tt) /\ aw_out w' = aw_out w ++ concat (map terminated lines)
    /\ Forall2 (point_line (aw_precision w) (bf_layout b) format (aw_delimiter w)) (bf_points b) lines.
Proof.
  intros C R W O P0 H. pose proof (after_errors_columns _ _ _ R) as F. pose proof (bf_points_uniform b W) as U.
  assert (X : exists lines, mapM (point_text w (bf_layout b)) (bf_points b) = Ok (map terminated lines)
    /\ Forall2 (point_line (aw_precision w) (bf_layout b) format (aw_delimiter w)) (bf_points b) lines).
  { assert (G : good_layout (bf_layout b)) by (destruct (bf_wf_root b W) as (_ & _ & _ & G); exact G). destruct U as [U _]. induction U as [|p ps Lp U IH]; [exists []; split; [reflexivity|constructor]|].
    destruct IH as (lines & E & FL). destruct (line_of w _ format p G Lp F O P0 H) as (line & E1 & PL). exists (line :: lines). cbn [mapM]. rewrite E1. cbn [bind]. rewrite E. split; [reflexivity|constructor; assumption]. }
  destruct X as (lines & E & FL). pose proof (ascii_write_eq chunk w b C W) as Q. rewrite E in Q. cbn [bind] in Q. pose proof (write_agrees chunk w b) as A. rewrite Q in A. cbn [agrees] in A.
  eexists _, lines. split; [exact A|]. split; [reflexivity|exact FL].
Qed.

(* ---- a write that fails ---- *)
Lemma columns_until w l p good c rest ts : aw_columns w = good ++ c :: rest -> Forall2 (fun c t => column_text (aw_precision w) l p c = Ok t) good ts ->
  column_text (aw_precision w) l p c = Err -> forall out, write_point_e w l p out = (out ++ concat (map (fun t => t ++ aw_delimiter w) ts), Err).
Proof.
  intros E F C out. unfold write_point_e. set (n := length (aw_columns w)).
  assert (X : forall good ts, Forall2 (fun c t => column_text (aw_precision w) l p c = Ok t) good ts -> forall i out, i + length (good ++ c :: rest) = n ->
    foldE (fun out e => let '(index, c) := e in
             before out (column_text (aw_precision w) l p c) (fun t =>
             (out ++ t ++ (if Nat.eqb index (n - 1) then [] else aw_delimiter w), Ok tt))) (combine (range i n) (good ++ c :: rest)) out
    = (out ++ concat (map (fun t => t ++ aw_delimiter w) ts), Err)).
  { induction 1 as [|c0 t good0 ts0 T F0 IH]; intros i o L; cbn [length app] in L; rewrite range_step by lia; cbn [app combine foldE].
    - rewrite C. cbn [before concat map]. now rewrite app_nil_r.
    - rewrite T. cbn [before]. rewrite IH by lia. rewrite app_length in L. cbn [length] in L. destruct (Nat.eqb_spec i (n - 1)); [lia|]. cbn [map concat]. now rewrite <- !app_assoc. }
  rewrite E at 1. rewrite (X good ts F 0 out) by (unfold n; rewrite E; reflexivity). reflexivity.
Qed.
Lemma column_shown w l format p : good_layout l -> length p = l_size l -> forall cols, columns_of format cols -> only "sxyzirntpRGBedaI" format -> (aw_precision w = 0 -> only "sirncupRGBedaI" format) -> has_fields l format ->
  exists ts, Forall2 (fun k t => column_text (aw_precision w) l p k = Ok t) cols ts /\ Forall2 (column_shows (aw_precision w) l p) format ts.
Proof.
  intros G L cols F O P0 H. induction F as [|c k format' cols C F IH]; [exists []; split; constructor|].
  destruct IH as (ts & T1 & T2).
  { intros x X. apply O. now right. } { intros E x X. apply (P0 E). now right. } { intros x a o pr flag X. apply (H x). now right. }
  pose proof (column_meaning c) as CM. rewrite C in CM. cbn [option_map] in CM.
  assert (T : exists t, column_text (aw_precision w) l p k = Ok t /\ column_shows (aw_precision w) l p c t).
  { unfold column_shows. rewrite CM. destruct (col_meaning k) as [|a o pr flag] eqn:K.
    - exists []. split; [|reflexivity]. destruct k; try discriminate K. reflexivity.
    - destruct (member_of l a) as [m|] eqn:M; [|destruct (H c a o pr flag (or_introl eq_refl) CM M)].
      destruct (column_text_ok (aw_precision w) l p k a o pr flag m G L) as (t & E & S); auto.
      { apply (honest_letter (c :: format') c k O (or_introl eq_refl) C). } { intros E. exact (integer_letter _ c k (P0 E) (or_introl eq_refl) C). }
      exists t. split; [exact E|]. exists (sub (attr_value m p) o (prim_size pr)). split; [|exact S]. unfold field_bytes. rewrite M. reflexivity. }
  destruct T as (t & E & S). exists (t :: ts). split; constructor; assumption.
Qed.
Lemma failed_write chunk good c rest w b a o pr flag : 0 < chunk -> reachable_after_errors chunk (good ++ c :: rest) w -> bf_wf b -> 0 < bf_len b -> only "sxyzirntpRGBedaI" (good ++ c :: rest) ->
  (aw_precision w = 0 -> only "sirncupRGBedaI" good) -> has_fields (bf_layout b) good -> meaning_of c = Some (Field a o pr flag) -> member_of (bf_layout b) a = None ->
  exists w' p ts, ascii_write_e chunk w b = (w', Err) /\ nth_error (bf_points b) 0 = Some p /\ Forall2 (column_shows (aw_precision w) (bf_layout b) p) good ts
    /\ aw_out w' = aw_out w ++ concat (map (fun t => t ++ aw_delimiter w) ts).
Proof.
  intros C R W LN O P0 H M N. pose proof (after_errors_columns _ _ _ R) as F. set (l := bf_layout b) in *.
  assert (G : good_layout l) by (destruct (bf_wf_root b W) as (_ & _ & _ & G); exact G). destruct (bf_points_uniform b W) as [U LU]. fold l in U.
  apply Forall2_app_inv_l in F. destruct F as (kg & kr & FG & FR & EK). inversion FR as [|c' k format' kr' CK FR']; subst.
  assert (EH : honest k) by (apply (honest_letter (good ++ c :: rest) c k O); [apply in_or_app; right; now left|exact CK]).
  assert (OG : only "sxyzirntpRGBedaI" good) by (intros x X; apply O, in_or_app; now left).
  assert (CE : forall p, length p = l_size l -> column_text (aw_precision w) l p k = Err).
  { intros p Lp. pose proof (column_meaning c) as CM. rewrite CK, M in CM. injection CM as CM. exact (column_text_missing _ _ _ k a o pr flag EH (eq_sym CM) N). }
  (* the first chunk *)
  unfold ascii_write_e. fold (chunks chunk (bf_len b)). destruct (chunks_bounds chunk (bf_len b) C) as [CB1 CB2]. set (nc := chunks chunk (bf_len b)) in *.
  assert (NC : 0 < nc) by (destruct nc; [exfalso; lia|lia]). rewrite range_step by exact NC. cbn [foldE]. unfold ascii_write_chunk_e at 1. cbn [Nat.mul Nat.add]. rewrite Nat.sub_0_r. fold l.
  set (m := Nat.min chunk (bf_len b)). assert (MM : m <= chunk /\ m <= bf_len b /\ 0 < m) by lia. set (cb := repeat 0%Z (chunk * l_size l)).
  assert (LCB : length cb = chunk * l_size l) by apply repeat_length. rewrite slice_get_ok by nia. cbn [before]. rewrite Nat.sub_0_r.
  destruct (chunk_points b 0 m (sub cb 0 (m * l_size l)) W ltac:(lia) ltac:(lia)) as (qs & E & A & LQ). { rewrite length_sub; [|fold l; nia]. fold l. f_equal. lia. }
  rewrite E. cbn [before]. rewrite Nat.sub_0_r in A, LQ. fold l in A.
  assert (UQ : uniform (l_size l) qs) by (clear -A; induction A; constructor; [exact (proj1 H)|assumption]).
  destruct qs as [|q qs]; [cbn [length] in LQ; lia|]. destruct (bf_points b) as [|p ps] eqn:BP; [cbn [length] in LU; lia|].
  assert (AG : agree l q p). { unfold sub in A. cbn [skipn] in A. destruct m; [lia|]. cbn [firstn] in A. now inversion A. }
  assert (LQ0 : length q = l_size l) by exact (proj1 AG). assert (LP0 : length p = l_size l) by exact (proj1 (proj2 AG)).
  assert (SQ : slice_get (blit cb 0 (concat (q :: qs))) (0 * l_size l) (0 * l_size l + l_size l) = Ok q).
  { cbn [Nat.mul Nat.add]. rewrite slice_get_ok; [|lia|].
    - f_equal. rewrite Nat.sub_0_r. unfold sub, blit. cbn [skipn firstn app concat Nat.add]. rewrite <- app_assoc, firstn_app, <- LQ0, Nat.sub_diag, firstn_all. cbn [firstn]. apply app_nil_r.
    - unfold blit. cbn [firstn app concat]. rewrite !app_length. lia. }
  rewrite range_step by lia. cbn [foldE]. rewrite SQ. cbn [before].
  destruct (column_shown w l good p G LP0 kg FG OG P0 H) as (ts & T1 & T2).
  assert (T1' : Forall2 (fun k t => column_text (aw_precision w) l q k = Ok t) kg ts).
  { clear -T1 G AG. induction T1 as [|k0 t0 ks0 ts0 X _ IH]; constructor; [rewrite (column_text_agree _ l q p k0 G AG); exact X|exact IH]. }
  rewrite (columns_until w l q kg k kr' ts EK T1' (CE q LQ0)). eexists _, p, ts. split; [reflexivity|]. split; [reflexivity|]. split; [exact T2|reflexivity].
Qed.

(* ---- reading on ---- *)
Lemma read_lines_until format cols d line : columns_of format cols -> ~ good_line format d line -> forall k n file b temp i,
  mb_wf b -> length temp = l_size (mb_layout b) -> zero_elsewhere (mb_layout b) format temp -> i + k <= mb_len b -> k < n ->
  nth_error (lines_of file) k = Some line -> Forall (good_line format d) (firstn k (lines_of file)) ->
  exists b' rest ps, read_lines_e cols d n i file temp b = ((b', rest), Err) /\ lines_of rest = skipn (S k) (lines_of file) /\ put_points b i ps b'
    /\ Forall2 (line_point (mb_layout b) format d) (firstn k (lines_of file)) ps.
Proof.
  intros F B. induction k as [|k IH]; intros n file b temp i W L Z LE LT NE GL; (destruct n as [|n]; [lia|]); cbn [read_lines_e]; rewrite lines_next in *; destruct (next_line file) as [[l0 rest]|] eqn:NX; try discriminate NE.
  - injection NE as ->. rewrite (parse_bad_line _ format cols d line temp (wf_good _ W) F L B). cbn [before]. exists b, rest, []. split; [reflexivity|]. split; [reflexivity|]. split; [apply put_nothing; exact W|constructor].
  - cbn [nth_error firstn] in NE, GL. inversion GL as [|? ? G1 G2]; subst.
    destruct (parse_line _ format cols d l0 temp (wf_good _ W) F L Z G1) as (p & E & LP). rewrite E. cbn [before].
    destruct (set_one b i p W ltac:(lia) (proj1 LP)) as (b1 & E1 & P1). rewrite E1. cbn [before]. pose proof P1 as (FR & _). destruct FR as (W1 & L1 & N1 & _).
    destruct (IH n rest b1 p (S i) W1) as (b' & rest' & ps & E2 & R2 & P2 & LP2).
    + rewrite L1. exact (proj1 LP).
    + rewrite L1. exact (line_point_zero _ _ _ _ _ LP).
    + rewrite N1. lia.
    + lia.
    + exact NE.
    + exact G2.
    + exists b', rest', (p :: ps). split; [exact E2|]. split; [exact R2|]. split.
      * apply (put_app b b1 b' i [p] ps P1). cbn [length]. rewrite Nat.add_1_r. exact P2.
      * cbn [firstn]. constructor; [exact LP|]. rewrite L1 in LP2. exact LP2.
Qed.
Lemma reads_on order file format d r b count k line : ascii_reader_new order file format d = Ok r -> mb_wf b -> k < count -> k <= mb_len b ->
  nth_error (lines_of file) k = Some line -> ~ good_line format d line -> Forall (good_line format d) (firstn k (lines_of file)) ->
  exists b' r' rest ps, ascii_read_into_e r b count = (b', r', Err) /\ ascii_reader_new order rest format d = Ok r' /\ lines_of rest = skipn (S k) (lines_of file)
    /\ mb_wf b' /\ mb_layout b' = mb_layout b /\ mb_points b' = ps ++ skipn (length ps) (mb_points b) /\ Forall2 (line_point (mb_layout b) format d) (firstn k (lines_of file)) ps.
Proof.
  intros R W LT LE NE B GL. destruct (reader_new _ _ _ _ _ R) as (F & _ & T & D).
  destruct (read_lines_until format (ar_columns r) d line F B k count file b (repeat 0%Z (l_size (mb_layout b))) 0 W) as (b' & rest & ps & E & RL & P & LP); auto.
  { apply repeat_length. } { apply zeros_elsewhere. }
  exists b', (mk_areader rest (ar_delimiter r) (ar_layout r) (ar_columns r)), rest, ps. unfold ascii_read_into_e. rewrite D, T, E.
  split; [reflexivity|]. split; [pose proof (reader_same _ _ rest _ _ _ R) as Q; rewrite D in Q; exact Q|]. split; [exact RL|].
  pose proof P as (FR & _). destruct FR as (W1 & L1 & N1 & _). split; [exact W1|]. split; [exact L1|]. split; [|exact LP].
  rewrite (put_fits b 0 ps b' W P); [reflexivity| |].
  - apply Forall2_len in LP. rewrite firstn_length in LP. cbn [plus]. lia.
  - intros x I. assert (Q : exists line, line_point (mb_layout b) format d line x).
    { clear - LP I. induction LP; [destruct I|]. destruct I as [<-|I]; [eauto|auto]. }
    destruct Q as [line0 LPx]. exact (stored_zero b x format (wf_good _ W) (proj1 LPx) (line_point_zero _ _ _ _ _ LPx)).
Qed.
