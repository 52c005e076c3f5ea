(* Proofs about writers whose format is not known to the program. *)
From Coq Require Import String List ZArith Lia Bool Arith Permutation SpecFloat.
From Verif Require Import Base LayoutModel LayoutSpec ListLemmas BufferModel BufferSpec TraitModel TraitSpec NumModel NumSpec ConvModel ConvSpec MathModel LasModel LasSpec LasIoModel LasIoSpec
  ViewsProofs TraitProofs2 LasIoProofs5 LasIoProofs10 LasIoProofs11 LasIoProofs12 PntsProofs3 PntsProofs8 LasProofs2 PntsModel PntsSpec PntsProofs11 InfoModel PathModel PathSpec PathProofs GenericModel GenericSpec GenericProofs GenericWriteModel GenericWriteSpec.
Import ListNotations.
Open Scope nat_scope.

Lemma las_points ops : map snd (LasIoSpec.written ops) = points_of ops.
Proof.
  unfold LasIoSpec.written, points_of. induction ops as [|o ops IH]; [reflexivity|]. cbn [flat_map map concat]. rewrite map_app, IH. f_equal.
  destruct o as [b|]; [|reflexivity]. rewrite map_map. cbn [snd]. apply map_id.
Qed.
Lemma las_history c chunk ops : forall w, foldM (generic_write_step c chunk) ops (ToLas w) = let* w' := run_writer chunk w ops in Ok (ToLas w').
Proof.
  unfold run_writer. induction ops as [|o ops IH]; intros w; [reflexivity|]. cbn [foldM]. destruct o as [b|]; cbn [generic_write_step generic_write generic_flush write_step].
  - destruct (las_write chunk w b); cbn [bind]; [apply IH|reflexivity..].
  - cbn [bind]. apply IH.
Qed.
Lemma las_reads_back extended t l points chunk calls : forall r r' es i, run_reader chunk r (map las_call calls) = Ok (r', es) ->
  reads_back extended t l points i (map las_call calls) es ->
  exists ges last, run_generic chunk (OfLas r) calls = Ok (OfLas r', ges)
  /\ one_cursor (length points) (fun i n _ b' => holds_back extended t l (firstn n (skipn i points)) b') i calls ges last.
Proof.
  induction calls as [|k calls IH]; intros r r' es i E H.
  - cbn [map run_reader] in E. injection E as <- <-. exists [], i. split; reflexivity.
  - destruct k as [s|b count]; cbn [map las_call run_reader read_step] in E; cbn [run_generic generic_step generic_seek_point generic_read_into].
    + destruct (las_seek_point r s) as [(r1, j)| |]; cbn [bind] in E |- *; [|discriminate..].
      destruct (run_reader chunk r1 (map las_call calls)) as [(r2, es2)| |] eqn:E2; cbn [bind] in E; [|discriminate..]. injection E as <- <-.
      cbn [map las_call reads_back] in H. destruct H as [T H]. destruct (IH _ _ _ _ E2 H) as (ges & last & R & C). exists (Reached j :: ges), last. rewrite R. cbn [bind one_cursor].
      split; [reflexivity|]. split; [now apply seek_target_leads|exact C].
    + destruct (las_read_into chunk r b count) as [((b1, r1), n)| |]; cbn [bind] in E |- *; [|discriminate..]. destruct n as [n|]; cbn [bind] in E |- *; [|discriminate].
      destruct (run_reader chunk r1 (map las_call calls)) as [(r2, es2)| |] eqn:E2; cbn [bind] in E; [|discriminate..]. injection E as <- <-.
      cbn [map las_call reads_back] in H. destruct H as (N & F & H). destruct (IH _ _ _ _ E2 H) as (ges & last & R & C). exists (Filled b1 n :: ges), last. rewrite R. cbn [bind one_cursor]. auto.
Qed.
Lemma las_written_read c order chunk chunk' d stem ext n l0 ops d' calls : proper stem ext -> las_extension ext -> 0 < chunk -> ops_wf ops -> ops_layout l0 ops ->
  format_to_u8 (las_point_format_from_point_layout l0) = Ok n -> las_type_layout n = Ok l0 -> (ext = "laz"%string -> n <> 9 /\ n <> 10) ->
  write_history c order chunk d (named stem ext) l0 (ops ++ [LasIoSpec.Flush]) = Ok d' ->
  record_length n <= chunk' -> (Z.of_nat (length (points_of ops)) < 2 ^ 63)%Z -> reads_ok l0 (length (points_of ops)) 0 (map las_call calls) ->
  exists g g' es last, open_file c d' (named stem ext) = Ok g /\ run_generic chunk' g calls = Ok (g', es)
  /\ one_cursor (length (points_of ops)) (fun i n' _ b' => holds_back (Nat.ltb 5 n) default_transforms l0 (firstn n' (skipn i (points_of ops))) b') 0 calls es last.
Proof.
  intros P L CH W OL F LT NZ E CH' B RD.
  assert (C : path_is_compressed_las_file (named stem ext) = Ok (String.eqb ext "laz")) by (destruct P as (S & E' & D); now apply compressed_of_named).
  assert (K := las_kind stem ext P L). unfold write_history, create_file in E. rewrite K in E. cbn [bind] in E. rewrite C in E. cbn [bind] in E.
  unfold open_writer_for_layout in E. rewrite F in E. cbn [bind] in E. destruct (open_writer _ _ _ _ _) as [w0| |] eqn:O; cbn [bind] in E; [|discriminate..].
  rewrite las_history in E. destruct (run_writer chunk w0 (ops ++ [LasIoSpec.Flush])) as [w| |] eqn:R'; cbn [bind] in E; [|discriminate..]. cbn [generic_drop bind] in E. injection E as <-.
  pose proof (chosen_format _ _ F) as FN. rewrite <- las_points in *. rewrite map_length in B, RD.
  destruct (header_same _ _ _ _ _ _ _ _ _ _ FN CH W O R') as (_ & _ & HL).
  destruct (round_trip _ n _ _ _ _ chunk ops w0 w l0 false chunk' (map las_call calls) FN CH W O LT OL R') as (r & r' & es & OR & RR & RB); auto.
  { intros X. apply NZ. now apply String.eqb_eq. }
  destruct (las_reads_back _ _ _ _ chunk' calls r r' es 0 RR RB) as (ges & last & RG & OC). exists (OfLas r), (OfLas r'), ges, last.
  split; [|split; [exact RG|exact OC]]. unfold open_file. rewrite K. cbn [bind]. rewrite C. cbn [bind]. rewrite put_same.
  change (f_laz (writer_file w)) with (w_laz w). rewrite HL, Bool.eqb_reflx, OR. reflexivity.
Qed.

Definition pnts_op (o : write_op) : writer_call := match o with LasIoSpec.Write b => PntsSpec.Write b | LasIoSpec.Flush => PntsSpec.Flush end.
Lemma pnts_history c chunk ops : forall w, foldM (generic_write_step c chunk) ops (ToPnts w) = let* w' := foldM (writer_step c) (map pnts_op ops) w in Ok (ToPnts w').
Proof.
  induction ops as [|o ops IH]; intros w; [reflexivity|]. cbn [foldM map]. destruct o as [b|]; cbn [generic_write_step generic_write generic_flush pnts_op writer_step].
  - destruct (write w b); cbn [bind]; [apply IH|reflexivity..].
  - destruct (flush c w); cbn [bind]; [apply IH|reflexivity..].
Qed.
Lemma all_before ops : flushed_last ops -> PntsSpec.written (before_flush (map pnts_op ops)) = points_of ops.
Proof.
  unfold PntsSpec.written, points_of. induction ops as [|o ops IH]; [reflexivity|]. destruct o as [b|]; cbn [flushed_last map pnts_op before_flush concat].
  - intros H. now rewrite IH.
  - intros H. clear IH. cbn [app]. induction H as [|o ops -> H IH]; [reflexivity|]. cbn [map concat app]. exact IH.
Qed.
Lemma no_centre ops : centre_set (before_flush (map pnts_op ops)) = None.
Proof. unfold centre_set. induction ops as [|o ops IH]; [reflexivity|]. destruct o; cbn [map pnts_op before_flush fold_left]; [exact IH|reflexivity]. Qed.
Lemma read_came_back r l lb ps i p old q : holds r l ps -> nth_error ps i = Some p -> point_read r lb i old q -> PntsSpec.came_back l lb p old q.
Proof.
  intros (HN & HV & HR) Hp (A1 & A2). split.
  - intros m key t tm Hm S Ht NM. destruct (HV m key t Hm S) as (rm & Hr & N1 & T1 & V1). exists (file_value r rm i). split; [exact (V1 i p Hp)|]. rewrite <- T1. apply (A1 rm tm Hr Ht). congruence.
  - intros tm Ht NO. apply A2; [exact Ht|]. intros X. apply in_map_iff in X. destruct X as (rm & NR & Hr). destruct (HR rm Hr) as (sm & key & Hs & NS & S). apply (NO sm key (m_type rm) Hs S). congruence.
Qed.
Lemma file_fits r l ps lb : holds r l ps -> file_readable lb -> PntsSpec.readable r lb.
Proof.
  intros (_ & _ & HR) FR m tm Hm Ht NM. destruct (HR m Hm) as (sm & key & Hs & NS & S). rewrite NS, NM in S. destruct (FR tm key _ Ht S) as [E|E]; [left; now symmetry|right; exact E].
Qed.
Lemma within_fits r l ps calls : holds r l ps -> pr_rtc r = None -> forall i, reads_within (pr_num r) i calls ->
  calls_fit r i Absolute (map pnts_call calls) /\ points_left (pr_num r) i calls.
Proof.
  intros H RT. induction calls as [|k calls IH]; intros i RW; [split; exact I|]. destruct k as [s|b count]; cbn [reads_within] in RW; cbn [map pnts_call calls_fit points_left].
  - destruct RW as (SF & j & LJ & RW). destruct (IH j RW) as (A & B). assert (T := proj2 (target_leads _ _ _ _) LJ). rewrite T. split; [split; assumption|]. exists j. split; assumption.
  - destruct RW as (N & W & LB & FR & RW). rewrite (Nat.min_comm (pr_num r - i) count). destruct (IH _ RW) as (A & B). split; [|split; assumption]. split; [|exact A]. intros _.
    assert (NC : centre_added r Absolute = None) by exact RT. split; [|intros X; now destruct X].
    split; [exact W|]. split; [exact LB|]. split; [exact (file_fits r l ps _ H FR)|]. intros X. now destruct X.
Qed.
Lemma cursor_weaker num (got got' : nat -> nat -> mbuf -> mbuf -> Prop) calls : (forall i n b b', i + n <= num -> got i n b b' -> got' i n b b') ->
  forall i es last, i <= num -> one_cursor num got i calls es last -> one_cursor num got' i calls es last.
Proof.
  intros G. induction calls as [|k calls IH]; intros i es last LE H; destruct es as [|e es]; cbn [one_cursor] in *; try (destruct k; contradiction); try contradiction; [exact H|].
  destruct k as [s|b count], e as [j|b' n]; try contradiction.
  - destruct H as (A & B). split; [exact A|]. apply IH; [destruct A as [_ ->]; lia|exact B].
  - destruct H as (A & B & C). split; [exact A|]. split; [apply G; [lia|exact B]|]. apply IH; [lia|exact C].
Qed.
Lemma pnts_written_read c reread order chunk chunk' d stem ext l ops d' calls : json_ok c reread -> (forall x, Permutation (order x) x) -> proper stem ext -> pnts_extension ext ->
  good_layout l -> pnts_ready l -> ops_wf ops -> ops_layout l ops -> flushed_last ops -> write_history c order chunk d (named stem ext) l ops = Ok d' ->
  (Z.of_nat (length (points_of ops)) < 2 ^ 63)%Z -> reads_within (length (points_of ops)) 0 calls ->
  exists g g' es last, open_file c d' (named stem ext) = Ok g /\ run_generic chunk' g calls = Ok (g', es)
  /\ one_cursor (length (points_of ops)) (points_back l (points_of ops)) 0 calls es last.
Proof.
  intros J PM P L G RD W OL FL E B RW. assert (K := pnts_kind stem ext P L). unfold write_history, create_file in E. rewrite K in E. cbn [bind] in E.
  destruct (writer_new order l) as [w0| |] eqn:N; cbn [bind] in E; [|discriminate..]. rewrite pnts_history in E.
  destruct (foldM (writer_step c) (map pnts_op ops) w0) as [w| |] eqn:R; cbn [bind] in E; [|discriminate..]. cbn [generic_drop] in E.
  destruct (flush c w) as [w'| |] eqn:FW; cbn [bind] in E; [|discriminate..]. injection E as <-.
  assert (OK : Forall (call_ok l) (map pnts_op ops)).
  { clear - W OL. unfold ops_wf in W. unfold ops_layout in OL. induction ops as [|o ops IH]; [constructor|]. inversion_clear W. inversion_clear OL. cbn [map]. constructor; [|auto]. destruct o; [split; assumption|exact I]. }
  destruct (reopened c reread l order (map pnts_op ops) w0 w' J PM G RD OK N) as (r & O & RO & H & RT & IX & MO); [unfold run_and_drop; rewrite R; exact FW|].
  rewrite (all_before ops FL) in H. rewrite no_centre in RT. cbn [option_map] in RT. pose proof (proj1 H) as NUM.
  assert (OF : open_file c (put d (named stem ext) (Bytes (pw_out w'))) (named stem ext) = Ok (OfPnts r)) by (unfold open_file; rewrite K; cbn [bind]; rewrite put_same, O; reflexivity).
  rewrite <- NUM in *. destruct (within_fits r l (points_of ops) calls H RT 0 RW) as (CF & PL).
  destruct (pnts_generic c chunk' _ stem ext (pw_out w') r (OfPnts r) calls P L (put_same _ _ _) OF O RO B CF PL) as (g' & es & last & RG & OC & _). exists (OfPnts r), g', es, last.
  split; [exact OF|]. split; [exact RG|]. revert OC. apply cursor_weaker; [|lia]. intros i n b b' LE (W' & SO & LP & V). split; [exact W'|]. split; [exact SO|]. split; [exact LP|].
  intros k old q Ho Hq. destruct (V k old q Ho Hq) as (V1 & V2). split; [|exact V2]. intros LK. specialize (V1 LK). cbn [centre_added] in V1. rewrite RT in V1.
  destruct (nth_error (points_of ops) (i + k)) as [p|] eqn:Hp; [|apply nth_error_None in Hp; lia]. exists p. split; [reflexivity|]. exact (read_came_back r l _ _ _ p old q H Hp V1).
Qed.

(* ---- which writes succeed ---- *)
Lemma las_total c order chunk d stem ext n l ops : proper stem ext -> las_extension ext -> 0 < chunk -> ops_wf ops ->
  format_to_u8 (las_point_format_from_point_layout l) = Ok n -> (forall p, In p (LasIoSpec.written ops) -> representable n default_transforms (fst p) (snd p)) ->
  exists d', write_history c order chunk d (named stem ext) l ops = Ok d'.
Proof.
  intros P L CH W F REP. assert (C : path_is_compressed_las_file (named stem ext) = Ok (String.eqb ext "laz")) by (destruct P as (S & E' & D); now apply compressed_of_named).
  unfold write_history, create_file. rewrite (las_kind stem ext P L). cbn [bind]. rewrite C. cbn [bind]. unfold open_writer_for_layout. rewrite F. cbn [bind].
  pose proof (chosen_format _ _ F) as FN. destruct (open_plain (String.eqb ext "laz") n _ default_transforms [] None FN default_scale_not_zero) as (w0 & O). rewrite O. cbn [bind].
  rewrite las_history. destruct (writer_total _ n _ _ _ _ chunk ops w0 FN CH W O REP) as (w & R). rewrite R. cbn [bind generic_drop]. eauto.
Qed.
Lemma ops_calls l ops : ops_wf ops -> ops_layout l ops -> Forall (call_ok l) (map pnts_op ops).
Proof.
  unfold ops_wf, ops_layout. intros W OL. induction ops as [|o ops IH]; [constructor|]. inversion_clear W. inversion_clear OL. cbn [map]. constructor; [|auto]. destruct o; [split; assumption|exact I].
Qed.
Lemma before_at_most ops : length (PntsSpec.written (before_flush (map pnts_op ops))) <= length (points_of ops).
Proof.
  unfold PntsSpec.written, points_of. induction ops as [|o ops IH]; [cbn; lia|]. destruct o; cbn [map pnts_op before_flush concat]; [rewrite !app_length; lia|cbn [length]; lia].
Qed.
Lemma pnts_total c order chunk d stem ext l ops k : (forall x, Permutation (order x) x) -> proper stem ext -> pnts_extension ext -> good_layout l -> pnts_ready l ->
  ops_wf ops -> ops_layout l ops -> tables_within c k -> (28 + 2 * (Z.of_nat k + 7) + 4 * (12 * Z.of_nat (length (points_of ops)) + 7) < 2 ^ 32)%Z ->
  exists d', write_history c order chunk d (named stem ext) l ops = Ok d'.
Proof.
  intros PM P L G RD W OL TW B. unfold write_history, create_file. rewrite (pnts_kind stem ext P L). cbn [bind].
  destruct (writer_new_ok order l PM G RD) as (w0 & N & _). rewrite N. cbn [bind]. rewrite pnts_history. pose proof (before_at_most ops) as LE.
  destruct (history_fits c l order (map pnts_op ops) k w0 PM G RD (ops_calls l ops W OL) TW) as (w & R); [lia|exact N|]. unfold run_and_drop in R.
  destruct (foldM (writer_step c) (map pnts_op ops) w0) as [w1| |]; cbn [bind] in R |- *; [|discriminate..]. cbn [generic_drop]. rewrite R. cbn [bind]. eauto.
Qed.
Lemma pnts_write_all_total c order chunk d stem ext b k : (forall x, Permutation (order x) x) -> proper stem ext -> pnts_extension ext -> bf_wf b -> pnts_ready (bf_layout b) ->
  tables_within c k -> (28 + 2 * (Z.of_nat k + 7) + 4 * (12 * Z.of_nat (bf_len b) + 7) < 2 ^ 32)%Z -> exists d', write_all_file c order chunk d (named stem ext) b = (d', Ok tt).
Proof.
  intros PM P L W RD TW B. assert (G := bf_good b W). destruct (bf_points_uniform b W) as [_ LP].
  destruct (writer_new_ok order (bf_layout b) PM G RD) as (w0 & N & _).
  destruct (history_fits c (bf_layout b) order [PntsSpec.Write b; PntsSpec.Flush] k w0 PM G RD) as (w & R); [constructor; [split; [exact W|reflexivity]|constructor; [exact I|constructor]]|exact TW| |exact N|].
  - unfold PntsSpec.written. cbn [before_flush map concat]. rewrite app_nil_r, LP. exact B.
  - unfold write_all_file. rewrite (pnts_kind stem ext P L), N. cbn [or_leave]. unfold run_and_drop in R. cbn [foldM writer_step] in R.
    destruct (write w0 b) as [w1| |]; cbn [bind or_leave] in R |- *; [|discriminate..]. destruct (flush c w1) as [w2| |]; cbn [bind or_leave] in R |- *; [|discriminate..].
    rewrite R. cbn [or_leave]. eauto.
Qed.
