(* Points written to a PNTS file and read again. *)
From Coq Require Import String List ZArith Lia Bool Arith Permutation SpecFloat.
From Verif Require Import Base LayoutModel LayoutSpec LayoutProofs BufferModel BufferSpec ListLemmas BufferProofs BufferSteps BufferSteps2
  TraitModel TraitSpec TraitProofs2 TraitProofs3 NumModel NumSpec NumProofs ConvModel ConvSpec ConvProofs5 MathModel LasIoModel LasIoProofs
  PntsModel PntsSpec PntsProofs PntsProofs2 PntsProofs3 PntsProofs4 PntsProofs5 PntsProofs6 PntsProofs7 PntsProofs8 PntsProofs9 PntsProofs10.
Import ListNotations.
Open Scope nat_scope.

Lemma reopened c reread l order calls w0 w : json_ok c reread -> (forall x, Permutation (order x) x) -> good_layout l -> pnts_ready l -> Forall (call_ok l) calls ->
  writer_new order l = Ok w0 -> run_and_drop c w0 calls = Ok w ->
  exists r, from_read c (pw_out w) = Ok r /\ reader_ok r /\ holds r l (written (before_flush calls))
    /\ pr_rtc r = option_map (map_p3 reread) (centre_set (before_flush calls)) /\ pr_index r = 0 /\ pr_mode r = Absolute.
Proof.
  intros J P G RD OK NW RW. destruct (file_written c reread l order calls J P G RD OK) as (w0' & E & H). rewrite NW in E. injection E as <-. specialize (H w RW).
  destruct (opened_file _ _ _ _ _ H G RD) as (r & E & HO & C & GR & BY & RT & IX & MO). exists r. split; [exact E|]. split; [split; [exact GR|split; [exact C|lia]]|]. auto.
Qed.

Lemma read_all_back r l ps b : reader_ok r -> holds r l ps -> pr_index r = 0 -> good_layout l -> mb_wf b -> mb_len b = length ps -> 0 < length ps -> file_readable (mb_layout b) ->
  exists b' r', read_into (set_read_positions_mode r RelativeToCenter) b (length ps) = Ok (length ps, b', r')
    /\ mb_wf b' /\ same_outside b b' /\ length (mb_points b') = length ps /\ pr_index r' = length ps
    /\ forall i p old q, nth_error ps i = Some p -> nth_error (mb_points b) i = Some old -> nth_error (mb_points b') i = Some q -> came_back l (mb_layout b) p old q.
Proof.
  intros RO (HN & HV & HR) IX GL W LB N0 FR. set (r1 := set_read_positions_mode r RelativeToCenter).
  assert (RO1 : reader_ok r1) by exact RO.
  assert (RD : readable r1 (mb_layout b)).
  { intros m tm Hm Ht NM. destruct (HR m Hm) as (sm & key & Hs & NS & S). rewrite NS, NM in S. destruct (FR tm key _ Ht S) as [E|E]; [left; now symmetry|right; exact E]. }
  assert (MN : Nat.min (pr_num r1 - pr_index r1) (length ps) = length ps) by (change (pr_num r1) with (pr_num r); change (pr_index r1) with (pr_index r); lia).
  destruct (read_into_ok r1 b (length ps) RO1) as (b' & E & W' & S' & L' & V).
  - rewrite MN. exact N0.
  - rewrite MN. split; [exact W|]. split; [lia|]. split; [exact RD|]. intros X. destruct X. reflexivity.
  - rewrite MN in E, V. exists b', (after_read r1 (length ps)). split; [exact E|]. split; [exact W'|]. split; [exact S'|].
    destruct (bf_points_uniform (Of b) W) as [U LU]. change (bf_points (Of b)) with (mb_points b) in *. change (bf_len (Of b)) with (mb_len b) in LU.
    split; [lia|]. split; [cbn [after_read pr_index]; change (pr_index r1) with (pr_index r); lia|]. intros i p old q Hp Ho Hq. destruct (V i old q Ho Hq) as (p' & A & _ & C). cbn [r1 set_read_positions_mode pr_mode centre_added] in C. subst p'.
    assert (Hi : i < length ps) by (apply nth_error_lt in Hp; exact Hp). destruct (A Hi) as (A1 & A2). change (pr_index r1) with (pr_index r) in A1. rewrite IX in A1. cbn [Nat.add] in A1. split.
    + intros m key t tm Hm S Ht NM. destruct (HV m key t Hm S) as (rm & Hr & N1 & T1 & V1). exists (file_value r rm i). split; [exact (V1 i p Hp)|]. rewrite <- T1. apply (A1 rm tm Hr Ht). congruence.
    + intros tm Ht NO. apply A2; [exact Ht|]. intros X. apply in_map_iff in X. destruct X as (rm & NR & Hr). destruct (HR rm Hr) as (sm & key & Hs & NS & S). apply (NO sm key (m_type rm) Hs S). congruence.
Qed.

Lemma before_flush_none ws : ~ In Flush ws -> before_flush ws = ws.
Proof. induction ws as [|k ws IH]; intros N; [reflexivity|]. destruct k; cbn [before_flush]; try (rewrite IH; [reflexivity|intros X; apply N; now right]). destruct N. now left. Qed.
Lemma before_flush_app ws rest : ~ In Flush ws -> before_flush (ws ++ Flush :: rest) = ws.
Proof. induction ws as [|k ws IH]; intros N; [reflexivity|]. destruct k; cbn [app before_flush]; try (rewrite IH; [reflexivity|intros X; apply N; now right]). destruct N. now left. Qed.
Lemma points_survive c reread order l ws calls w0 w b : 
  json_ok c reread -> (forall x, Permutation (order x) x) -> good_layout l -> pnts_ready l -> Forall (call_ok l) ws ->
  ~ In Flush ws -> calls = ws \/ calls = ws ++ [Flush] ->
  writer_new order l = Ok w0 -> run_and_drop c w0 calls = Ok w ->
  mb_wf b -> mb_len b = length (written ws) -> 0 < length (written ws) -> file_readable (mb_layout b) ->
  exists r b' r', from_read c (pw_out w) = Ok r /\ pr_num r = length (written ws) /\ pr_rtc r = option_map (map_p3 reread) (centre_set ws)
  /\ read_into (set_read_positions_mode r RelativeToCenter) b (length (written ws)) = Ok (length (written ws), b', r')
  /\ mb_wf b' /\ length (mb_points b') = length (written ws)
  /\ forall i p old q, nth_error (written ws) i = Some p -> nth_error (mb_points b) i = Some old -> nth_error (mb_points b') i = Some q ->
       came_back l (mb_layout b) p old q.
Proof.
  intros J P G RD OK NF EC N R W LB N0 FR. assert (BF : before_flush calls = ws) by (destruct EC as [-> | ->]; [now apply before_flush_none|now apply before_flush_app]).
  assert (OK' : Forall (call_ok l) calls) by (destruct EC as [-> | ->]; [exact OK|apply Forall_app; split; [exact OK|constructor; [exact I|constructor]]]).
  destruct (reopened c reread l order calls w0 w J P G RD OK' N R) as (r & E & RO & H & RT & IX & _). rewrite BF in H, RT.
  destruct (read_all_back r l (written ws) b RO H IX G W LB N0 FR) as (b' & r' & RE & W' & _ & L' & _ & V). exists r, b', r'.
  split; [exact E|]. split; [exact (proj1 H)|]. split; [exact RT|]. split; [exact RE|]. split; [exact W'|]. split; [exact L'|exact V].
Qed.

Lemma lost_points c reread order l ws p w0 w : json_ok c reread -> (forall x, Permutation (order x) x) -> good_layout l -> pnts_ready l -> Forall (call_ok l) (ws ++ [Flush; Write p]) ->
  writer_new order l = Ok w0 -> run_and_drop c w0 (ws ++ [Flush; Write p]) = Ok w -> bf_points p <> [] ->
  exists r, from_read c (pw_out w) = Ok r /\ pr_num r < length (written (ws ++ [Flush; Write p])).
Proof.
  intros J P G RD OK N R NE. destruct (reopened c reread l order _ w0 w J P G RD OK N R) as (r & E & _ & (H & _) & _). exists r. split; [exact E|]. rewrite H.
  assert (X : length (written (before_flush (ws ++ [Flush; Write p]))) <= length (written ws)).
  { clear. unfold written. induction ws as [|k ws IH]; [cbn; lia|]. destruct k; cbn [app before_flush map concat]; rewrite ?app_length; cbn [length]; lia. }
  unfold written in *. rewrite map_app, concat_app, app_length. cbn [map concat app]. rewrite app_nil_r. destruct (bf_points p); [contradiction|]. cbn [length]. lia.
Qed.

Lemma cursor r calls : reader_ok r -> (Z.of_nat (pr_num r) < 2 ^ 63)%Z -> calls_fit r (pr_index r) (pr_mode r) calls ->
  exists r' es, run_calls r calls = Ok (r', es) /\ pr_index r' <= pr_num r
  /\ cursor_history r (pr_index r) (pr_mode r) calls es (pr_index r') (pr_mode r').
Proof.
  intros RO B F. destruct (reads_like_cursor r calls RO B (pr_index r) (pr_mode r) (proj2 (proj2 RO)) F) as (es & last & m' & E & L & H).
  exists (at_point r last m'), es. split; [|split; [exact L|exact H]]. rewrite <- E. f_equal. now destruct r.
Qed.

Lemma rest_moved r b count c : reader_ok r -> pr_mode r = Absolute -> pr_rtc r = Some c ->
  0 < Nat.min (pr_num r - pr_index r) count -> fits r Absolute (Nat.min (pr_num r - pr_index r) count) b ->
  exists b' r', read_into r b count = Ok (Nat.min (pr_num r - pr_index r) count, b', r')
  /\ forall k old q, nth_error (mb_points b) k = Some old -> nth_error (mb_points b') k = Some q ->
       Nat.min (pr_num r - pr_index r) count <= k -> point_moved (mb_layout b) c old q.
Proof.
  intros RO M RC N0 F. rewrite <- M in F. destruct (read_into_ok r b count RO N0 F) as (b' & E & _ & _ & _ & V). exists b'. eexists. split; [exact E|].
  intros k old q H1 H2 H3. destruct (V k old q H1 H2) as (p & _ & B & C). rewrite (B H3) in C. unfold centre_added in C. rewrite M, RC in C. exact (proj1 C).
Qed.

Lemma seek_overflow r : 0 < pr_num r -> (Z.of_nat (pr_num r) < 2 ^ 63)%Z -> seek_point r (FromEnd (2 ^ 63 - 1)) = Panic.
Proof.
  intros P B. unfold seek_point, add_to_index, i64_add. destruct (Z.ltb_spec (Z.of_nat (pr_num r)) (2 ^ 63)); [|lia]. destruct (Z.ltb_spec (Z.of_nat (pr_num r) + (2 ^ 63 - 1)) (2 ^ 63)); [lia|].
  now rewrite andb_false_r.
Qed.
