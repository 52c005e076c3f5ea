(* Proofs about readers whose format is not known to the program. *)
From Coq Require Import String List ZArith Lia Bool Arith SpecFloat.
From Verif Require Import Base LayoutModel LayoutSpec BufferModel BufferSpec TraitModel TraitSpec NumModel NumSpec ConvModel ConvSpec MathModel LasModel LasSpec LasIoModel LasIoSpec
  LasIoProofs11 PntsModel PntsSpec PntsProofs10 InfoModel PathModel PathSpec PathProofs GenericModel GenericSpec.
Import ListNotations.
Open Scope nat_scope.

Lemma target_leads num i s j : target num i s = Some j <-> leads_to num i s j.
Proof.
  unfold target, leads_to. cbv zeta. set (z := match s with FromStart k => k | FromEnd k => (Z.of_nat num + k)%Z | FromCurrent k => (Z.of_nat i + k)%Z end).
  destruct (Z.ltb_spec z 0); split; intros H'; [discriminate|lia|injection H' as <-; lia|destruct H' as [_ ->]; reflexivity].
Qed.
Lemma seek_target_leads num i s j : seek_target num i s = Some j -> leads_to num i s j.
Proof.
  unfold seek_target, leads_to. cbv zeta. destruct s as [k|k|k]; destruct (_ || _) eqn:E; try discriminate; intros [= <-];
  apply Bool.orb_false_iff in E; destruct E as [E _]; apply Z.ltb_ge in E; (split; [exact E|reflexivity]).
Qed.

Lemma las_runs f raw chunk calls : forall r r' es i last, run_reader chunk r (map las_call calls) = Ok (r', es) ->
  cursor_run f raw i (map las_call calls) es last ->
  exists ges, run_generic chunk (OfLas r) calls = Ok (OfLas r', ges)
  /\ one_cursor (length (records f)) (fun i n b b' => filled f raw (firstn n (skipn i (records f))) b b') i calls ges last.
Proof.
  induction calls as [|k calls IH]; intros r r' es i last E H.
  - cbn [map run_reader] in E. injection E as <- <-. exists []. split; [reflexivity|exact H].
  - destruct k as [s|b count]; cbn [map las_call run_reader read_step] in E; cbn [run_generic generic_step generic_seek_point generic_read_into].
    + destruct (las_seek_point r s) as [(r1, j)| |]; cbn [bind] in E |- *; [|discriminate..].
      destruct (run_reader chunk r1 (map las_call calls)) as [(r2, es2)| |] eqn:E2; cbn [bind] in E; [|discriminate..]. injection E as <- <-.
      cbn [map las_call cursor_run] in H. destruct H as [T H]. destruct (IH _ _ _ _ _ E2 H) as (ges & R & C). exists (Reached j :: ges). rewrite R. cbn [bind one_cursor].
      split; [reflexivity|]. split; [now apply seek_target_leads|exact C].
    + destruct (las_read_into chunk r b count) as [((b1, r1), n)| |]; cbn [bind] in E |- *; [|discriminate..]. destruct n as [n|]; cbn [bind] in E |- *; [|discriminate].
      destruct (run_reader chunk r1 (map las_call calls)) as [(r2, es2)| |] eqn:E2; cbn [bind] in E; [|discriminate..]. injection E as <- <-.
      cbn [map las_call cursor_run] in H. destruct H as (N & F & H). destruct (IH _ _ _ _ _ E2 H) as (ges & R & C). exists (Filled b1 n :: ges). rewrite R. cbn [bind one_cursor]. auto.
Qed.
Lemma las_generic c chunk d stem ext f raw g calls : proper stem ext -> las_extension ext -> d (named stem ext) = Some (LasContent f) -> open_file c d (named stem ext) = Ok g ->
  file_ok f raw -> l_size raw <= chunk -> (Z.of_nat (length (records f)) < 2 ^ 63)%Z -> calls_ok f raw 0 (map las_call calls) ->
  exists g' es last, run_generic chunk g calls = Ok (g', es)
  /\ one_cursor (length (records f)) (fun i n b b' => filled f raw (firstn n (skipn i (records f))) b b') 0 calls es last
  /\ generic_point_index g' = Ok (g', last) /\ generic_point_count g' = Ok (g', length (records f)).
Proof.
  intros P L E O FO CH B C. unfold open_file in O. rewrite (las_kind stem ext P L) in O. cbn [bind] in O.
  destruct (path_is_compressed_las_file (named stem ext)) as [z| |]; cbn [bind] in O; [|discriminate..]. rewrite E in O. destruct (Bool.eqb z (f_laz f)); [|discriminate].
  destruct (open_reader f false) as [r| |] eqn:OR; cbn [bind] in O; [|discriminate..]. injection O as <-.
  destruct (cursor f raw chunk false r (map las_call calls) FO CH B OR C) as (r' & es & last & R & CU & PI & PC).
  destruct (las_runs f raw chunk calls r r' es 0 last R CU) as (ges & RG & OC). exists (OfLas r'), ges, last. split; [exact RG|]. split; [exact OC|].
  unfold generic_point_index. cbn [generic_seek_point generic_point_count]. unfold las_point_index in PI. rewrite PI, PC. split; reflexivity.
Qed.

Lemma pnts_runs chunk r0 m calls : forall r r' es i last m', run_calls r (map pnts_call calls) = Ok (r', es) ->
  cursor_history r0 i m (map pnts_call calls) es last m' -> points_left (pr_num r0) i calls ->
  exists ges, run_generic chunk (OfPnts r) calls = Ok (OfPnts r', ges) /\ one_cursor (pr_num r0) (points_read r0 m) i calls ges last /\ m' = m.
Proof.
  induction calls as [|k calls IH]; intros r r' es i last m' E H PL.
  - cbn [map run_calls] in E. injection E as <- <-. cbn [map cursor_history] in H. exists []. split; [reflexivity|exact H].
  - destruct k as [s|b count]; cbn [map pnts_call run_calls reader_step] in E; cbn [points_left] in PL; cbn [run_generic generic_step generic_seek_point generic_read_into].
    + destruct PL as (j' & LJ & PL). apply target_leads in LJ.
      destruct (seek_point r s) as [(j, r1)| |]; cbn [bind] in E |- *; [| |discriminate].
      * destruct (run_calls r1 (map pnts_call calls)) as [(r2, es2)| |] eqn:E2; cbn [bind] in E; [|discriminate..]. injection E as <- <-.
        cbn [map pnts_call cursor_history] in H. destruct H as [T H]. assert (j' = j) as -> by congruence. destruct (IH _ _ _ _ _ _ E2 H PL) as (ges & R & C & M).
        exists (Reached j :: ges). rewrite R. cbn [bind one_cursor]. split; [reflexivity|]. split; [|exact M]. split; [now apply target_leads|exact C].
      * exfalso. destruct (run_calls r (map pnts_call calls)) as [(r2, es2)| |]; cbn [bind] in E; [|discriminate..]. injection E as <- <-.
        cbn [map pnts_call cursor_history] in H. destruct H as [T _]. congruence.
    + destruct PL as (N0 & PL).
      destruct (read_into r b count) as [((n, b1), r1)| |]; cbn [bind] in E |- *; [| |discriminate].
      * destruct (run_calls r1 (map pnts_call calls)) as [(r2, es2)| |] eqn:E2; cbn [bind] in E; [|discriminate..]. injection E as <- <-.
        cbn [map pnts_call cursor_history] in H. destruct H as (N & _ & F & H). rewrite Nat.min_comm in N. rewrite <- N in PL. destruct (IH _ _ _ _ _ _ E2 H PL) as (ges & R & C & M).
        exists (Filled b1 n :: ges). rewrite R. cbn [bind one_cursor]. auto.
      * exfalso. destruct (run_calls r (map pnts_call calls)) as [(r2, es2)| |]; cbn [bind] in E; [|discriminate..]. injection E as <- <-.
        cbn [map pnts_call cursor_history] in H. destruct H as [T _]. lia.
Qed.
Lemma opened_at_start c bytes r : from_read c bytes = Ok r -> r = at_point r 0 Absolute.
Proof.
  unfold from_read. destruct (read_header bytes); cbn [bind]; [|discriminate..]. destruct (deser_feature_table_header _ _ _); cbn [bind]; [|discriminate..].
  destruct (layout_from_feature_table_header _); cbn [bind]; [|discriminate..]. destruct (metadata_from_feature_table_header _); cbn [bind]; [|discriminate..].
  destruct (mapM _ _); cbn [bind]; [|discriminate..]. intros [= <-]. reflexivity.
Qed.
Lemma seek_at r i s m : (Z.of_nat (pr_num r) < 2 ^ 63)%Z -> i <= pr_num r -> seek_fits (pr_num r) i s ->
  seek_point (at_point r i m) s = match target (pr_num r) i s with Some j => Ok (j, at_point r j m) | None => Err end.
Proof.
  intros B I F. assert (MM : forall z, (0 <= z)%Z -> Z.to_nat (Z.min z (Z.of_nat (pr_num r))) = Nat.min (pr_num r) (Z.to_nat z)) by (intros; lia).
  unfold seek_point, target, add_to_index, i64_add, at_point. cbn [pr_num pr_index pr_bytes pr_rtc pr_layout pr_offsets pr_mode].
  destruct s as [k|k|k]; cbn [seek_fits] in F; cbn [bind]; cbv zeta.
  - destruct (Z.ltb_spec k 0); [reflexivity|]. now rewrite MM.
  - destruct (Z.ltb_spec (Z.of_nat (pr_num r)) (2 ^ 63)); [|lia]. destruct (Z.leb_spec (- 2 ^ 63) (Z.of_nat (pr_num r) + k)); [|lia].
    destruct (Z.ltb_spec (Z.of_nat (pr_num r) + k) (2 ^ 63)); [|lia]. cbn [andb bind]. destruct (Z.ltb_spec (Z.of_nat (pr_num r) + k) 0); [reflexivity|]. now rewrite MM.
  - destruct (Z.ltb_spec (Z.of_nat i) (2 ^ 63)); [|lia]. destruct (Z.leb_spec (- 2 ^ 63) (Z.of_nat i + k)); [|lia].
    destruct (Z.ltb_spec (Z.of_nat i + k) (2 ^ 63)); [|lia]. cbn [andb bind]. destruct (Z.ltb_spec (Z.of_nat i + k) 0); [reflexivity|]. now rewrite MM.
Qed.
Lemma pnts_generic c chunk d stem ext bytes r g calls : proper stem ext -> pnts_extension ext -> d (named stem ext) = Some (Bytes bytes) -> open_file c d (named stem ext) = Ok g ->
  from_read c bytes = Ok r -> reader_ok r -> (Z.of_nat (pr_num r) < 2 ^ 63)%Z -> calls_fit r 0 Absolute (map pnts_call calls) -> points_left (pr_num r) 0 calls ->
  exists g' es last, run_generic chunk g calls = Ok (g', es) /\ one_cursor (pr_num r) (points_read r Absolute) 0 calls es last
  /\ generic_point_index g' = Ok (g', last) /\ generic_point_count g' = Ok (g', pr_num r).
Proof.
  intros P L E O FR RO B C PL. unfold open_file in O. rewrite (pnts_kind stem ext P L) in O. cbn [bind] in O. rewrite E, FR in O. cbn [bind] in O. injection O as <-.
  destruct (reads_like_cursor r (map pnts_call calls) RO B 0 Absolute (Nat.le_0_l _) C) as (es & last & m' & R & LE & CU). rewrite <- (opened_at_start c bytes r FR) in R.
  destruct (pnts_runs chunk r Absolute calls r _ es 0 last m' R CU PL) as (ges & RG & OC & ->). exists (OfPnts (at_point r last Absolute)), ges, last.
  split; [exact RG|]. split; [exact OC|].
  assert (S0 : seek_point (at_point r last Absolute) (FromCurrent 0) = Ok (last, at_point r last Absolute)).
  { rewrite seek_at by (cbn [seek_fits]; lia). assert (T : target (pr_num r) last (FromCurrent 0) = Some last) by (apply target_leads; unfold leads_to; lia). now rewrite T. }
  split; [unfold generic_point_index; cbn [generic_seek_point]; now rewrite S0|]. cbn [generic_point_count]. rewrite S0. cbn [bind].
  rewrite seek_at by (cbn [seek_fits]; lia). assert (T : target (pr_num r) last (FromEnd 0) = Some (pr_num r)) by (apply target_leads; unfold leads_to; lia). rewrite T. cbn [bind].
  rewrite seek_at by (cbn [seek_fits]; lia). assert (T' : target (pr_num r) (pr_num r) (FromStart (Z.of_nat last)) = Some last) by (apply target_leads; unfold leads_to; lia). now rewrite T'.
Qed.

(* where the formats differ *)
Lemma pnts_end chunk r b count : pr_index r = pr_num r -> generic_read_into chunk (OfPnts r) b count = Err.
Proof. intros E. cbn [generic_read_into]. unfold read_into. rewrite E, Nat.sub_diag. reflexivity. Qed.
