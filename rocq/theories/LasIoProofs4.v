(* Lemmas about the writers: histories of write and flush. *)
From Coq Require Import String List ZArith Lia Bool Arith SpecFloat ZifyBool ZifyNat ZifyN.
From Verif Require Import Base LayoutModel LayoutSpec LayoutProofs BufferModel BufferSpec ListLemmas BufferProofs TraitModel TraitSpec TraitProofs2
  NumModel ConvModel ConvSpec ConvProofs MathModel MathSpec MathProofs MathProofs2 LasModel LasSpec LasProofs LasProofs2 LasIoModel LasIoSpec
  LasIoProofs LasIoProofs2 LasIoProofs3.
Import ListNotations.
Open Scope nat_scope.

(* ---------- small facts ---------- *)
Lemma put_end (data bytes : list Z) pos : pos <= length data -> firstn (pos + length bytes) (put data pos bytes) = firstn pos data ++ bytes.
Proof.
  intros H. unfold put. rewrite app_assoc. rewrite firstn_app. rewrite app_length, firstn_length, Nat.min_l by lia.
  rewrite Nat.sub_diag, firstn_O, app_nil_r. apply firstn_all2. rewrite app_length, firstn_length. lia.
Qed.
Lemma put_keeps (data bytes : list Z) pos : pos <= length data -> firstn pos (put data pos bytes) = firstn pos data.
Proof.
  intros H. unfold put. rewrite firstn_app, firstn_length, Nat.min_l by lia. rewrite Nat.sub_diag, firstn_O, app_nil_r.
  apply firstn_all2. rewrite firstn_length. lia.
Qed.
Lemma length_put (data bytes : list Z) pos : pos <= length data -> length (put data pos bytes) = Nat.max (length data) (pos + length bytes).
Proof. intros H. unfold put. rewrite !app_length, firstn_length, skipn_length. lia. Qed.
Lemma put_all (data bytes : list Z) pos : pos <= length data -> length data <= pos + length bytes -> put data pos bytes = firstn pos data ++ bytes.
Proof. intros H1 H2. unfold put. rewrite (skipn_all2 data) by lia. now rewrite app_nil_r. Qed.

Lemma chunks_rest chunk len : 0 < chunk -> chunks chunk len * chunk - len = (chunk - len mod chunk) mod chunk.
Proof.
  intros C. pose proof (Nat.div_mod len chunk ltac:(lia)) as D. pose proof (Nat.mod_upper_bound len chunk ltac:(lia)) as M.
  unfold chunks. set (q := len / chunk) in *. set (r := len mod chunk) in *.
  destruct (Nat.eq_dec r 0) as [R|R].
  - rewrite R, Nat.sub_0_r, Nat.mod_same by lia. replace ((len + (chunk - 1)) / chunk) with q; [nia|].
    apply (Nat.div_unique _ _ _ (chunk - 1)); lia.
  - rewrite (Nat.mod_small (chunk - r)) by lia. replace ((len + (chunk - 1)) / chunk) with (q + 1); [nia|].
    apply (Nat.div_unique _ _ _ (r - 1)); lia.
Qed.

Lemma written_app a b : written (a ++ b) = written a ++ written b.
Proof. unfold written. now rewrite flat_map_app. Qed.
Lemma written_write b : written [Write b] = map (pair (bf_layout b)) (bf_points b).
Proof. unfold written. simpl. apply app_nil_r. Qed.
Lemma surplus_app laz chunk l a b : surplus laz chunk l (a ++ b) = surplus laz chunk l a + surplus laz chunk l b.
Proof. unfold surplus. rewrite map_app, list_sum_app. reflexivity. Qed.
Lemma in_layout_app l a b : in_layout l (a ++ b) = in_layout l a ++ in_layout l b.
Proof. unfold in_layout. apply filter_app. Qed.
Lemma with_return_app k a b : with_return k (a ++ b) = (with_return k a + with_return k b)%Z.
Proof. unfold with_return. rewrite filter_app, app_length. lia. Qed.
Lemma in_layout_write l b : in_layout l (map (pair (bf_layout b)) (bf_points b)) =
  if layout_eqb (bf_layout b) l then map (pair (bf_layout b)) (bf_points b) else [].
Proof.
  unfold in_layout. induction (bf_points b) as [|p ps IH]; simpl; [destruct (layout_eqb _ _); reflexivity|].
  rewrite IH. destruct (layout_eqb _ _); reflexivity.
Qed.

(* ---------- counts by return ---------- *)
Lemma count_return_map (g : nat -> Z) rn : count_return (map g (seq 1 15)) rn = map (fun k => (g k + (if rn =? Z.of_nat k then 1 else 0))%Z) (seq 1 15).
Proof.
  unfold count_return. destruct ((1 <=? rn) && (rn <=? 15))%Z eqn:R.
  - assert (L : (rn = 1 \/ rn = 2 \/ rn = 3 \/ rn = 4 \/ rn = 5 \/ rn = 6 \/ rn = 7 \/ rn = 8 \/ rn = 9 \/ rn = 10 \/ rn = 11 \/ rn = 12 \/ rn = 13 \/ rn = 14 \/ rn = 15)%Z) by lia.
    repeat (destruct L as [-> | L]; [cbn; rewrite ?Z.add_0_r; reflexivity|]). subst rn. cbn. rewrite ?Z.add_0_r. reflexivity.
  - apply map_ext_in. intros k K. apply in_seq in K. destruct (Z.eqb_spec rn (Z.of_nat k)); lia.
Qed.
Lemma counts_fold l ps : forall g, fold_left (step_counts l) ps (map g (seq 1 15))
  = map (fun k => (g k + with_return (Z.of_nat k) (map (pair l) ps))%Z) (seq 1 15).
Proof.
  induction ps as [|p ps IH]; intros g; cbn [fold_left map].
  - apply map_ext. intros k. unfold with_return. simpl. lia.
  - unfold step_counts at 2. rewrite count_return_map, IH. apply map_ext. intros k. unfold with_return. cbn [filter fst snd].
    destruct (Z.eqb_spec (point_return l p) (Z.of_nat k)); cbn [length]; lia.
Qed.
Lemma add_counts (g1 g2 : nat -> Z) (ks : list nat) : map (fun p => (fst p + snd p)%Z) (combine (map g1 ks) (map g2 ks)) = map (fun k => (g1 k + g2 k)%Z) ks.
Proof. induction ks; simpl; congruence. Qed.
Lemma no_returns_map : no_returns = map (fun _ => 0%Z) (seq 1 15). Proof. reflexivity. Qed.

(* ---------- bounds ---------- *)
Definition axis_box (lo hi : spec_float) (pts : list (p3 spec_float)) : p3 spec_float * p3 spec_float :=
  (mk_p3 (fold_mn' f64_cmp lo (map (@px _) pts)) (fold_mn' f64_cmp lo (map (@py _) pts)) (fold_mn' f64_cmp lo (map (@pz _) pts)),
   mk_p3 (fold_mx' f64_cmp hi (map (@px _) pts)) (fold_mx' f64_cmp hi (map (@py _) pts)) (fold_mx' f64_cmp hi (map (@pz _) pts))).
Lemma bounds_step lo hi pts p h : (h_min h, h_max h) = axis_box lo hi pts ->
  (h_min (update_bounds_in_las_header p h), h_max (update_bounds_in_las_header p h)) = axis_box lo hi (pts ++ [p]).
Proof.
  unfold axis_box. intros E. injection E as E1 E2. unfold update_bounds_in_las_header. cbn [h_min h_max with_bounds]. rewrite E1, E2. cbn [px py pz].
  rewrite !map_app. unfold fold_mn', fold_mx'. rewrite !fold_left_app. reflexivity.
Qed.
Lemma bounds_fold lo hi l ps : forall pts h, (h_min h, h_max h) = axis_box lo hi pts ->
  let h' := fold_left (step_header l) ps h in (h_min h', h_max h') = axis_box lo hi (pts ++ positions_of (map (pair l) ps)).
Proof.
  induction ps as [|p ps IH]; intros pts h E; cbn [fold_left].
  - simpl. now rewrite app_nil_r.
  - cbn zeta. rewrite (IH (pts ++ [point_position l p]) (step_header l h p)); [now rewrite <- app_assoc|]. now apply bounds_step.
Qed.
Definition same_but_bounds (h h' : las_header) : Prop :=
  h_format h' = h_format h /\ h_entries h' = h_entries h /\ h_tr h' = h_tr h /\ h_total h' = h_total h /\ h_returns h' = h_returns h
  /\ h_legacy_total h' = h_legacy_total h /\ h_legacy_returns h' = h_legacy_returns h.
Lemma fold_header_same l ps : forall h, same_but_bounds h (fold_left (step_header l) ps h).
Proof.
  induction ps as [|p ps IH]; intros h; cbn [fold_left]; [repeat split|].
  destruct (IH (step_header l h p)) as (A1 & A2 & A3 & A4 & A5 & A6 & A7). unfold same_but_bounds. rewrite A1, A2, A3, A4, A5, A6, A7. repeat split.
Qed.

(* ---------- flush ---------- *)
Lemma finalize_same h : let h' := finalize_las_header h in
  h_format h' = h_format h /\ h_entries h' = h_entries h /\ h_tr h' = h_tr h /\ h_total h' = h_total h /\ h_returns h' = h_returns h
  /\ h_min h' = h_min h /\ h_max h' = h_max h.
Proof.
  unfold finalize_las_header. destruct (2 ^ 32 - 1 <? h_total h)%Z; [repeat split|]. destruct (format_to_u8 (h_format h)) as [k| |]; [|repeat split|repeat split].
  destruct (Nat.ltb 5 k); repeat split.
Qed.
Lemma finalize_twice h : finalize_las_header (finalize_las_header h) = finalize_las_header h.
Proof.
  unfold finalize_las_header at 2 3. destruct (2 ^ 32 - 1 <? h_total h)%Z eqn:T; [unfold finalize_las_header; rewrite T; reflexivity|].
  destruct (format_to_u8 (h_format h)) as [k| |] eqn:K; try (unfold finalize_las_header; rewrite T, K; reflexivity).
  destruct (Nat.ltb 5 k) eqn:B; [unfold finalize_las_header; rewrite T, K, B; reflexivity|].
  unfold finalize_las_header, with_legacy. cbn [h_total h_format h_returns]. rewrite T, K, B. reflexivity.
Qed.

(* ---------- histories ---------- *)
Definition lowest (laz : bool) : spec_float := if laz then S754_infinity true else F64_MIN.
Definition highest (laz : bool) : spec_float := if laz then S754_infinity false else F64_MAX.

Record history (laz : bool) (n : nat) (f : format) (t : transforms) (evlrs : list Z) (l0 : layout) (chunk : nat) (ops : list write_op) (w : las_writer) : Prop := {
  hi_laz : w_laz w = laz; hi_layout : w_default_layout w = l0; hi_format : h_format (w_header w) = f; hi_tr : h_tr (w_header w) = t;
  hi_evlrs : w_evlrs w = evlrs;
  hi_position : w_position w = (length (written ops) + surplus laz chunk l0 ops) * record_length n;
  hi_inside : w_position w <= length (w_data w);
  hi_rest : length (w_data w) <= w_position w + (if laz then 0 else length evlrs);
  hi_records : surplus laz chunk l0 ops = 0 -> holds_records n t (written ops) (firstn (w_position w) (w_data w));
  hi_total : h_total (w_header w) = Z.of_nat (length (written ops));
  hi_returns : h_returns (w_header w) = by_return 15 (in_layout l0 (written ops));
  hi_bounds : (h_min (w_header w), h_max (w_header w)) = axis_box (highest laz) (lowest laz) (positions_of (written ops));
  hi_flushed : laz = false -> w_requires_flush w = false -> w_file w = w_header w /\ finalize_las_header (w_header w) = w_header w
                 /\ w_data w = firstn (w_position w) (w_data w) ++ evlrs;
  hi_legacy : 5 < n \/ writes_only ops -> h_legacy_total (w_header w) = 0%Z /\ h_legacy_returns (w_header w) = repeat 0%Z 5
}.

Lemma open_writer_ok laz n f entries t evlrs l0 chunk w : format_new n = Ok f -> las_type_layout n = Ok l0 -> open_writer laz f entries t evlrs = Ok w ->
  history laz n f t evlrs l0 chunk [] w.
Proof.
  intros F L. unfold open_writer, point_layout_from_las_metadata. destruct (default_layout n f 0 F) as (l & D & E & _).
  rewrite (with_extra_0 _ _ F) in D. rewrite D. cbn [bind]. rewrite (format_extra _ _ F). cbn [Nat.eqb]. cbn [bind assert].
  rewrite orb_true_r. cbn [assert bind]. destruct (_ || _); [discriminate|]. intros [= <-].
  assert (l = l0) by congruence. subst l.
  constructor; cbn; auto; try lia; try (intros; discriminate).
  - intros _. exists []. split; [reflexivity|constructor].
Qed.

Lemma write_history laz n f t evlrs l0 chunk ops w b : format_new n = Ok f -> las_type_layout n = Ok l0 -> 0 < chunk -> bf_wf b ->
  history laz n f t evlrs l0 chunk ops w ->
  match las_write chunk w b with
  | Ok w' => history laz n f t evlrs l0 chunk (ops ++ [Write b]) w'
  | Err => False
  | Panic => Exists (fun p => ~ representable n t (fst p) (snd p)) (written [Write b])
  end.
Proof.
  intros F L0 C W H. unfold las_write. rewrite (hi_layout _ _ _ _ _ _ _ _ _ H). set (custom := negb (layout_eqb (bf_layout b) l0)).
  assert (MO : mode_ok n custom (bf_layout b)).
  { unfold mode_ok, custom. intros E. apply negb_false_iff in E. apply layout_eqb_eq in E. congruence. }
  pose proof (write_points_ok n f t custom chunk w b F C W MO (hi_format _ _ _ _ _ _ _ _ _ H) (hi_tr _ _ _ _ _ _ _ _ _ H)) as WP. cbv zeta in WP.
  destruct (write_points chunk custom w b) as [w'| |]; auto.
  2:{ rewrite written_write. rewrite Exists_exists in *. destruct WP as (p & I & N). exists (bf_layout b, p). split; [now apply in_map|exact N]. }
  destruct WP as (rs & junk & R & LJ & CASES). destruct (bf_points_uniform b W) as [_ LP].
  destruct (Forall2_records_length _ _ _ _ _ R) as [UR LR].
  assert (LC : length (concat rs) = length (bf_points b) * record_length n) by (rewrite (length_concat _ _ UR), LR; reflexivity).
  rewrite (hi_laz _ _ _ _ _ _ _ _ _ H) in LJ.
  assert (SU : surplus laz chunk l0 [Write b] = padding laz custom (chunks chunk (length (bf_points b)) * chunk - length (bf_points b))).
  { unfold surplus, padding, custom. cbn [map]. unfold list_sum. cbn [fold_right]. rewrite Nat.add_0_r, LP, chunks_rest by exact C. reflexivity. }
  assert (LJ' : length junk = surplus laz chunk l0 [Write b] * record_length n).
  { rewrite LJ, SU. unfold padding. destruct (laz && custom); reflexivity. }
  assert (WW : written [Write b] = map (pair (bf_layout b)) (bf_points b)) by apply written_write.
  destruct CASES as [(PN & -> & JN)|(PN & ->)].
  - (* empty *)
    assert (S0 : surplus laz chunk l0 [Write b] * record_length n = 0) by (rewrite <- LJ', JN; reflexivity).
    assert (SZ : surplus laz chunk l0 [Write b] = 0).
    { rewrite SU, PN. cbn. unfold chunks. rewrite Nat.div_small by lia. unfold padding. destruct (_ && _); reflexivity. }
    rewrite PN in WW. cbn [map] in WW. destruct H. constructor; rewrite ?written_app, ?WW, ?app_nil_r, ?surplus_app, ?SZ, ?Nat.add_0_r; auto.
    intros [K|K]; apply hi_legacy0; [now left|right]. unfold writes_only in *. apply Forall_app in K. apply K.
  - pose proof (fold_header_same (bf_layout b) (bf_points b) (w_header w)) as (A1 & A2 & A3 & A4 & A5 & A6 & A7).
    destruct H as [H1 H2 H3 H4 H5 H6 H7 H8 H9 H10 H11 H12 H13 H14].
    constructor; cbn [w_laz w_default_layout w_header w_evlrs w_requires_flush w_file w_data w_position];
      unfold update_point_counts_in_las_header; cbn [with_counts h_format h_entries h_tr h_total h_returns h_legacy_total h_legacy_returns h_min h_max];
      rewrite ?written_app, ?surplus_app, ?WW.
    + exact H1.
    + exact H2.
    + congruence.
    + congruence.
    + exact H5.
    + rewrite H6, !app_length, map_length, LC, LJ'. nia.
    + rewrite length_put by exact H7. lia.
    + rewrite length_put by exact H7. destruct laz; lia.
    + intros S0. assert (junk = []) as -> by (apply length_zero_iff_nil; rewrite LJ'; replace (surplus laz chunk l0 [Write b]) with 0 by lia; reflexivity).
      rewrite app_nil_r. rewrite put_end by exact H7. destruct (H9 ltac:(lia)) as (rs0 & E0 & R0).
      exists (rs0 ++ rs). rewrite E0, concat_app. split; [reflexivity|]. apply Forall2_app; [exact R0|].
      clear -R. induction R; constructor; auto.
    + rewrite A4, H10, app_length, map_length. lia.
    + rewrite A5, H11. rewrite in_layout_app, in_layout_write. unfold by_return, custom.
      destruct (layout_eqb (bf_layout b) l0); cbn [negb].
      * rewrite no_returns_map, counts_fold, add_counts. apply map_ext. intros k. rewrite with_return_app. reflexivity.
      * rewrite no_returns_map, add_counts, app_nil_r. apply map_ext. intros k. lia.
    + unfold positions_of. rewrite map_app. apply (bounds_fold _ _ _ _ _ _ H12).
    + intros _ K. discriminate.
    + rewrite A6, A7. intros K. apply H14. destruct K as [K|K]; [now left|right]. unfold writes_only in *. apply Forall_app in K. apply K.
Qed.

Lemma flush_history laz n f t evlrs l0 chunk ops w : format_new n = Ok f -> history laz n f t evlrs l0 chunk ops w ->
  history laz n f t evlrs l0 chunk (ops ++ [Flush]) (las_flush w) /\ w_file (las_flush w) = w_header (las_flush w)
  /\ w_header (las_flush w) = finalize_las_header (w_header w)
  /\ w_data (las_flush w) = firstn (w_position w) (w_data w) ++ (if laz then [] else evlrs) /\ w_position (las_flush w) = w_position w.
Proof.
  intros F [H1 H2 H3 H4 H5 H6 H7 H8 H9 H10 H11 H12 H13 H14].
  assert (WR : written (ops ++ [Flush]) = written ops) by (rewrite written_app; apply app_nil_r).
  assert (SU : surplus laz chunk l0 (ops ++ [Flush]) = surplus laz chunk l0 ops) by (rewrite surplus_app; apply Nat.add_0_r).
  pose proof (finalize_same (w_header w)) as (A1 & A2 & A3 & A4 & A5 & A6 & A7).
  assert (LG : 5 < n \/ writes_only (ops ++ [Flush]) -> h_legacy_total (finalize_las_header (w_header w)) = 0%Z /\ h_legacy_returns (finalize_las_header (w_header w)) = repeat 0%Z 5).
  { intros [K|K].
    - unfold finalize_las_header. destruct (2 ^ 32 - 1 <? h_total (w_header w))%Z; [apply H14; now left|].
      rewrite H3. pose proof (proj1 (format_of_u8 n f 0 F)) as Q. rewrite (with_extra_0 _ _ F) in Q. rewrite Q.
      destruct (Nat.ltb_spec 5 n); [apply H14; now left|lia].
    - exfalso. unfold writes_only in K. apply Forall_app in K. destruct K as [_ K]. inversion K. congruence. }
  unfold las_flush. rewrite H1. destruct (negb laz && negb (w_requires_flush w)) eqn:Q.
  - apply andb_true_iff in Q. destruct Q as [Q1 Q2]. apply negb_true_iff in Q1, Q2. destruct laz; [discriminate|].
    destruct (H13 eq_refl Q2) as (K1 & K2 & K3).
    split; [|repeat split; auto; congruence]. constructor; rewrite ?WR, ?SU; auto. rewrite <- K2. exact LG.
  - cbn [w_laz w_default_layout w_header w_evlrs w_requires_flush w_file w_data w_position].
    assert (DT : (if laz then w_data w else put (w_data w) (w_position w) (w_evlrs w)) = firstn (w_position w) (w_data w) ++ (if laz then [] else evlrs)).
    { rewrite H5. destruct laz; [rewrite app_nil_r; rewrite firstn_all2 by lia; reflexivity|]. apply put_all; [exact H7|exact H8]. }
    split; [|repeat split; exact DT].
    constructor; cbn [w_laz w_default_layout w_header w_evlrs w_requires_flush w_file w_data w_position]; rewrite ?WR, ?SU; auto; try congruence.
    + destruct laz; [exact H7|]. rewrite length_put by exact H7. lia.
    + destruct laz; [exact H8|]. rewrite H5, length_put by exact H7. lia.
    + intros S0. destruct laz; [apply H9; exact S0|]. rewrite put_keeps by exact H7. apply H9; exact S0.
    + intros LZ _. destruct laz; [discriminate|]. rewrite finalize_twice. split; [reflexivity|]. split; [reflexivity|].
      rewrite put_keeps by exact H7. exact DT.
Qed.

Lemma run_history laz n f t evlrs l0 chunk ops : format_new n = Ok f -> las_type_layout n = Ok l0 -> 0 < chunk -> ops_wf ops ->
  forall before w, history laz n f t evlrs l0 chunk before w ->
  match run_writer chunk w ops with
  | Ok w' => history laz n f t evlrs l0 chunk (before ++ ops) w'
  | Err => False
  | Panic => Exists (fun p => ~ representable n t (fst p) (snd p)) (written ops)
  end.
Proof.
  intros F L0 C. unfold run_writer. induction ops as [|o ops IH]; intros W before w H; cbn [foldM].
  - now rewrite app_nil_r.
  - inversion W as [|? ? W1 W2]; subst. specialize (IH W2).
    replace (before ++ o :: ops) with ((before ++ [o]) ++ ops) by (rewrite <- app_assoc; reflexivity).
    change (o :: ops) with ([o] ++ ops). rewrite written_app. destruct o as [b|]; cbn [write_step bind].
    + pose proof (write_history laz n f t evlrs l0 chunk before w b F L0 C W1 H) as S1.
      destruct (las_write chunk w b) as [w1| |]; cbn [bind]; [|exact S1|apply Exists_app; left; exact S1].
      specialize (IH _ _ S1). destruct (foldM (write_step chunk) ops w1); auto. apply Exists_app. now right.
    + destruct (flush_history laz n f t evlrs l0 chunk before w F H) as [S1 _]. specialize (IH _ _ S1).
      destruct (foldM (write_step chunk) ops (las_flush w)); auto.
Qed.

(* ---------- results ---------- *)
Lemma default_exists n f : format_new n = Ok f -> exists l0, las_type_layout n = Ok l0.
Proof. intros F. destruct (default_layout n f 0 F) as (l & _ & E & _). eauto. Qed.

(* a history of a newly opened writer *)
Lemma run_from_open laz n f entries t evlrs chunk ops w0 : format_new n = Ok f -> 0 < chunk -> ops_wf ops -> open_writer laz f entries t evlrs = Ok w0 ->
  exists l0, las_type_layout n = Ok l0 /\
  match run_writer chunk w0 ops with
  | Ok w' => history laz n f t evlrs l0 chunk ops w'
  | Err => False
  | Panic => Exists (fun p => ~ representable n t (fst p) (snd p)) (written ops)
  end.
Proof.
  intros F C W O. destruct (default_exists n f F) as (l0 & L0). exists l0. split; [exact L0|].
  exact (run_history laz n f t evlrs l0 chunk ops F L0 C W [] w0 (open_writer_ok laz n f entries t evlrs l0 chunk w0 F L0 O)).
Qed.
