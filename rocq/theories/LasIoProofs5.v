(* What writers store and what their headers say, after any history. *)
From Coq Require Import String List ZArith Lia Bool Arith SpecFloat ZifyBool ZifyNat ZifyN.
From Verif Require Import Base LayoutModel LayoutSpec LayoutProofs BufferModel BufferSpec ListLemmas BufferProofs TraitModel TraitSpec TraitProofs2
  NumModel ConvModel ConvSpec ConvProofs MathModel MathSpec MathProofs MathProofs2 LasModel LasSpec LasProofs LasProofs2 LasIoModel LasIoSpec
  LasIoProofs LasIoProofs2 LasIoProofs3 LasIoProofs4.
Import ListNotations.
Open Scope nat_scope.

(* ---------- records ---------- *)
Lemma writer_total laz n f entries t evlrs chunk ops w0 : format_new n = Ok f -> 0 < chunk -> ops_wf ops -> open_writer laz f entries t evlrs = Ok w0 ->
  (forall p, In p (written ops) -> representable n t (fst p) (snd p)) -> exists w, run_writer chunk w0 ops = Ok w.
Proof.
  intros F C W O R. destruct (run_from_open laz n f entries t evlrs chunk ops w0 F C W O) as (l0 & _ & H).
  destruct (run_writer chunk w0 ops) as [w| |]; [eauto|destruct H|].
  apply Exists_exists in H. destruct H as (p & I & N). exfalso. exact (N (R p I)).
Qed.

Lemma run_flush laz n f entries t evlrs chunk ops w0 w : format_new n = Ok f -> 0 < chunk -> ops_wf ops -> open_writer laz f entries t evlrs = Ok w0 ->
  run_writer chunk w0 (ops ++ [Flush]) = Ok w ->
  exists l0 w1, las_type_layout n = Ok l0 /\ run_writer chunk w0 ops = Ok w1 /\ history laz n f t evlrs l0 chunk ops w1
  /\ history laz n f t evlrs l0 chunk (ops ++ [Flush]) w
  /\ w_file w = finalize_las_header (w_header w1) /\ w_data w = firstn (w_position w1) (w_data w1) ++ (if laz then [] else evlrs)
  /\ w_position w = w_position w1.
Proof.
  intros F C W O R. destruct (run_from_open laz n f entries t evlrs chunk ops w0 F C W O) as (l0 & L0 & H).
  unfold run_writer in *. rewrite foldM_snoc in R. destruct (foldM (write_step chunk) ops w0) as [w1| |]; try discriminate.
  cbn [bind write_step] in R. injection R as <-. exists l0, w1. split; [exact L0|]. split; [reflexivity|]. split; [exact H|].
  destruct (flush_history laz n f t evlrs l0 chunk ops w1 F H) as (H1 & H2 & H3 & H4 & H5).
  split; [exact H1|]. split; [exact (eq_trans H2 H3)|]. split; [exact H4|exact H5].
Qed.

Lemma las_no_surplus chunk l ops : surplus false chunk l ops = 0.
Proof. unfold surplus. induction ops as [|[b|] ops IH]; simpl; auto. Qed.
Lemma las_records n f entries t evlrs chunk ops w0 w : format_new n = Ok f -> 0 < chunk -> ops_wf ops -> open_writer false f entries t evlrs = Ok w0 ->
  run_writer chunk w0 (ops ++ [Flush]) = Ok w -> exists data, w_data w = data ++ evlrs /\ holds_records n t (written ops) data.
Proof.
  intros F C W O R. destruct (run_flush _ _ _ _ _ _ _ _ _ _ F C W O R) as (l0 & w1 & _ & _ & H & _ & _ & D & _).
  exists (firstn (w_position w1) (w_data w1)). split; [exact D|]. apply (hi_records _ _ _ _ _ _ _ _ _ H). apply las_no_surplus.
Qed.
Lemma laz_records n f entries t evlrs chunk ops w0 w l0 : format_new n = Ok f -> 0 < chunk -> ops_wf ops -> open_writer true f entries t evlrs = Ok w0 ->
  las_type_layout n = Ok l0 -> run_writer chunk w0 (ops ++ [Flush]) = Ok w ->
  length (w_data w) = (length (written ops) + surplus true chunk l0 ops) * record_length n
  /\ (surplus true chunk l0 ops = 0 -> holds_records n t (written ops) (w_data w)).
Proof.
  intros F C W O L0 R. destruct (run_flush _ _ _ _ _ _ _ _ _ _ F C W O R) as (l1 & w1 & L1 & _ & H & H2 & _ & D & P).
  assert (l1 = l0) by congruence. subst l1. rewrite app_nil_r in D. split.
  - rewrite D, firstn_length, Nat.min_l by apply (hi_inside _ _ _ _ _ _ _ _ _ H). apply (hi_position _ _ _ _ _ _ _ _ _ H).
  - intros S. rewrite D. exact (hi_records _ _ _ _ _ _ _ _ _ H S).
Qed.
Lemma no_surplus_default chunk l ops : ops_layout l ops -> surplus true chunk l ops = 0.
Proof.
  unfold surplus, ops_layout. intros H. induction H as [|[b|] ops H1 H2 IH]; simpl; auto.
  assert (E : layout_eqb (bf_layout b) l = true) by (now apply layout_eqb_eq). rewrite E. exact IH.
Qed.
Lemma no_surplus_full chunk l ops : 0 < chunk -> Forall (fun o => match o with Write b => bf_len b mod chunk = 0 | Flush => True end) ops -> surplus true chunk l ops = 0.
Proof.
  unfold surplus. intros C H. induction H as [|[b|] ops H1 H2 IH]; simpl; auto.
  rewrite H1, Nat.sub_0_r, Nat.mod_same by lia. destruct (negb _); exact IH.
Qed.
Lemma record_length_pos n f : format_new n = Ok f -> 0 < record_length n.
Proof. intros F. each_format F; cbn; lia. Qed.
Lemma holds_length n t pts data : holds_records n t pts data -> length data = length pts * record_length n.
Proof.
  intros (rs & -> & R). assert (U : uniform (record_length n) rs /\ length rs = length pts).
  { induction R as [|p r pts rs R1 R2 [IH1 IH2]]; [split; [constructor|reflexivity]|]. split; [constructor; [exact (proj1 R1)|exact IH1]|simpl; lia]. }
  destruct U as [U L]. rewrite (length_concat _ _ U), L. reflexivity.
Qed.
(* the stream holds exactly the points iff there is no surplus *)
Lemma laz_records_iff n f entries t evlrs chunk ops w0 w l0 : format_new n = Ok f -> 0 < chunk -> ops_wf ops -> open_writer true f entries t evlrs = Ok w0 ->
  las_type_layout n = Ok l0 -> run_writer chunk w0 (ops ++ [Flush]) = Ok w ->
  (holds_records n t (written ops) (w_data w) <-> surplus true chunk l0 ops = 0).
Proof.
  intros F C W O L0 R. destruct (laz_records n f entries t evlrs chunk ops w0 w l0 F C W O L0 R) as [L H]. split; [|exact H].
  intros HR. apply holds_length in HR. pose proof (record_length_pos n f F). nia.
Qed.

(* ---------- header ---------- *)
Lemma header_total laz n f entries t evlrs chunk ops w0 w : format_new n = Ok f -> 0 < chunk -> ops_wf ops -> open_writer laz f entries t evlrs = Ok w0 ->
  run_writer chunk w0 (ops ++ [Flush]) = Ok w -> h_total (w_file w) = Z.of_nat (length (written ops)).
Proof.
  intros F C W O R. destruct (run_flush _ _ _ _ _ _ _ _ _ _ F C W O R) as (l0 & w1 & _ & _ & H & _ & E & _).
  rewrite E. destruct (finalize_same (w_header w1)) as (_ & _ & _ & -> & _). exact (hi_total _ _ _ _ _ _ _ _ _ H).
Qed.
Lemma header_returns laz n f entries t evlrs chunk ops w0 w l0 : format_new n = Ok f -> 0 < chunk -> ops_wf ops -> open_writer laz f entries t evlrs = Ok w0 ->
  las_type_layout n = Ok l0 -> run_writer chunk w0 (ops ++ [Flush]) = Ok w -> h_returns (w_file w) = by_return 15 (in_layout l0 (written ops)).
Proof.
  intros F C W O L0 R. destruct (run_flush _ _ _ _ _ _ _ _ _ _ F C W O R) as (l1 & w1 & L1 & _ & H & _ & E & _).
  assert (l1 = l0) by congruence. subst l1.
  rewrite E. destruct (finalize_same (w_header w1)) as (_ & _ & _ & _ & -> & _). exact (hi_returns _ _ _ _ _ _ _ _ _ H).
Qed.
Lemma in_layout_all l ops : ops_layout l ops -> in_layout l (written ops) = written ops.
Proof.
  intros H. induction H as [|o ops H1 H2 IH]; [reflexivity|]. change (o :: ops) with ([o] ++ ops). rewrite written_app, in_layout_app, IH. f_equal.
  destruct o as [b|]; [|reflexivity]. rewrite written_write, in_layout_write. assert (E : layout_eqb (bf_layout b) l = true) by (now apply layout_eqb_eq). now rewrite E.
Qed.

(* bounds *)
Lemma first_mn x xs : finite x -> is_f64 x -> fold_mn' f64_cmp (S754_infinity false) (x :: xs) = fold_mn' f64_cmp F64_MAX (x :: xs).
Proof.
  intros F1 F2. destruct (axis_bounds [x]) as (_ & _ & _ & _ & _ & A). destruct A as [[A|[]] _]; [discriminate|intros y [<-|[]]; auto|].
  unfold fold_mn' in *. cbn [fold_left] in *. rewrite <- A. f_equal. destruct x as [s|s| |s m e]; try contradiction; reflexivity.
Qed.
Lemma first_mx x xs : finite x -> is_f64 x -> fold_mx' f64_cmp (S754_infinity true) (x :: xs) = fold_mx' f64_cmp F64_MIN (x :: xs).
Proof.
  intros F1 F2. destruct (axis_bounds [x]) as (_ & _ & _ & _ & _ & A). destruct A as [_ [A|[]]]; [discriminate|intros y [<-|[]]; auto|].
  unfold fold_mx' in *. cbn [fold_left] in *. rewrite <- A. f_equal. destruct x as [s|s| |s m e]; try contradiction; reflexivity.
Qed.
Lemma axis_box_smallest laz pts : pts <> [] -> (forall p, In p pts -> p3_all (fun x => finite x /\ is_f64 x) p) ->
  let box := axis_box (highest laz) (lowest laz) pts in
  smallest f64_cmp not_nan (fun p => In p pts) (mk_aabb (fst box) (snd box)) /\ MathSpec.tight pts (mk_aabb (fst box) (snd box)).
Proof.
  intros NE H box. assert (E : box = axis_box F64_MAX F64_MIN pts).
  { unfold box. destruct laz; [|reflexivity]. destruct pts as [|p pts]; [congruence|]. unfold axis_box, highest, lowest.
    destruct (H p (or_introl eq_refl)) as ((X1 & X2) & (Y1 & Y2) & (Z1 & Z2)). cbn [map].
    rewrite !first_mn, !first_mx by assumption. reflexivity. }
  destruct (bounds_smallest pts NE H) as (b & B & S & T). rewrite bounds_of_axes in B. unfold from_min_max in B. destruct (_ || _) in B; [discriminate|].
  injection B as <-. rewrite E. split; assumption.
Qed.
Lemma positions_f64 pts p : In p (positions_of pts) -> p3_all is_f64 p.
Proof. unfold positions_of. intros I. apply in_map_iff in I. destruct I as (q & <- & _). apply vec3_f64_ok. Qed.
Lemma header_bounds laz n f entries t evlrs chunk ops w0 w : format_new n = Ok f -> 0 < chunk -> ops_wf ops -> open_writer laz f entries t evlrs = Ok w0 ->
  run_writer chunk w0 (ops ++ [Flush]) = Ok w -> written ops <> [] -> (forall p, In p (positions_of (written ops)) -> p3_all finite p) ->
  let box := mk_aabb (h_min (w_file w)) (h_max (w_file w)) in
  smallest f64_cmp not_nan (fun p => In p (positions_of (written ops))) box /\ MathSpec.tight (positions_of (written ops)) box.
Proof.
  intros F C W O R NE FI. destruct (run_flush _ _ _ _ _ _ _ _ _ _ F C W O R) as (l0 & w1 & _ & _ & H & _ & E & _).
  cbv zeta. rewrite E. destruct (finalize_same (w_header w1)) as (_ & _ & _ & _ & _ & -> & ->). pose proof (hi_bounds _ _ _ _ _ _ _ _ _ H) as B.
  assert (B1 : h_min (w_header w1) = fst (axis_box (highest laz) (lowest laz) (positions_of (written ops)))) by (rewrite <- B; reflexivity).
  assert (B2 : h_max (w_header w1) = snd (axis_box (highest laz) (lowest laz) (positions_of (written ops)))) by (rewrite <- B; reflexivity).
  rewrite B1, B2. apply axis_box_smallest.
  - unfold positions_of. destruct (written ops); [congruence|discriminate].
  - intros p I. destruct (FI p I) as (F1 & F2 & F3), (positions_f64 _ _ I) as (G1 & G2 & G3). repeat split; assumption.
Qed.

(* legacy counts *)
Lemma by_return_5 pts : firstn 5 (by_return 15 pts) = by_return 5 pts.
Proof. reflexivity. Qed.
Lemma filter_length_le {A} (g : A -> bool) l : length (filter g l) <= length l.
Proof. induction l as [|x l IH]; simpl; [lia|]. destruct (g x); simpl; lia. Qed.
Lemma with_return_bound k pts : (0 <= with_return k pts <= Z.of_nat (length pts))%Z.
Proof. unfold with_return. pose proof (filter_length_le (fun p => (point_return (fst p) (snd p) =? k)%Z) pts). lia. Qed.
Lemma header_legacy laz n f entries t evlrs chunk ops w0 w l0 : format_new n = Ok f -> 0 < chunk -> ops_wf ops -> open_writer laz f entries t evlrs = Ok w0 ->
  las_type_layout n = Ok l0 -> run_writer chunk w0 (ops ++ [Flush]) = Ok w ->
  let total := Z.of_nat (length (written ops)) in
  let fits := (n <=? 5) && (total <=? 2 ^ 32 - 1)%Z in
  fits = true \/ 5 < n \/ writes_only ops ->
  h_legacy_total (w_file w) = (if fits then total else 0%Z)
  /\ h_legacy_returns (w_file w) = (if fits then by_return 5 (in_layout l0 (written ops)) else repeat 0%Z 5).
Proof.
  intros F C W O L0 R total fits CASES. destruct (run_flush _ _ _ _ _ _ _ _ _ _ F C W O R) as (l1 & w1 & L1 & _ & H & _ & E & _).
  assert (l1 = l0) by congruence. subst l1. rewrite E.
  pose proof (hi_total _ _ _ _ _ _ _ _ _ H) as T. pose proof (hi_returns _ _ _ _ _ _ _ _ _ H) as RT. pose proof (hi_format _ _ _ _ _ _ _ _ _ H) as FM.
  pose proof (proj1 (format_of_u8 n f 0 F)) as Q. rewrite (with_extra_0 _ _ F) in Q.
  unfold finalize_las_header. rewrite FM, Q, T. fold total.
  destruct fits eqn:FT.
  - unfold fits in FT. apply andb_true_iff in FT. destruct FT as [F1 F2]. destruct (Z.ltb_spec (2 ^ 32 - 1) total); [lia|].
    destruct (Nat.ltb_spec 5 n); [lia|]. cbn [with_legacy h_legacy_total h_legacy_returns].
    assert (T0 : (0 <= total)%Z) by (unfold total; lia). split; [apply Z.mod_small; lia|].
    rewrite RT, by_return_5. unfold by_return. rewrite map_map. apply map_ext. intros k. apply Z.mod_small.
    pose proof (with_return_bound (Z.of_nat k) (in_layout l0 (written ops))) as B.
    assert (LE : length (in_layout l0 (written ops)) <= length (written ops)) by (unfold in_layout; apply filter_length_le). unfold total in *. lia.
  - assert (G : h_legacy_total (w_header w1) = 0%Z /\ h_legacy_returns (w_header w1) = repeat 0%Z 5).
    { apply (hi_legacy _ _ _ _ _ _ _ _ _ H). destruct CASES as [K|K]; [discriminate|exact K]. }
    destruct (Z.ltb_spec (2 ^ 32 - 1) total); [exact G|]. destruct (Nat.ltb_spec 5 n); [exact G|]. exfalso. unfold fits in FT. lia.
Qed.

(* an earlier flush leaves its counts in a file that has grown too large for them *)
Lemma stale_legacy laz n f entries t evlrs chunk b1 b2 w0 w : format_new n = Ok f -> n <= 5 -> 0 < chunk -> ops_wf [Write b1; Flush; Write b2] -> open_writer laz f entries t evlrs = Ok w0 ->
  run_writer chunk w0 [Write b1; Flush; Write b2; Flush] = Ok w -> (Z.of_nat (bf_len b1) < 2 ^ 32)%Z -> (2 ^ 32 <= Z.of_nat (bf_len b1 + bf_len b2))%Z ->
  h_legacy_total (w_file w) = Z.of_nat (bf_len b1).
Proof.
  intros F N C W O R L1 L2. inversion W as [|? ? W1 W']; subst. inversion W' as [|? ? _ W'']; subst. inversion W'' as [|? ? W2 _]; subst.
  destruct (default_exists n f F) as (l0 & L0). pose proof (open_writer_ok laz n f entries t evlrs l0 chunk w0 F L0 O) as H0.
  unfold run_writer in R. cbn [foldM write_step] in R.
  pose proof (write_history laz n f t evlrs l0 chunk [] w0 b1 F L0 C W1 H0) as H1. destruct (las_write chunk w0 b1) as [w1| |]; try discriminate. cbn [bind] in R.
  destruct (flush_history laz n f t evlrs l0 chunk _ w1 F H1) as (H2 & _ & E2 & _).
  pose proof (write_history laz n f t evlrs l0 chunk _ (las_flush w1) b2 F L0 C W2 H2) as H3.
  destruct (bf_points_uniform b1 W1) as [_ P1]. destruct (bf_points_uniform b2 W2) as [_ P2].
  assert (LG : h_legacy_total (w_header (las_flush w1)) = Z.of_nat (bf_len b1)).
  { rewrite E2. pose proof (hi_total _ _ _ _ _ _ _ _ _ H1) as T. cbn [app] in T. rewrite written_write, map_length, P1 in T.
    unfold finalize_las_header. rewrite T, (hi_format _ _ _ _ _ _ _ _ _ H1). pose proof (proj1 (format_of_u8 n f 0 F)) as Q. rewrite (with_extra_0 _ _ F) in Q. rewrite Q.
    destruct (Z.ltb_spec (2 ^ 32 - 1) (Z.of_nat (bf_len b1))); [lia|]. destruct (Nat.ltb_spec 5 n); [lia|]. cbn. apply Z.mod_small. lia. }
  assert (LG3 : forall w3, las_write chunk (las_flush w1) b2 = Ok w3 -> h_legacy_total (w_header w3) = Z.of_nat (bf_len b1)).
  { intros w3 E3. rewrite <- LG. unfold las_write in E3.
    set (custom := negb (layout_eqb (bf_layout b2) (w_default_layout (las_flush w1)))) in *.
    assert (MO : mode_ok n custom (bf_layout b2)).
    { unfold mode_ok, custom. intros E. apply negb_false_iff in E. apply layout_eqb_eq in E. rewrite E, (hi_layout _ _ _ _ _ _ _ _ _ H2). exact L0. }
    pose proof (write_points_ok n f t custom chunk (las_flush w1) b2 F C W2 MO (hi_format _ _ _ _ _ _ _ _ _ H2) (hi_tr _ _ _ _ _ _ _ _ _ H2)) as WP. cbv zeta in WP.
    rewrite E3 in WP. destruct WP as (rs & junk & _ & _ & [(_ & -> & _)|(_ & ->)]); [reflexivity|]. cbn [w_header].
    unfold update_point_counts_in_las_header. cbn [with_counts h_legacy_total].
    destruct (fold_header_same (bf_layout b2) (bf_points b2) (w_header (las_flush w1))) as (_ & _ & _ & _ & _ & -> & _). reflexivity. }
  destruct (las_write chunk (las_flush w1) b2) as [w3| |]; try discriminate. cbn [bind] in R. injection R as <-.
  destruct (flush_history laz n f t evlrs l0 chunk _ w3 F H3) as (_ & E4 & E5 & _). rewrite E4, E5. unfold finalize_las_header.
  rewrite (hi_total _ _ _ _ _ _ _ _ _ H3). rewrite !written_app, !app_length. cbn [app]. rewrite !written_write, !map_length, P1, P2.
  change (length (written [Flush])) with 0. change (length (written [])) with 0. cbn [Nat.add].
  destruct (Z.ltb_spec (2 ^ 32 - 1) (Z.of_nat (bf_len b1 + 0 + bf_len b2))); [|lia]. apply LG3. reflexivity.
Qed.
