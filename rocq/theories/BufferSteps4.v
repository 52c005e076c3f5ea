(* Appending, whole histories, filtering, collecting, attribute pusher, external memory. *)
From Coq Require Import String List ZArith Lia Bool Arith.
From Verif Require Import Base LayoutModel LayoutSpec LayoutProofs BufferModel BufferSpec ListLemmas BufferProofs
  BufferSteps BufferSteps2 BufferSteps3.
Import ListNotations.

(* ------------------------------------------------------------------ append *)

Lemma points_of_uniform o : any_inv o -> uniform (l_size (any_layout o)) (points_of o) /\ length (points_of o) = any_len o.
Proof.
  intros I. split; [|unfold points_of; now rewrite map_length, seq_length].
  destruct o as [v|h]; simpl in I.
  - pose proof (vb_inv_rep v I) as R. destruct I as [G _]. rewrite (points_of_v _ _ v G R).
    now destruct R as (_ & _ & U & _).
  - pose proof (hb_inv_rep h I) as R. now destruct R as (_ & _ & U & _).
Qed.

(* reading into zeroed memory or memory that holds another point of the buffer *)
Lemma any_get_point_points o i p scratch : any_inv o -> nth_error (points_of o) i = Some p ->
  (scratch = repeat 0%Z (l_size (any_layout o)) \/ In scratch (points_of o)) ->
  any_get_point o i scratch = Ok p.
Proof.
  intros I E S. destruct (points_of_uniform o I) as [U L].
  assert (LS : length scratch = l_size (any_layout o)).
  { destruct S as [->|S]; [apply repeat_length|]. unfold uniform in U. rewrite Forall_forall in U. auto. }
  destruct o as [v|h]; simpl in I; cbn [any_get_point any_layout] in *.
  - pose proof (vb_inv_rep v I) as R. destruct I as [G _]. pose proof (points_of_v _ _ v G R) as PO.
    rewrite PO in E. destruct (vb_reads _ _ v G R) as (_ & RP & _). rewrite RP by assumption. now rewrite E.
  - pose proof (hb_inv_rep h I) as R. destruct I as [G _]. pose proof (points_of_h _ _ h G R) as PO.
    rewrite (hb_get_point_ok _ _ h i p scratch G R E LS). f_equal.
    assert (UN : forall q, In q (points_of (BH h)) -> length q = l_size (hb_layout h)).
    { intros q Hq. unfold uniform in U. rewrite Forall_forall in U. auto. }
    assert (IDEM : forall q, In q (points_of (BH h)) -> q = overlay (hb_layout h) q (repeat 0%Z (l_size (hb_layout h)))).
    { intros q Hq. pose proof Hq as Hq'. rewrite PO in Hq. apply in_map_iff in Hq. destruct Hq as (r & <- & Hr).
      assert (Lr : length r = l_size (hb_layout h)) by auto.
      apply overlay_unique; auto; try apply repeat_length; try (now rewrite length_overlay, repeat_length).
      intros k Nk. rewrite overlay_byte; auto. 2: apply repeat_length.
      destruct (existsb _ _) eqn:EX; auto. apply covered_b in EX. contradiction. }
    assert (Hp : In p (points_of (BH h))) by (eapply nth_error_In; eauto).
    destruct S as [->|S].
    + symmetry. now apply IDEM.
    + rewrite (IDEM scratch S). rewrite overlay_overlay; auto. 2: apply repeat_length. symmetry. now apply IDEM.
Qed.

Lemma mid_set_nth (a b : list (list Z)) x y c : set_nth (length a + length b) y (a ++ b ++ x :: c) = a ++ b ++ y :: c.
Proof.
  rewrite set_nth_blit by (rewrite !app_length; simpl; lia). unfold blit.
  rewrite !app_assoc. rewrite <- (app_length a b).
  rewrite firstn_app, (firstn_all_ge (a ++ b)), Nat.sub_diag by lia. cbn [firstn length]. rewrite app_nil_r.
  rewrite (skipn_app _ (a ++ b)). rewrite (skipn_all2 (a ++ b)) by lia.
  replace (length (a ++ b) + 1 - length (a ++ b)) with 1 by lia. now rewrite <- !app_assoc.
Qed.

Lemma firstn_snoc {A} (l : list A) i x : nth_error l i = Some x -> firstn (i + 1) l = firstn i l ++ [x].
Proof.
  intros E. apply nth_error_ext. intros k. pose proof (nth_error_lt _ _ _ E).
  assert (LF : length (firstn i l) = i) by (rewrite firstn_length; lia).
  rewrite nth_error_firstn. destruct (Nat.lt_ge_cases k i).
  - rewrite nth_error_app1 by lia. rewrite nth_error_firstn.
    destruct (Nat.ltb_spec k (i + 1)), (Nat.ltb_spec k i); auto; lia.
  - rewrite nth_error_app2 by lia. rewrite LF. destruct (Nat.ltb_spec k (i + 1)).
    + replace k with i by lia. now rewrite Nat.sub_diag.
    + symmetry. apply nth_error_None_ge. simpl. lia.
Qed.

(* the state after i points have been appended *)
Definition appended (sz : nat) (recs pts : list rec) (i : nat) : list rec :=
  recs ++ firstn i pts ++ repeat (repeat 0%Z sz) (length pts - i).

Lemma appended_step sz recs pts i p : nth_error pts i = Some p ->
  set_nth (length recs + i) p (appended sz recs pts i) = appended sz recs pts (i + 1).
Proof.
  intros E. pose proof (nth_error_lt _ _ _ E). unfold appended. rewrite (firstn_snoc pts i p E).
  replace (length pts - i) with (S (length pts - (i + 1))) by lia. cbn [repeat].
  assert (LF : length (firstn i pts) = i) by (rewrite firstn_length; lia).
  rewrite <- LF at 1. rewrite mid_set_nth. now rewrite <- app_assoc.
Qed.

Lemma appended_zero sz recs pts : firstn (length recs + length pts) recs
  ++ repeat (repeat 0%Z sz) (length recs + length pts - length recs) = appended sz recs pts 0.
Proof.
  unfold appended. rewrite firstn_all_ge by lia. simpl. f_equal. f_equal. lia.
Qed.

Lemma appended_all sz recs pts : appended sz recs pts (length pts) = recs ++ pts.
Proof. unfold appended. rewrite firstn_all, Nat.sub_diag. simpl. now rewrite app_nil_r. Qed.

Lemma length_appended sz recs pts i : i <= length pts -> length (appended sz recs pts i) = length recs + length pts.
Proof. intros. unfold appended. rewrite !app_length, firstn_length, repeat_length. lia. Qed.

Section APPEND.
Variables (B : Type) (lay : B -> layout) (len : B -> nat) (resize : B -> nat -> B)
          (set_point : B -> nat -> list Z -> res B) (rep : list rec -> B -> Prop) (l : layout).
Hypothesis rep_lay : forall recs b, rep recs b -> lay b = l /\ len b = length recs.
Hypothesis rep_resize : forall recs b n, rep recs b ->
  rep (firstn n recs ++ repeat (repeat 0%Z (l_size l)) (n - length recs)) (resize b n).
Hypothesis rep_set : forall recs b i data, rep recs b -> length data = l_size l -> i < length recs ->
  exists b', set_point b i data = Ok b' /\ rep (set_nth i data recs) b'.

Lemma append_default_ok recs b other : rep recs b -> any_inv other ->
  outcome rep (append_default lay len resize set_point b other) (spec_append l recs other).
Proof.
  intros R I. destruct (rep_lay recs b R) as [Hl Hn]. unfold append_default, spec_append, outcome. rewrite Hl, Hn.
  destruct (layout_eqb l (any_layout other)) eqn:EQ; cbn [assert bind]; auto.
  apply layout_eqb_eq in EQ. destruct (points_of_uniform other I) as [U LP].
  edestruct (foldM_range (fun i st => rep (appended (l_size l) recs (points_of other) i) (fst st)
                 /\ (snd st = repeat 0%Z (l_size l) \/ In (snd st) (points_of other)))) as [st' [E1 [E2 E3]]].
  4: { rewrite E1. cbn [bind]. exists (fst st'). split; auto. rewrite <- LP, appended_all in E2. exact E2. }
  - lia.
  - cbn [fst snd]. split; auto. rewrite <- LP, <- appended_zero. now apply rep_resize.
  - intros i [b1 p1] Hi [R1 S1]. cbn [fst snd] in *.
    destruct (nth_error_get (points_of other) i) as [p Hp]; [lia|].
    rewrite (any_get_point_points other i p); auto. 2: now rewrite <- EQ.
    cbn [bind]. destruct (rep_set _ b1 (length recs + i) p R1) as [b2 [Eb Rb]].
    + rewrite EQ. exact (uniform_nth _ _ _ _ U Hp).
    + rewrite length_appended; lia.
    + rewrite Eb. cbn [bind]. eexists. split; [reflexivity|]. cbn [fst snd]. split.
      * rewrite <- (appended_step _ _ _ _ p Hp). exact Rb.
      * right. eapply nth_error_In; eauto.
Qed.
End APPEND.

Lemma vb_append_ok l recs b other : good_layout l -> vb_rep l recs b -> any_inv other ->
  outcome (vb_rep l) (vb_append b other) (spec_append l recs other).
Proof.
  intros G R I. apply append_default_ok; auto.
  - intros r0 b0 (Hl & _ & _ & Hn). auto.
  - intros. now apply vb_resize_rep.
  - intros r0 b0 i data R0 L0 Hi. pose proof (vb_set_point_ok l G r0 b0 R0 i data L0) as O. unfold outcome in O.
    cbn [spec_step] in O. destruct (Nat.ltb_spec i (length r0)); [auto|lia].
Qed.

Lemma hb_append_ok l recs b other : good_layout l -> hb_rep l recs b -> any_inv other ->
  outcome (hb_rep l) (hb_append b other) (spec_append l recs other).
Proof.
  intros G R I. apply append_default_ok; auto.
  - intros r0 b0 (Hl & Hn & _). auto.
  - intros. now apply hb_resize_rep.
  - intros r0 b0 i data R0 L0 Hi. pose proof (hb_set_point_ok l G r0 b0 R0 i data L0) as O. unfold outcome in O.
    cbn [spec_step] in O. destruct (Nat.ltb_spec i (length r0)); [auto|lia].
Qed.

Lemma other_range_ref v : vb_inv v -> vb_get_point_range_ref v 0 (vb_len v) = Ok (concat (points_of (BV v))).
Proof.
  intros I. pose proof (vb_inv_rep v I) as R. destruct I as [G _]. rewrite (points_of_v _ _ v G R).
  rewrite (vb_get_point_range_ref_ok _ _ v 0 (vb_len v) R).
  - f_equal. f_equal. unfold sub. rewrite Nat.sub_0_r. simpl. apply firstn_all_ge. rewrite length_pieces. lia.
  - lia.
  - rewrite length_pieces. lia.
Qed.

Lemma push_concat_spec l recs pts : good_layout l -> uniform (l_size l) pts ->
  spec_step l recs (OPush (concat pts)) = Some (recs ++ pts).
Proof.
  intros G U. pose proof (good_size l G). cbn [spec_step]. rewrite (length_concat (l_size l)) by assumption.
  rewrite Nat.mod_mul by lia. simpl. rewrite Nat.div_mul by lia. now rewrite pieces_concat.
Qed.

Lemma vb_append_interleaved_ok l recs b other : good_layout l -> vb_rep l recs b -> vb_inv other ->
  outcome (vb_rep l) (vb_append_interleaved b other) (spec_append l recs (BV other)).
Proof.
  intros G R I. pose proof R as (Hl & _). unfold vb_append_interleaved, spec_append, outcome. rewrite Hl. cbn [any_layout].
  destruct (layout_eqb l (vb_layout other)) eqn:EQ; cbn [assert bind]; auto. apply layout_eqb_eq in EQ.
  rewrite other_range_ref by assumption. cbn [bind].
  destruct (points_of_uniform (BV other) I) as [U _]. cbn [any_layout] in U. rewrite <- EQ in U.
  pose proof (vb_push_ok l G recs b R (concat (points_of (BV other)))) as O.
  rewrite push_concat_spec in O by assumption. exact O.
Qed.

Lemma hb_append_interleaved_ok l recs b other : good_layout l -> hb_rep l recs b -> vb_inv other ->
  outcome (hb_rep l) (hb_append_interleaved b other) (spec_append l recs (BV other)).
Proof.
  intros G R I. pose proof R as (Hl & _). unfold hb_append_interleaved, spec_append, outcome. rewrite Hl. cbn [any_layout].
  destruct (layout_eqb l (vb_layout other)) eqn:EQ; cbn [assert bind]; auto. apply layout_eqb_eq in EQ.
  rewrite other_range_ref by assumption. cbn [bind].
  destruct (points_of_uniform (BV other) I) as [U _]. cbn [any_layout] in U. rewrite <- EQ in U.
  pose proof (hb_push_ok l G recs b R (concat (points_of (BV other)))) as O.
  rewrite push_concat_spec in O by assumption. exact O.
Qed.

Lemma vb_append_columnar_ok l recs b other : good_layout l -> vb_rep l recs b -> hb_inv other ->
  outcome (vb_rep l) (vb_append_columnar b other) (spec_append l recs (BH other)).
Proof.
  intros G R I. pose proof R as (Hl & _ & _ & Hn). unfold vb_append_columnar, spec_append, outcome. rewrite Hl, Hn.
  cbn [any_layout].
  destruct (layout_eqb l (hb_layout other)) eqn:EQ; cbn [assert bind]; auto. apply layout_eqb_eq in EQ.
  destruct (points_of_uniform (BH other) I) as [U LP]. cbn [any_layout any_len] in *.
  edestruct (foldM_range (fun i b => vb_rep l (appended (l_size l) recs (points_of (BH other)) i) b)) as [st' [E1 E2]].
  4: { rewrite E1. exists st'. split; auto. rewrite <- LP, appended_all in E2. exact E2. }
  - lia.
  - rewrite <- LP, <- appended_zero. now apply vb_resize_rep.
  - intros i b1 Hi R1.
    destruct (nth_error_get (points_of (BH other)) i) as [p Hp]; [lia|].
    assert (Z : nth_error (appended (l_size l) recs (points_of (BH other)) i) (length recs + i) = Some (repeat 0%Z (l_size l))).
    { unfold appended. rewrite nth_error_app2 by lia. replace (length recs + i - length recs) with i by lia.
      assert (LF : length (firstn i (points_of (BH other))) = i) by (rewrite firstn_length; lia).
      rewrite nth_error_app2 by lia. rewrite LF, Nat.sub_diag. rewrite nth_error_repeat by lia. reflexivity. }
    rewrite (vb_get_point_ref_ok l _ b1 _ _ R1 Z). cbn [bind].
    pose proof (any_get_point_points (BH other) i p (repeat 0%Z (l_size l)) I Hp) as GP. cbn [any_get_point any_layout] in GP.
    rewrite GP by (left; now rewrite EQ). cbn [bind]. eexists. split; [reflexivity|].
    pose proof R1 as (Hl1 & Hs1 & U1 & Hn1). unfold vb_psize. rewrite Hl1, Hs1.
    assert (Lp : length p = l_size l) by (rewrite EQ; exact (uniform_nth _ _ _ _ U Hp)).
    rewrite blit_concat_one; auto. 2: rewrite length_appended; lia.
    rewrite (appended_step _ _ _ _ p Hp). apply vb_write_rep with (recs := appended (l_size l) recs (points_of (BH other)) i); auto.
    + rewrite <- (appended_step _ _ _ _ p Hp). now apply uniform_set_nth.
    + rewrite !length_appended by lia. reflexivity.
Qed.

Lemma hb_append_columnar_ok l recs b other : good_layout l -> hb_rep l recs b -> hb_inv other ->
  outcome (hb_rep l) (hb_append_columnar b other) (spec_append l recs (BH other)).
Proof.
  intros G R I. pose proof R as (Hl & Hn & U & K & C). unfold hb_append_columnar, spec_append, outcome. rewrite Hl.
  cbn [any_layout].
  destruct (layout_eqb l (hb_layout other)) eqn:EQ; cbn [assert bind]; auto. apply layout_eqb_eq in EQ.
  pose proof (hb_inv_rep other I) as RO. rewrite <- EQ in RO. pose proof RO as (_ & HnO & UO & KO & CO).
  set (g := fun m c => let* o := hb_get_attribute_range_ref other (m_def m) 0 (hb_len other) in Ok (c ++ o)).
  rewrite (foldM_ext_in _ (col_step g)).
  2: { intros m h Hm. unfold col_step, g. destruct (unwrap (hm_get h (m_def m))); auto. simpl.
       now destruct (hb_get_attribute_range_ref other (m_def m) 0 (hb_len other)). }
  destruct (col_fold l g (fun m => concat (map (attr_value m) recs))
               (fun m => concat (map (attr_value m) (recs ++ points_of (BH other)))) (hb_map b)) as (h & E & K' & C'); auto.
  - intros m Hm. unfold g, hb_get_attribute_range_ref, hb_column. rewrite CO by assumption. cbn [unwrap bind].
    destruct (col_facts l G _ other RO m Hm) as (UV & LC & AS & P & B). rewrite AS.
    rewrite slice_get_ok by nia. cbn [bind]. rewrite map_app, concat_app. f_equal. f_equal.
    unfold sub. simpl. apply firstn_all_ge. nia.
  - rewrite E. cbn [bind]. eexists. split; [reflexivity|]. unfold hb_rep. simpl.
    split; [|split; [|split; [|split]]]; auto.
    + rewrite app_length. lia.
    + now apply uniform_app.
    + congruence.
Qed.

(* ------------------------------------------------------------------ steps and histories *)

Lemma vb_step_ok l recs b o : good_layout l -> vb_rep l recs b -> op_ok l (length recs) o ->
  outcome (vb_rep l) (vb_step b o) (spec_step l recs o).
Proof.
  intros G R OK. destruct o; cbn [vb_step].
  - now apply vb_push_ok.
  - cbn [spec_step]. eexists. split; [reflexivity|]. now apply vb_resize_rep.
  - cbn [spec_step]. eexists. split; [reflexivity|]. eapply vb_clear_rep; eauto.
  - now apply vb_set_point_ok.
  - destruct OK. now apply vb_set_point_range_ok.
  - now apply vb_set_attribute_ok.
  - destruct OK. now apply vb_set_attribute_range_ok.
  - now apply vb_swap_ok.
  - now apply vb_append_ok.
  - now apply vb_append_interleaved_ok.
  - now apply vb_append_columnar_ok.
Qed.

Lemma hb_step_ok l recs b o : good_layout l -> hb_rep l recs b -> op_ok l (length recs) o ->
  outcome (hb_rep l) (hb_step b o) (spec_step l recs o).
Proof.
  intros G R OK. destruct o; cbn [hb_step].
  - now apply hb_push_ok.
  - cbn [spec_step]. eexists. split; [reflexivity|]. now apply hb_resize_rep.
  - cbn [spec_step]. eexists. split; [reflexivity|]. eapply hb_clear_rep; eauto.
  - now apply hb_set_point_ok.
  - destruct OK. now apply hb_set_point_range_ok.
  - now apply hb_set_attribute_ok.
  - destruct OK. now apply hb_set_attribute_range_ok.
  - now apply hb_swap_ok.
  - now apply hb_append_ok.
  - now apply hb_append_interleaved_ok.
  - now apply hb_append_columnar_ok.
Qed.

Lemma run_ok {B} (rep : list rec -> B -> Prop) (step : B -> op -> res B) l :
  (forall recs b o, rep recs b -> op_ok l (length recs) o -> outcome rep (step b o) (spec_step l recs o)) ->
  forall ops recs b, rep recs b -> history_ok l recs ops -> outcome rep (foldM step ops b) (spec_run l recs ops).
Proof.
  intros HS. induction ops as [|o ops IH]; intros recs b R HO.
  - simpl. eexists. split; eauto.
  - cbn [foldM spec_run]. destruct HO as [O1 O2]. pose proof (HS recs b o R O1) as O. unfold outcome in O.
    destruct (spec_step l recs o) as [recs'|].
    + destruct O as (b' & -> & R'). cbn [bind]. now apply IH.
    + rewrite O. reflexivity.
Qed.

Lemma vb_history l ops : good_layout l -> history_ok l [] ops ->
  match spec_run l [] ops with
  | Some recs => exists b, foldM vb_step ops (vb_new l) = Ok b /\ vb_layout b = l /\ vb_reads_as b recs
  | None => foldM vb_step ops (vb_new l) = Panic
  end.
Proof.
  intros G HO. pose proof (run_ok (vb_rep l) vb_step l (fun recs b o => vb_step_ok l recs b o G) ops [] (vb_new l)
    (vb_new_rep l) HO) as O. unfold outcome in O. destruct (spec_run l [] ops) as [recs|]; auto.
  destruct O as (b & E & R). exists b. split; [|split]; auto. now destruct R. eapply vb_reads; eauto.
Qed.

Lemma hb_history l ops : good_layout l -> history_ok l [] ops ->
  match spec_run l [] ops with
  | Some recs => exists b, foldM hb_step ops (hb_new l) = Ok b /\ hb_layout b = l /\ hb_reads_as b recs
                  /\ (forall a c, In (a, c) (hb_map b) -> length c = hb_len b * dt_size (ad_type a))
  | None => foldM hb_step ops (hb_new l) = Panic
  end.
Proof.
  intros G HO. pose proof (run_ok (hb_rep l) hb_step l (fun recs b o => hb_step_ok l recs b o G) ops [] (hb_new l)
    (hb_new_rep l G) HO) as O. unfold outcome in O. destruct (spec_run l [] ops) as [recs|]; auto.
  destruct O as (b & E & R). exists b. split; [|split; [|split]]; auto. now destruct R. eapply hb_reads; eauto.
  now destruct (hb_rep_inv l recs b G R) as (_ & _ & ?).
Qed.

(* ------------------------------------------------------------------ filter *)

Definition kept (p : nat -> bool) (recs : list rec) : list rec :=
  map (fun i => nth i recs []) (matching (length recs) p).

Lemma matching_In n p i : In i (matching n p) <-> i < n /\ p i = true.
Proof. unfold matching, range. rewrite filter_In, in_seq. rewrite Nat.sub_0_r. intuition lia. Qed.

Lemma uniform_kept sz p recs : uniform sz recs -> uniform sz (kept p recs).
Proof.
  intros U. apply uniform_map. intros i Hi. apply matching_In in Hi. destruct Hi as [Hi _].
  destruct (nth_error_get recs i) as [r Hr]; auto. rewrite (nth_nth_error _ _ _ _ Hr). eapply uniform_nth; eauto.
Qed.

Lemma combine_range {A} (l : list A) k i x : nth_error (combine (range 0 (length l)) l) k = Some (i, x) ->
  i = k /\ nth_error l k = Some x.
Proof.
  rewrite nth_error_combine2. unfold range. rewrite Nat.sub_0_r, nth_error_seq.
  destruct (Nat.ltb k (length l)); [|discriminate]. destruct (nth_error l k); [|discriminate].
  intros E; injection E as <- <-. auto.
Qed.

(* copying the matching entries, one after the other *)
Lemma copy_loop sz off n (idx : list nat) (v : nat -> list Z) recs (f : list Z -> nat * nat -> res (list Z)) :
  uniform sz recs -> length idx <= length recs -> off + n <= sz ->
  (forall i, In i idx -> length (v i) = n) ->
  (forall d di si, di < length idx -> In si idx -> length d = length recs * sz ->
      f d (di, si) = Ok (blit d (di * sz + off) (v si))) ->
  foldM f (combine (range 0 (length idx)) idx) (concat recs)
  = Ok (concat (mapi (fun k r => match nth_error idx k with Some i => blit r off (v i) | None => r end) recs)).
Proof.
  intros U L B LV HF.
  destruct (foldM_list (fun pre d => d = concat (mapi (fun k r => if Nat.ltb k (length pre) then
        match nth_error idx k with Some i => blit r off (v i) | None => r end else r) recs)) f
     (combine (range 0 (length idx)) idx) (concat recs)) as [st' [E1 E2]].
  - rewrite mapi_id; auto.
  - intros pre [di si] post d E ->.
    assert (N : nth_error (combine (range 0 (length idx)) idx) (length pre) = Some (di, si)).
    { rewrite E, nth_error_app2, Nat.sub_diag by lia. reflexivity. }
    apply combine_range in N. destruct N as [-> Hs]. pose proof (nth_error_lt _ _ _ Hs).
    assert (Hin : In si idx) by (eapply nth_error_In; eauto).
    set (cur := mapi _ recs).
    assert (UM : uniform sz cur).
    { apply uniform_mapi. intros k r Hr. pose proof (uniform_nth _ _ _ _ U Hr).
      destruct (Nat.ltb k (length pre)); auto. destruct (nth_error idx k) as [i|] eqn:Hi; auto.
      rewrite length_blit; auto. rewrite (LV i); [lia|]. eapply nth_error_In; eauto. }
    assert (LM : length cur = length recs) by (unfold cur; apply length_mapi).
    rewrite HF; auto. 2: { rewrite (length_concat sz) by assumption. now rewrite LM. }
    eexists. split; [reflexivity|]. destruct (nth_error_get recs (length pre)) as [r Hr]; [lia|].
    rewrite (blit_concat_in sz cur (length pre) r).
    + f_equal. unfold cur. apply nth_error_ext. intros k. unfold set_nth. rewrite !nth_error_mapi.
      destruct (nth_error recs k) as [x|] eqn:Hx; auto. simpl. f_equal. rewrite app_length. simpl length.
      destruct (Nat.eqb_spec k (length pre)).
      * subst. destruct (Nat.ltb_spec (length pre) (length pre + 1)); [|lia]. rewrite Hs. congruence.
      * destruct (Nat.ltb_spec k (length pre)), (Nat.ltb_spec k (length pre + 1)); auto; lia.
    + assumption.
    + unfold cur. rewrite nth_error_mapi, Hr. simpl. destruct (Nat.ltb_spec (length pre) (length pre)); [lia|reflexivity].
    + rewrite (LV si Hin). assumption.
  - rewrite E1, E2. f_equal. f_equal. apply mapi_ext. intros k r Hr.
    rewrite combine_length. unfold range. rewrite seq_length, Nat.sub_0_r, Nat.min_id.
    destruct (Nat.ltb_spec k (length idx)); auto. now rewrite (nth_error_None_ge idx).
Qed.

Lemma hb_filter_columnar_into l recs b trecs t p hint : good_layout l -> hb_rep l recs b -> hb_rep l trecs t ->
  (hint = None \/ hint = Some (length (matching (length recs) p))) ->
  if Nat.leb (length (matching (length recs) p)) (length trecs)
  then exists t', hb_filter_into_columnar b t p hint = Ok t'
         /\ hb_rep l (kept p recs ++ skipn (length (matching (length recs) p)) trecs) t'
  else hb_filter_into_columnar b t p hint = Panic.
Proof.
  intros G R RT HH. pose proof R as (Hl & Hn & U & K & C). pose proof RT as (HlT & HnT & UT & KT & CT).
  unfold hb_filter_into_columnar. rewrite Hl, HlT, Hn, HnT.
  assert (EQ : layout_eqb l l = true) by now apply layout_eqb_eq. rewrite EQ. cbn [assert bind].
  set (idx := matching (length recs) p) in *.
  assert (NUM : match hint with Some n => n | None => length idx end = length idx) by (destruct HH as [->| ->]; auto).
  rewrite NUM. destruct (Nat.ltb_spec (length trecs) (length idx)).
  { cbn. destruct (Nat.leb_spec (length idx) (length trecs)); [lia|reflexivity]. }
  destruct (Nat.leb_spec (length idx) (length trecs)); [|lia]. cbn [negb assert bind].
  set (fl := fun (stride : nat) (src d : list Z) (ij : nat * nat) =>
                let '(di, si) := ij in
                let* v := slice_get src (si * stride) ((si + 1) * stride) in
                slice_set d (di * stride) ((di + 1) * stride) v).
  set (g := fun m c =>
              let* src := hb_get_attribute_range_ref b (m_def m) 0 (length recs) in
              let* dst := slice_get c (0 * ad_size (m_def m)) (length idx * ad_size (m_def m)) in
              let* dst' := foldM (fl (m_size m) src) (combine (range 0 (length idx)) idx) dst in
              Ok (blit c 0 dst')).
  set (trecs' := kept p recs ++ skipn (length idx) trecs).
  rewrite (foldM_ext_in _ (col_step g)).
  2: { intros m h Hm. unfold col_step, g.
       assert (E : exists v, hb_get_attribute_range_ref b (m_def m) 0 (length recs) = Ok v).
       { unfold hb_get_attribute_range_ref, hb_column. rewrite C by assumption. cbn [unwrap bind].
         destruct (col_facts l G _ b R m Hm) as (UV & LC & AS & P & B). rewrite AS. rewrite slice_get_ok by nia. eauto. }
       destruct E as [v E]. rewrite E. cbn [bind]. destruct (unwrap (hm_get h (m_def m))); auto. cbn [bind].
       destruct (slice_get a (0 * ad_size (m_def m)) (length idx * ad_size (m_def m))); auto. cbn [bind]. cbv zeta.
       change (fun (d : list Z) (ij : nat * nat) => let '(di, si) := ij in
                let* v0 := slice_get v (si * m_size m) ((si + 1) * m_size m) in
                slice_set d (di * m_size m) ((di + 1) * m_size m) v0) with (fl (m_size m) v).
       now destruct (foldM (fl (m_size m) v) (combine (range 0 (length idx)) idx) a0). }
  destruct (col_fold l g (fun m => concat (map (attr_value m) trecs))
               (fun m => concat (map (attr_value m) trecs')) (hb_map t)) as (h & E & K' & C'); auto.
  - intros m Hm. destruct (col_facts l G _ b R m Hm) as (UV & LC & AS & P & B).
    destruct (col_facts l G _ t RT m Hm) as (UVT & LCT & _).
    unfold g, hb_get_attribute_range_ref, hb_column. rewrite C by assumption. cbn [unwrap bind]. rewrite AS.
    rewrite slice_get_ok by nia. cbn [bind]. rewrite (slice_get_ok _ (0 * m_size m)) by nia. cbn [bind].
    replace (sub (concat (map (attr_value m) recs)) (0 * m_size m) (length recs * m_size m - 0 * m_size m))
      with (concat (map (attr_value m) recs)).
    2: { unfold sub. simpl. symmetry. apply firstn_all_ge. nia. }
    replace (sub (concat (map (attr_value m) trecs)) (0 * m_size m) (length idx * m_size m - 0 * m_size m))
      with (concat (map (attr_value m) (firstn (length idx) trecs))).
    2: { unfold sub. cbn [Nat.mul skipn]. rewrite Nat.sub_0_r. rewrite firstn_concat by assumption. now rewrite firstn_map. }
    rewrite (copy_loop (m_size m) 0 (m_size m) idx (fun i => attr_value m (nth i recs [])) (map (attr_value m) (firstn (length idx) trecs))).
    + cbn [bind]. f_equal. unfold trecs'. rewrite map_app, concat_app.
      set (new := concat (mapi _ _)).
      assert (NEW : new = concat (map (attr_value m) (kept p recs))).
      { unfold new. f_equal. apply nth_error_ext. intros k. rewrite nth_error_mapi, nth_error_map.
        unfold kept. fold idx. rewrite map_map, nth_error_map, nth_error_firstn.
        destruct (Nat.ltb_spec k (length idx)).
        - destruct (nth_error_get trecs k) as [x Hx]; [lia|]. destruct (nth_error_get idx k) as [i Hi]; [lia|].
          rewrite Hx, Hi. simpl. try rewrite Hi. f_equal. apply blit_whole.
          assert (i < length recs) by (eapply matching_In, nth_error_In, Hi).
          destruct (nth_error_get recs i) as [r Hr]; auto. rewrite (nth_nth_error _ _ _ _ Hr).
          rewrite (length_attr_value l m r), (length_attr_value l m x); auto.
          exact (uniform_nth _ _ _ _ UT Hx). exact (uniform_nth _ _ _ _ U Hr).
        - simpl. now rewrite (nth_error_None_ge idx). }
      rewrite NEW. unfold blit. simpl firstn. rewrite app_nil_l. f_equal. cbn [Nat.add].
      rewrite (length_concat (m_size m)) by (apply uniform_values with (l := l); auto; now apply uniform_kept).
      rewrite map_length. unfold kept. rewrite map_length. fold idx. rewrite skipn_concat by assumption.
      now rewrite skipn_map.
    + apply uniform_values with (l := l); auto. now apply uniform_firstn.
    + rewrite map_length, firstn_length. lia.
    + lia.
    + intros i Hi. apply matching_In in Hi. destruct (nth_error_get recs i) as [r Hr]; [tauto|].
      rewrite (nth_nth_error _ _ _ _ Hr). eapply length_attr_value; eauto. exact (uniform_nth _ _ _ _ U Hr).
    + intros d di si Hdi Hsi Ld. unfold fl. apply matching_In in Hsi. destruct Hsi as [Hsi _].
      rewrite map_length, firstn_length in Ld.
      rewrite slice_get_ok by nia. cbn [bind]. replace ((si + 1) * m_size m - si * m_size m) with (m_size m) by lia.
      destruct (nth_error_get recs si) as [r Hr]; auto. rewrite (nth_nth_error _ _ _ _ Hr).
      rewrite (sub_concat_one (m_size m) _ si (attr_value m r)); auto. 2: now rewrite nth_error_map, Hr.
      assert (length (attr_value m r) = m_size m) by (eapply length_attr_value; eauto; exact (uniform_nth _ _ _ _ U Hr)).
      rewrite Nat.add_0_r. apply slice_set_ok; nia.
  - rewrite E. cbn [bind]. eexists. split; [reflexivity|]. apply hb_write_rep with (recs := trecs); auto.
    + apply uniform_app. now apply uniform_kept. now apply uniform_skipn.
    + unfold trecs'. rewrite app_length, skipn_length. unfold kept. rewrite map_length. fold idx. lia.
Qed.

Lemma hb_filter_interleaved_into l recs b trecs t p hint : good_layout l -> hb_rep l recs b -> vb_rep l trecs t ->
  (hint = None \/ hint = Some (length (matching (length recs) p))) ->
  if Nat.leb (length (matching (length recs) p)) (length trecs)
  then exists t', hb_filter_into_interleaved b t p hint = Ok t'
         /\ vb_rep l (mapi (fun k r => match nth_error (matching (length recs) p) k with
                                       | Some i => overlay l (nth i recs []) r | None => r end) trecs) t'
  else hb_filter_into_interleaved b t p hint = Panic.
Proof.
  intros G R RT HH. pose proof R as (Hl & Hn & U & K & C). pose proof RT as (HlT & HsT & UT & HnT).
  unfold hb_filter_into_interleaved, hb_psize. rewrite Hl, HlT, Hn, HnT.
  assert (EQ : layout_eqb l l = true) by now apply layout_eqb_eq. rewrite EQ. cbn [assert bind].
  set (idx := matching (length recs) p) in *.
  assert (NUM : match hint with Some n => n | None => length idx end = length idx) by (destruct HH as [->| ->]; auto).
  rewrite NUM. destruct (Nat.ltb_spec (length trecs) (length idx)).
  { cbn. destruct (Nat.leb_spec (length idx) (length trecs)); [lia|reflexivity]. }
  destruct (Nat.leb_spec (length idx) (length trecs)); [|lia]. cbn [negb assert bind].
  rewrite (vb_get_point_range_ref_ok l trecs) by (auto; lia). cbn [bind]. rewrite Nat.sub_0_r.
  replace (sub trecs 0 (length idx)) with (firstn (length idx) trecs) by reflexivity.
  set (dst := firstn (length idx) trecs).
  assert (UD : uniform (l_size l) dst) by now apply uniform_firstn.
  assert (LD : length dst = length idx) by (unfold dst; rewrite firstn_length; lia).
  assert (IDX : forall i, In i idx -> exists r, nth_error recs i = Some r /\ length r = l_size l).
  { intros i Hi. apply matching_In in Hi. destruct (nth_error_get recs i) as [r Hr]; [tauto|]. exists r. split; auto.
    exact (uniform_nth _ _ _ _ U Hr). }
  set (Q := fun (pre : list member) k (q : list Z) =>
         length q = l_size l
         /\ (forall m i, In m pre -> nth_error idx k = Some i -> attr_value m q = attr_value m (nth i recs []))
         /\ (forall j, ~ covered l j -> nth_error q j = nth_error (nth k dst []) j)).
  edestruct (foldM_list (fun pre d => exists ps, d = concat ps /\ uniform (l_size l) ps /\ length ps = length idx
                              /\ forall k q, nth_error ps k = Some q -> Q pre k q)) as [d [Ed Pd]].
  3: { rewrite Ed. cbn [bind]. eexists. split; [reflexivity|]. destruct Pd as (ps & -> & Up & Np & Qp).
       rewrite HsT. replace 0 with (0 * l_size l) by lia. rewrite blit_concat by assumption.
       rewrite (blit_set_range _ 0 ps) by lia.
       replace (set_range 0 ps trecs) with (mapi (fun k r => match nth_error idx k with
                                       | Some i => overlay l (nth i recs []) r | None => r end) trecs).
       - apply vb_write_rep with (recs := trecs); auto. 2: apply length_mapi.
         apply uniform_mapi. intros k r Hr. pose proof (uniform_nth _ _ _ _ UT Hr).
         destruct (nth_error idx k); auto. now rewrite length_overlay.
       - apply mapi_ext. intros k r Hr. rewrite Nat.sub_0_r. cbn [Nat.leb andb Nat.add].
         destruct (Nat.ltb_spec k (length ps)).
         + destruct (nth_error_get ps k) as [q Hq]; auto. rewrite (nth_nth_error _ _ _ _ Hq).
           destruct (nth_error_get idx k) as [i Hi]; [lia|]. rewrite Hi.
           destruct (Qp k q Hq) as (Lq & V & Un). symmetry.
           destruct (IDX i) as [ri [Hri Lri]]. { eapply nth_error_In; eauto. }
           rewrite (nth_nth_error _ _ _ _ Hri) in *.
           apply overlay_unique; auto. exact (uniform_nth _ _ _ _ UT Hr).
           * intros m Hm. rewrite (V m i Hm Hi). now rewrite (nth_nth_error _ _ _ _ Hri).
           * intros j Hj. rewrite (Un j Hj). f_equal. apply nth_nth_error. unfold dst. rewrite nth_error_firstn.
             destruct (Nat.ltb_spec k (length idx)); [auto|lia].
         + rewrite (nth_error_None_ge idx) by lia. reflexivity. }
  - exists dst. split; [|split; [|split]]; auto. intros k q Hq. split; [|split].
    + exact (uniform_nth _ _ _ _ UD Hq).
    + simpl; tauto.
    + intros. now rewrite (nth_nth_error _ _ _ _ Hq).
  - intros pre m post d E (ps & -> & Up & Np & Qp).
    assert (Hm : In m (l_attrs l)) by (rewrite E; apply in_elt).
    assert (NP : ~ In m pre).
    { intros Hp. pose proof (good_defs l G) as ND. rewrite E, map_app in ND. simpl in ND.
      apply NoDup_remove_2 in ND. apply ND. apply in_or_app. left. now apply in_map. }
    destruct (col_facts l G _ b R m Hm) as (UV & LC & AS & P & B).
    unfold hb_get_attribute_range_ref, hb_column. rewrite C by assumption. cbn [unwrap bind]. rewrite AS.
    rewrite slice_get_ok by nia. cbn [bind].
    replace (sub (concat (map (attr_value m) recs)) (0 * m_size m) (length recs * m_size m - 0 * m_size m))
      with (concat (map (attr_value m) recs)).
    2: { unfold sub. simpl. symmetry. apply firstn_all_ge. nia. }
    cbv zeta.
    assert (LV : forall i, In i idx -> length (attr_value m (nth i recs [])) = m_size m).
    { intros i Hi. destruct (IDX i Hi) as [r [Hr Lr]]. rewrite (nth_nth_error _ _ _ _ Hr). eapply length_attr_value; eauto. }
    rewrite (copy_loop (l_size l) (m_offset m) (m_size m) idx (fun i => attr_value m (nth i recs [])) ps); auto.
    + eexists. split; [reflexivity|]. eexists. split; [reflexivity|]. split; [|split].
      * apply uniform_mapi. intros k r Hr. pose proof (uniform_nth _ _ _ _ Up Hr).
        destruct (nth_error idx k) as [i|] eqn:Hi; auto. rewrite length_blit; auto. rewrite LV; [lia|].
        eapply nth_error_In; eauto.
      * now rewrite length_mapi.
      * intros k q Hq. rewrite nth_error_mapi in Hq. destruct (nth_error ps k) as [q0|] eqn:Hq0; [|discriminate].
        simpl in Hq. injection Hq as <-. destruct (Qp k q0 Hq0) as (L0 & V0 & Un0).
        destruct (nth_error_get idx k) as [i Hi]. { apply nth_error_lt in Hq0. lia. }
        assert (Hin : In i idx) by (eapply nth_error_In; eauto). pose proof (LV i Hin) as LVi.
        rewrite Hi. split; [|split].
        -- rewrite length_blit; lia.
        -- rewrite blit_set_range by lia.
           change (set_range (m_offset m) (attr_value m (nth i recs [])) q0) with (with_attr m (attr_value m (nth i recs [])) q0).
           intros m' i' Hm' Hi'. rewrite Hi in Hi'. injection Hi' as <-.
           apply in_app_or in Hm'. destruct Hm' as [Hm'|[<-|[]]].
           ++ assert (In m' (l_attrs l)) by (rewrite E; apply in_or_app; auto).
              rewrite (attr_value_with_other l m m'); auto. intros ->. contradiction.
           ++ now apply (attr_value_with_same l).
        -- intros j Hj. rewrite nth_error_blit by lia. rewrite <- (Un0 j Hj).
           destruct (Nat.leb_spec (m_offset m) j); auto.
           destruct (Nat.ltb_spec j (m_offset m + length (attr_value m (nth i recs [])))); auto.
           exfalso. apply Hj. exists m. split; auto. unfold occupies. lia.
    + lia.
    + intros d di si Hdi Hsi Ld. pose proof (LV si Hsi) as LVs. destruct (IDX si Hsi) as [r [Hr Lr]].
      pose proof (nth_error_lt _ _ _ Hr).
      rewrite slice_get_ok by nia. cbn [bind]. replace ((si + 1) * m_size m - si * m_size m) with (m_size m) by lia.
      rewrite (nth_nth_error _ _ _ _ Hr) in *.
      rewrite (sub_concat_one (m_size m) _ si (attr_value m r)); auto. 2: now rewrite nth_error_map, Hr.
      rewrite (Nat.add_comm (m_offset m)). apply slice_set_ok; nia.
Qed.

(* ------------------------------------------------------------------ FromIterator *)

Lemma vb_push_all l pts : good_layout l -> uniform (l_size l) pts -> forall recs b, vb_rep l recs b ->
  exists b', foldM vb_push_points pts b = Ok b' /\ vb_rep l (recs ++ pts) b'.
Proof.
  intros G U. induction U as [|p pts Hp U IH]; intros recs b R.
  - simpl. exists b. now rewrite app_nil_r.
  - simpl. pose proof (vb_push_ok l G recs b R (concat [p])) as O. rewrite push_concat_spec in O.
    2: assumption. 2: repeat constructor; assumption. simpl in O. rewrite app_nil_r in O.
    destruct O as (b' & -> & R'). simpl. destruct (IH _ _ R') as (b2 & E & R2). exists b2. split; auto.
    now rewrite <- app_assoc in R2.
Qed.

Lemma hb_push_all l pts : good_layout l -> uniform (l_size l) pts -> forall recs b, hb_rep l recs b ->
  exists b', foldM hb_push_points pts b = Ok b' /\ hb_rep l (recs ++ pts) b'.
Proof.
  intros G U. induction U as [|p pts Hp U IH]; intros recs b R.
  - simpl. exists b. now rewrite app_nil_r.
  - simpl. pose proof (hb_push_ok l G recs b R (concat [p])) as O. rewrite push_concat_spec in O.
    2: assumption. 2: repeat constructor; assumption. simpl in O. rewrite app_nil_r in O.
    destruct O as (b' & -> & R'). simpl. destruct (IH _ _ R') as (b2 & E & R2). exists b2. split; auto.
    now rewrite <- app_assoc in R2.
Qed.

Lemma concat_zero sz n : concat (repeat (repeat 0%Z sz) n) = repeat 0%Z (n * sz).
Proof. induction n as [|n IH]; simpl; auto. rewrite repeat_app. now rewrite IH. Qed.

Lemma vb_from_iter_known l pts n : good_layout l -> uniform (l_size l) pts -> length pts <= n ->
  exists b, vb_from_iter l (Some n) pts = Ok b
            /\ vb_rep l (pts ++ repeat (repeat 0%Z (l_size l)) (n - length pts)) b.
Proof.
  intros G U L. unfold vb_from_iter.
  destruct (foldM_list (fun pre b => vb_rep l (firstn (length pre) pts ++ repeat (repeat 0%Z (l_size l)) (n - length pre)) b)
     (fun b ip => vb_set_point b (fst ip) (snd ip)) (combine (range 0 (length pts)) pts)
     (mk_vbuf (repeat 0%Z (n * l_size l)) l n)) as [b [E R]].
  - cbn [length firstn app]. rewrite Nat.sub_0_r. unfold vb_rep. simpl. split; [|split; [|split]]; auto.
    + now rewrite concat_zero.
    + apply uniform_repeat.
    + now rewrite repeat_length.
  - intros pre [i p] post b E R. cbn [fst snd].
    assert (N : nth_error (combine (range 0 (length pts)) pts) (length pre) = Some (i, p)).
    { rewrite E, nth_error_app2, Nat.sub_diag by lia. reflexivity. }
    apply combine_range in N. destruct N as [-> Hp]. pose proof (nth_error_lt _ _ _ Hp).
    assert (LF : length (firstn (length pre) pts) = length pre) by (rewrite firstn_length; lia).
    pose proof (vb_set_point_ok l G _ b R (length pre) p (uniform_nth _ _ _ _ U Hp)) as O.
    unfold outcome in O. cbn [spec_step] in O. rewrite app_length, repeat_length, LF in O.
    destruct (Nat.ltb_spec (length pre) (length pre + (n - length pre))); [|lia].
    destruct O as (b' & E' & R'). exists b'. split; auto.
    rewrite app_length. cbn [length]. rewrite (firstn_snoc _ _ _ Hp).
    replace (n - length pre) with (S (n - (length pre + 1))) in R' by lia. cbn [repeat] in R'.
    pose proof (mid_set_nth [] (firstn (length pre) pts) (repeat 0%Z (l_size l)) p (repeat (repeat 0%Z (l_size l)) (n - (length pre + 1)))) as MS.
    cbn [length app Nat.add] in MS. rewrite LF in MS. rewrite MS in R'. now rewrite <- app_assoc.
  - exists b. split; auto. rewrite combine_length in R. unfold range in R.
    rewrite seq_length, Nat.sub_0_r, Nat.min_id, firstn_all in R. exact R.
Qed.

(* ------------------------------------------------------------------ attribute pusher *)

(* all values of one attribute are pushed in one range per attribute of the layout *)
Lemma pusher_all l recs b n (vals : member -> list (list Z)) ms : good_layout l -> hb_rep l recs b -> 0 < n ->
  (forall m, In m (l_attrs l) -> length (vals m) = n /\ uniform (m_size m) (vals m)) ->
  Permutation.Permutation ms (l_attrs l) ->
  exists p b', foldM (fun p m => pusher_push p (m_type m) (m_def m) (vals m)) ms (pusher_new b) = Ok p
    /\ pusher_done p b = Ok b'
    /\ hb_layout b' = l /\ hb_len b' = length recs + n
    /\ map fst (hb_map b') = map m_def (l_attrs l)
    /\ forall m, In m (l_attrs l) ->
         hm_get (hb_map b') (m_def m) = Some (concat (map (attr_value m) recs ++ vals m)).
Proof.
  intros G R PN HV PM. pose proof R as (Hl & Hn & U & K & C).
  assert (INP : forall m, In m ms <-> In m (l_attrs l)).
  { intros m. split; apply Permutation.Permutation_in; [|apply Permutation.Permutation_sym]; auto. }
  assert (NDM : NoDup (map m_def ms)).
  { eapply Permutation.Permutation_NoDup; [|apply (good_defs l G)].
    apply Permutation.Permutation_map. now apply Permutation.Permutation_sym. }
  destruct (foldM_list (fun pre p => map fst (pu_map p) = map m_def (l_attrs l)
        /\ (pu_num p = if Nat.eqb (length pre) 0 then None else Some n)
        /\ forall m, In m (l_attrs l) -> (In m pre -> hm_get (pu_map p) (m_def m) = Some (concat (vals m)))
                                       /\ (~ In m pre -> hm_get (pu_map p) (m_def m) = Some []))
     (fun p m => pusher_push p (m_type m) (m_def m) (vals m)) ms (pusher_new b)) as (p & E & KP & NP & CP).
  - unfold pusher_new. simpl. rewrite Hl, map_map. simpl. split; [|split]; auto. intros m Hm. split; [tauto|].
    intros _. apply hm_get_In.
    + rewrite map_map. simpl. now apply good_defs.
    + apply in_map_iff. exists m. auto.
  - intros pre m post p E (KP & NP & CP).
    assert (Hm : In m (l_attrs l)) by (apply INP; rewrite E; apply in_elt).
    assert (NPr : ~ In m pre).
    { intros Hp. rewrite E, map_app in NDM. simpl in NDM.
      apply NoDup_remove_2 in NDM. apply NDM. apply in_or_app. left. now apply in_map. }
    destruct (HV m Hm) as [LVm UVm]. unfold pusher_push.
    assert (DT : datatype_eqb (m_type m) (ad_type (m_def m)) = true) by now apply datatype_eqb_eq.
    rewrite DT. cbn [assert bind]. destruct (CP m Hm) as [_ C0]. rewrite (C0 NPr). cbn [unwrap bind].
    assert (AS : (match pu_num p with Some n0 => Nat.eqb n0 (length (vals m)) | None => true end) = true).
    { rewrite NP. destruct (Nat.eqb (length pre) 0); auto. rewrite LVm. apply Nat.eqb_refl. }
    rewrite AS. cbn [assert bind app]. eexists. split; [reflexivity|]. cbn [pu_map pu_num]. split; [|split].
    + now rewrite hm_set_keys.
    + rewrite NP, app_length. cbn [length]. destruct (Nat.eqb_spec (length pre) 0), (Nat.eqb_spec (length pre + 1) 0);
        try lia; now rewrite ?LVm.
    + intros m' Hm'. destruct (CP m' Hm') as [D1 D2].
      assert (DEC : m' = m \/ m_def m <> m_def m').
      { destruct (attr_def_eqb (m_def m) (m_def m')) eqn:Q.
        - apply attr_def_eqb_eq in Q. left. eapply good_def_inj; eauto.
        - right. intros Q'. rewrite Q', attr_def_eqb_refl in Q. discriminate. }
      destruct DEC as [->|N].
      * rewrite (hm_get_set_same _ _ _ _ (C0 NPr)). split; auto.
        intros X. exfalso. apply X. apply in_or_app. right. simpl; auto.
      * rewrite hm_get_set_other by assumption. split.
        -- intros X. apply in_app_or in X. destruct X as [X|[X|[]]]; auto. subst. contradiction.
        -- intros X. apply D2. intros Y. apply X. apply in_or_app. auto.
  - assert (CP' : forall m, In m (l_attrs l) -> hm_get (pu_map p) (m_def m) = Some (concat (vals m))).
    { intros m Hm. apply CP; auto. now apply INP. }
    assert (NE : length ms <> 0).
    { destruct (good_cons l G) as (m & ms' & A). destruct ms; [|simpl; lia].
      exfalso. apply (INP m). rewrite A. simpl; auto. }
    destruct (Nat.eqb_spec (length ms) 0); [lia|].
    assert (NDP : NoDup (map fst (pu_map p))) by (rewrite KP; now apply good_defs).
    exists p. unfold pusher_done. rewrite NP.
    destruct (Nat.eqb_spec n 0); [lia|].
    assert (NEM : forallb (fun kv => negb (Nat.eqb (length (snd kv)) 0)) (pu_map p) = true).
    { apply forallb_forall. intros [a c] Hin. simpl. assert (Ha : In a (map m_def (l_attrs l))).
      { rewrite <- KP. change a with (fst (a, c)). now apply in_map. }
      apply in_map_iff in Ha. destruct Ha as [m [<- Hm]]. apply hm_get_In in Hin; auto.
      rewrite (CP' m Hm) in Hin. injection Hin as <-. destruct (HV m Hm) as [LVm UVm].
      rewrite (length_concat (m_size m)) by assumption. destruct (good_member l m G Hm) as (P & _ & _).
      destruct (Nat.eqb_spec (length (vals m) * m_size m) 0); [nia|reflexivity]. }
    rewrite NEM. cbn [assert bind].
    assert (FOLD : forall post pre h, pu_map p = pre ++ post -> map fst h = map m_def (l_attrs l) ->
       (forall m, In m (l_attrs l) -> hm_get h (m_def m) = Some (concat (map (attr_value m) recs)
                                         ++ match hm_get pre (m_def m) with Some v => v | None => [] end)) ->
       exists h', foldM (fun h kv => let* c := unwrap (hm_get h (fst kv)) in Ok (hm_set h (fst kv) (c ++ snd kv))) post h = Ok h'
         /\ map fst h' = map m_def (l_attrs l)
         /\ forall m, In m (l_attrs l) -> hm_get h' (m_def m) = Some (concat (map (attr_value m) recs)
                                         ++ match hm_get (pu_map p) (m_def m) with Some v => v | None => [] end)).
    { induction post as [|[a v] post IH]; intros pre h EQ KH CH.
      - rewrite app_nil_r in EQ. rewrite EQ. exists h. simpl. auto.
      - assert (Ha : In a (map m_def (l_attrs l))).
        { rewrite <- KP, EQ, map_app. apply in_or_app. right. simpl; auto. }
        apply in_map_iff in Ha. destruct Ha as [m [<- Hm]].
        assert (NIN : hm_get pre (m_def m) = None).
        { apply hm_get_None. rewrite EQ, map_app in NDP. simpl in NDP. apply NoDup_remove_2 in NDP.
          intros X. apply NDP. apply in_or_app. auto. }
        cbn [foldM fst snd]. pose proof (CH m Hm) as CHm. rewrite NIN, app_nil_r in CHm. rewrite CHm. cbn [unwrap bind].
        apply IH with (pre := pre ++ [(m_def m, v)]).
        + rewrite <- app_assoc. exact EQ.
        + now rewrite hm_set_keys.
        + intros m' Hm'.
          assert (AG : forall h1 h2 a0, hm_get (h1 ++ h2) a0 = match hm_get h1 a0 with Some x => Some x | None => hm_get h2 a0 end).
          { clear. induction h1 as [|[k c] h1 IH]; intros; simpl; auto. destruct (attr_def_eqb k a0); auto. }
          rewrite AG. cbn [hm_get]. destruct (attr_def_eqb (m_def m) (m_def m')) eqn:Q.
          * apply attr_def_eqb_eq in Q. rewrite <- Q. rewrite (hm_get_set_same _ _ _ _ CHm), NIN.
            assert (m' = m) by (eapply good_def_inj; eauto). now subst.
          * rewrite hm_get_set_other. 2: intros Q'; rewrite Q', attr_def_eqb_refl in Q; discriminate.
            rewrite (CH m' Hm'). destruct (hm_get pre (m_def m')); auto. }
    destruct (FOLD (pu_map p) [] (hb_map b)) as (h' & EF & KF & CF); auto.
    { intros m Hm. simpl. rewrite app_nil_r. auto. }
    rewrite EF. cbn [bind]. eexists. split; [exact E|]. split; [reflexivity|]. cbn [hb_layout hb_len hb_map].
    split; [auto|]. split; [lia|]. split; [exact KF|]. intros m Hm. rewrite (CF m Hm), (CP' m Hm). now rewrite concat_app.
Qed.

(* ------------------------------------------------------------------ ExternalMemoryBuffer *)

Definition as_vector (e : ebuf) : vbuf := mk_vbuf (eb_mem e) (eb_layout e) (eb_len e).
Definition same_effect (r : res ebuf) (r' : res vbuf) : Prop :=
  match r, r' with
  | Ok e, Ok v => as_vector e = v
  | Err, Err | Panic, Panic => True
  | _, _ => False
  end.

Lemma same_effect_map e r : same_effect (let* st := r in Ok (eb_with_mem e st)) (let* st := r in Ok (vb_with_storage (as_vector e) st)).
Proof. destruct r; simpl; auto. Qed.

Lemma external_reads e :
  eb_get_point e = vb_get_point (as_vector e)
  /\ eb_get_point_range e = vb_get_point_range (as_vector e)
  /\ eb_get_attribute e = vb_get_attribute (as_vector e)
  /\ eb_get_attribute_range e = vb_get_attribute_range (as_vector e).
Proof. repeat split. Qed.

Lemma external_writes e :
  (forall i d, same_effect (eb_set_point e i d) (vb_set_point (as_vector e) i d))
  /\ (forall s t d, same_effect (eb_set_point_range e s t d) (vb_set_point_range (as_vector e) s t d))
  /\ (forall a i d, same_effect (eb_set_attribute e a i d) (vb_set_attribute (as_vector e) a i d))
  /\ (forall a s t d, same_effect (eb_set_attribute_range e a s t d) (vb_set_attribute_range (as_vector e) a s t d))
  /\ (forall i j, same_effect (eb_swap e i j) (vb_swap (as_vector e) i j)).
Proof.
  split; [|split; [|split; [|split]]].
  - intros. apply same_effect_map.
  - intros. apply same_effect_map.
  - intros. unfold eb_set_attribute, vb_set_attribute. cbn [as_vector vb_layout].
    destruct (get_attribute (eb_layout e) a); [|exact I]. cbn [unwrap bind]. apply same_effect_map.
  - intros. unfold eb_set_attribute_range, vb_set_attribute_range. cbn [as_vector vb_layout].
    destruct (get_attribute (eb_layout e) a); [|exact I]. cbn [unwrap bind]. apply same_effect_map.
  - intros. unfold eb_swap, vb_swap. cbn [as_vector vb_len].
    destruct (Nat.ltb i (eb_len e)); [|exact I]. destruct (Nat.ltb j (eb_len e)); [|exact I]. cbn [assert bind].
    destruct (Nat.eqb i j); [reflexivity|]. apply same_effect_map.
Qed.

Lemma eb_new_spec mem l : good_layout l ->
  match eb_new mem l with
  | Ok e => length mem mod l_size l = 0 /\ eb_len e * l_size l = length mem /\ eb_layout e = l /\ eb_mem e = mem
            /\ vb_inv (as_vector e)
  | _ => length mem mod l_size l <> 0
  end.
Proof.
  intros G. pose proof (good_size l G). unfold eb_new. destruct (Nat.eqb_spec (l_size l) 0); [lia|].
  destruct (Nat.eqb_spec (length mem mod l_size l) 0) as [E|E]; cbn [assert bind]; auto.
  assert (length mem = length mem / l_size l * l_size l).
  { pose proof (Nat.div_mod (length mem) (l_size l) n). lia. }
  simpl. split; [|split; [|split; [|split]]]; auto. split; auto.
Qed.
