(* Lemmas about the writers: chunks, and one call of write. *)
From Coq Require Import String List ZArith Lia Bool Arith SpecFloat ZifyBool ZifyNat ZifyN.
From Verif Require Import Base LayoutModel LayoutSpec LayoutProofs BufferModel BufferSpec ListLemmas BufferProofs TraitModel TraitSpec TraitProofs2
  NumModel ConvModel ConvSpec ConvProofs MathModel LasModel LasSpec LasProofs LasProofs2 LasIoModel LasIoSpec LasIoProofs LasIoProofs2.
Import ListNotations.
Open Scope nat_scope.

(* ---------- points with the same attribute values ---------- *)
Definition agree (l : layout) (p q : list Z) : Prop :=
  length p = l_size l /\ length q = l_size l /\ forall m, In m (l_attrs l) -> attr_value m p = attr_value m q.
Lemma las_value_agree l a p q : agree l p q -> las_value l a p = las_value l a q.
Proof.
  intros (_ & _ & H). unfold las_value. destruct (find _ (l_attrs l)) as [m|] eqn:F; [|reflexivity].
  apply find_some in F. rewrite (H m (proj1 F)). reflexivity.
Qed.
Lemma field_bytes_agree l t field p q : agree l p q -> field_bytes l t field p = field_bytes l t field q.
Proof.
  intros A. unfold field_bytes, small. rewrite !(fun a => las_value_agree l a p q A).
  destruct (las_attribute field) as [a|]; [rewrite (las_value_agree l a p q A)|]; reflexivity.
Qed.
Lemma record_of_agree n t l p q r : agree l p q -> record_of n t l p r -> record_of n t l q r.
Proof. intros A [L H]. split; [exact L|]. intros field o s I. rewrite <- (field_bytes_agree l t field p q A). exact (H field o s I). Qed.
Lemma representable_agree n t l p q : agree l p q -> representable n t l p -> representable n t l q.
Proof. intros A H field o s I. rewrite <- (field_bytes_agree l t field p q A). exact (H field o s I). Qed.
Lemma position_agree l p q : agree l p q -> point_position l p = point_position l q.
Proof. intros A. unfold point_position. rewrite (las_value_agree l _ p q A). reflexivity. Qed.
Lemma return_agree l p q : agree l p q -> point_return l p = point_return l q.
Proof. intros A. unfold point_return. rewrite (las_value_agree l _ p q A). reflexivity. Qed.

(* ---------- the values of the points of a chunk ---------- *)
Lemma default_points n f l ps rest : format_new n = Ok f -> las_type_layout n = Ok l -> uniform (l_size l) ps ->
  exists vs, read_default_points f (length ps) (concat ps ++ rest) = Ok vs /\ Forall2 (values_are f l) ps vs.
Proof.
  intros F D. induction ps as [|p ps IH]; intros U; cbn [length concat read_default_points].
  - exists []. split; [reflexivity|constructor].
  - inversion U as [|? ? U1 U2]; subst. destruct (IH U2) as (vs & E & V).
    destruct (default_values n f l p (concat ps ++ rest) F D U1) as (v & E1 & V1).
    rewrite <- app_assoc. rewrite E1. cbn [bind]. rewrite E. cbn [bind]. eexists. split; [reflexivity|]. constructor; assumption.
Qed.

Lemma custom_points_from f l chunk ps : good_layout l -> uniform (l_size l) ps -> forall o,
  (forall i p, nth_error ps i = Some p -> (o + i + 1) * l_size l <= length chunk /\ p = sub chunk ((o + i) * l_size l) (l_size l)) ->
  (exists vs, mapM (read_custom_values f l chunk) (range o (o + length ps)) = Ok vs /\ Forall2 (values_are f l) ps vs)
  \/ (mapM (read_custom_values f l chunk) (range o (o + length ps)) = Panic /\ Exists (value_missing f l) ps).
Proof.
  intros G. induction ps as [|p ps IH]; intros U o H.
  - left. exists []. rewrite range_empty by (simpl; lia). split; [reflexivity|constructor].
  - inversion U as [|? ? U1 U2]; subst. destruct (H 0 p eq_refl) as [L P]. rewrite Nat.add_0_r in *.
    rewrite range_step by (simpl; lia). cbn [length mapM].
    destruct (custom_values f l chunk o p G L P) as [(v & E & V)|[E V]]; rewrite E; cbn [bind].
    + destruct (IH U2 (S o)) as [(vs & E2 & V2)|[E2 V2]].
      * intros i q N. specialize (H (S i) q N). replace (S o + i) with (o + S i) by lia. exact H.
      * left. replace (o + S (length ps)) with (S o + length ps) by lia. rewrite E2. cbn [bind]. eexists. split; [reflexivity|]. constructor; assumption.
      * right. replace (o + S (length ps)) with (S o + length ps) by lia. rewrite E2. cbn [bind]. split; [reflexivity|]. apply Exists_cons_tl. exact V2.
    + right. split; [reflexivity|]. apply Exists_cons_hd. exact V.
Qed.
Lemma custom_points f l ps rest : good_layout l -> uniform (l_size l) ps ->
  (exists vs, mapM (read_custom_values f l (concat ps ++ rest)) (range 0 (length ps)) = Ok vs /\ Forall2 (values_are f l) ps vs)
  \/ (mapM (read_custom_values f l (concat ps ++ rest)) (range 0 (length ps)) = Panic /\ Exists (value_missing f l) ps).
Proof.
  intros G U. apply (custom_points_from f l (concat ps ++ rest) ps G U 0). intros i p N. cbn [Nat.add].
  pose proof (nth_error_lt _ _ _ N) as L. pose proof (length_concat _ _ U) as LC. split.
  - rewrite app_length, LC. nia.
  - unfold sub. rewrite skipn_app, firstn_app, skipn_length, LC.
    replace (l_size l - (length ps * l_size l - i * l_size l)) with 0 by nia. rewrite firstn_O, app_nil_r.
    symmetry. exact (sub_concat_one _ _ _ _ U N).
Qed.

(* ---------- the records of a chunk ---------- *)
Definition step_header (l : layout) (h : las_header) (p : list Z) : las_header := update_bounds_in_las_header (point_position l p) h.
Definition step_counts (l : layout) (c : list Z) (p : list Z) : list Z := count_return c (point_return l p).
Lemma write_values_ok n f t l custom ps vs : format_new n = Ok f -> Forall2 (values_are f l) ps vs -> forall out h counts,
  h_format h = f -> h_tr h = t ->
  match foldM (write_values custom) vs (out, h, counts) with
  | Ok (out', h', counts') =>
      exists rs, out' = out ++ concat rs /\ Forall2 (record_of n t l) ps rs /\ h' = fold_left (step_header l) ps h
      /\ counts' = (if custom then counts else fold_left (step_counts l) ps counts)
  | Err => False
  | Panic => Exists (fun p => ~ representable n t l p) ps
  end.
Proof.
  intros F V. induction V as [|p v ps vs V1 V2 IH]; intros out h counts HF HT; cbn [foldM].
  - exists []. cbn. rewrite app_nil_r. repeat split; auto. destruct custom; reflexivity.
  - unfold write_values at 1. rewrite HF, HT. pose proof (write_record_no_extra n f t l p v F V1) as W.
    destruct (write_record f t v) as [r| |]; cbn [bind]; [|destruct W|].
    2:{ apply Exists_cons_hd. exact W. }
    destruct (getter_ok _ _ _ _ 0 _ _ _ V1 eq_refl eq_refl) as [E0 _]. destruct (getter_ok _ _ _ _ 2 _ _ _ V1 eq_refl eq_refl) as [E2 _].
    assert (P1 : vec3_f64 (v_position v) = point_position l p) by (unfold point_position; rewrite E0; reflexivity).
    assert (P2 : le_dec (v_return_number v) = point_return l p) by (unfold point_return; rewrite E2; reflexivity).
    rewrite P1, P2.
    specialize (IH (out ++ r) (step_header l h p) (if custom then counts else step_counts l counts p) HF HT).
    change (update_bounds_in_las_header (point_position l p) h) with (step_header l h p).
    change (count_return counts (point_return l p)) with (step_counts l counts p).
    destruct (foldM (write_values custom) vs _) as [[[out' h'] counts']| |].
    + destruct IH as (rs & -> & R & -> & ->). exists (r :: rs). cbn [concat]. rewrite app_assoc. repeat split; auto.
      * constructor; [exact (proj1 W)|exact R].
      * destruct custom; reflexivity.
    + exact IH.
    + apply Exists_cons_tl. exact IH.
Qed.

Lemma Forall2_records_length n t l ps rs : Forall2 (record_of n t l) ps rs -> uniform (record_length n) rs /\ length rs = length ps.
Proof.
  intros H. induction H as [|p r ps rs H1 H2 [IH1 IH2]]; [split; [constructor|reflexivity]|].
  split; [constructor; [exact (proj1 H1)|exact IH1]|simpl; lia].
Qed.

(* ---------- one chunk ---------- *)
Lemma agree_fold {A} (g : A -> list Z -> A) l ps qs : (forall a p q, agree l p q -> g a p = g a q) -> Forall2 (agree l) ps qs ->
  forall a, fold_left g ps a = fold_left g qs a.
Proof. intros H F. induction F as [|p q ps qs F1 F2 IH]; intros a; simpl; [reflexivity|]. rewrite (H a p q F1). apply IH. Qed.
Lemma agree_records n t l ps qs rs : Forall2 (agree l) ps qs -> Forall2 (record_of n t l) ps rs -> Forall2 (record_of n t l) qs rs.
Proof.
  intros A. revert rs. induction A as [|p q ps qs A1 A2 IH]; intros rs R; inversion R; subst; constructor.
  - eapply record_of_agree; eassumption.
  - apply IH. assumption.
Qed.
Lemma agree_Exists (P : list Z -> Prop) l ps qs : (forall p q, agree l p q -> P p -> P q) -> Forall2 (agree l) ps qs -> Exists P ps -> Exists P qs.
Proof.
  intros H A. induction A as [|p q ps qs A1 A2 IH]; intros E; inversion E; subst; [apply Exists_cons_hd|apply Exists_cons_tl]; eauto.
Qed.

Lemma into_agree b r d : bf_wf b -> length r = l_size (bf_layout b) -> length d = l_size (bf_layout b) -> agree (bf_layout b) (into b r d) r.
Proof.
  intros W L D. destruct (bf_wf_root b W) as (_ & _ & _ & G). unfold into. destruct (bf_columnar b); [|split; [exact L|split; [exact L|reflexivity]]].
  split; [unfold overlay; rewrite length_mapi; exact D|]. split; [exact L|]. intros m I. destruct (good_member _ _ G I) as (_ & _ & IN).
  unfold attr_value. apply nth_error_ext. intros k. rewrite !nth_error_sub. destruct (Nat.ltb_spec k (m_size m)) as [K|K]; [|reflexivity].
  unfold overlay. rewrite nth_error_mapi.
  destruct (nth_error_get d (m_offset m + k) ltac:(lia)) as [x X]. rewrite X. cbn [option_map].
  assert (E : existsb (fun m0 => Nat.leb (m_offset m0) (m_offset m + k) && Nat.ltb (m_offset m + k) (m_offset m0 + m_size m0)) (l_attrs (bf_layout b)) = true).
  { apply existsb_exists. exists m. split; [exact I|]. lia. }
  rewrite E. destruct (nth_error_get r (m_offset m + k) ltac:(lia)) as [y Y]. rewrite Y. f_equal. apply nth_nth_error. exact Y.
Qed.

Lemma chunk_points b i j dst : bf_wf b -> i <= j -> j <= bf_len b -> length dst = (j - i) * l_size (bf_layout b) ->
  exists qs, bf_get_point_range b i j dst = Ok (concat qs) /\ Forall2 (agree (bf_layout b)) qs (sub (bf_points b) i (j - i)) /\ length qs = j - i.
Proof.
  intros W L1 L2 D. destruct (bf_wf_reads b W) as (LEN & _ & R & _). destruct (bf_points_uniform b W) as [U _].
  rewrite R by (rewrite <- ?LEN; assumption).
  eexists. split; [reflexivity|]. rewrite map_length, seq_length. split; [|reflexivity].
  assert (Q : sub (bf_points b) i (j - i) = map (fun k => nth (i + k) (bf_points b) []) (seq 0 (j - i))).
  { apply nth_error_ext. intros k. rewrite nth_error_sub, nth_error_map, nth_error_seq. destruct (Nat.ltb_spec k (j - i)); [|reflexivity]. cbn [option_map Nat.add].
    destruct (nth_error_get (bf_points b) (i + k) ltac:(lia)) as [x X]. rewrite X. f_equal. symmetry. apply nth_nth_error. exact X. }
  rewrite Q. clear Q. assert (K : forall k, In k (seq 0 (j - i)) -> k < j - i) by (intros k I; apply in_seq in I; lia). revert K.
  generalize (seq 0 (j - i)). intros ks. induction ks as [|k ks IH]; intros K; constructor.
  - apply into_agree; [exact W| |].
    + destruct (nth_error_get (bf_points b) (i + k)) as [x X]; [specialize (K k (or_introl eq_refl)); lia|].
      rewrite (nth_nth_error _ _ _ _ X). exact (uniform_nth _ _ _ _ U X).
    + apply length_sub. specialize (K k (or_introl eq_refl)). nia.
  - apply IH. intros k' I. apply K. right. exact I.
Qed.

(* the points a writer with default layout l0 takes in its two modes *)
Definition mode_ok (n : nat) (custom : bool) (l : layout) : Prop := custom = false -> las_type_layout n = Ok l.
Definition padding (laz custom : bool) (k : nat) : nat := if laz && custom then k else 0.

Lemma write_chunk_ok n f t laz custom chunk b cb lb st h counts k :
  format_new n = Ok f -> bf_wf b -> mode_ok n custom (bf_layout b) -> h_format h = f -> h_tr h = t ->
  length cb = chunk * l_size (bf_layout b) -> length lb = chunk * record_length n -> k * chunk < bf_len b ->
  let m := Nat.min chunk (bf_len b - k * chunk) in
  let ps := sub (bf_points b) (k * chunk) m in
  match write_chunk laz custom chunk b (cb, lb, st, h, counts) k with
  | Ok (cb', lb', st', h', counts') =>
      length cb' = length cb /\ length lb' = length lb
      /\ exists rs junk, st' = st ++ concat rs ++ junk /\ Forall2 (record_of n t (bf_layout b)) ps rs
         /\ length junk = padding laz custom ((chunk - m) * record_length n)
         /\ h' = fold_left (step_header (bf_layout b)) ps h
         /\ counts' = (if custom then counts else fold_left (step_counts (bf_layout b)) ps counts)
  | Err => False
  | Panic => Exists (fun p => ~ representable n t (bf_layout b) p) ps
  end.
Proof.
  intros F W MO HF HT LCB LLB K m ps. unfold write_chunk. fold m. set (l := bf_layout b) in *.
  assert (M : m <= chunk) by apply Nat.le_min_l. assert (M2 : k * chunk + m <= bf_len b) by lia.
  rewrite slice_get_ok by nia. cbn [bind]. rewrite Nat.sub_0_r.
  destruct (chunk_points b (k * chunk) (k * chunk + m) (sub cb 0 (m * l_size l)) W ltac:(lia) M2) as (qs & E & A & LQ).
  { rewrite length_sub; [|fold l; nia]. fold l. f_equal. lia. }
  rewrite E. cbn [bind]. replace (k * chunk + m - k * chunk) with m in A, LQ by lia. fold ps l in A. fold l.
  assert (UQ : uniform (l_size l) qs).
  { clear -A. induction A; constructor; [exact (proj1 H)|assumption]. }
  assert (LC : length (concat qs) = m * l_size l) by (rewrite (length_concat _ _ UQ), LQ; reflexivity).
  assert (B : blit cb 0 (concat qs) = concat qs ++ skipn (length (concat qs)) cb) by reflexivity.
  rewrite B. set (rest := skipn _ cb).
  assert (VS : (exists vs, (if custom then mapM (read_custom_values (h_format h) l (concat qs ++ rest)) (range 0 m)
                            else read_default_points (h_format h) m (concat qs ++ rest)) = Ok vs /\ Forall2 (values_are f l) qs vs)
            \/ ((if custom then mapM (read_custom_values (h_format h) l (concat qs ++ rest)) (range 0 m)
                 else read_default_points (h_format h) m (concat qs ++ rest)) = Panic /\ Exists (value_missing f l) qs)).
  { rewrite HF, <- LQ. destruct (bf_wf_root b W) as (_ & _ & _ & G). destruct custom; [exact (custom_points f l qs rest G UQ)|].
    left. exact (default_points n f l qs rest F (MO eq_refl) UQ). }
  destruct VS as [(vs & EV & V)|[EV V]]; rewrite EV; cbn [bind].
  2:{ apply (agree_Exists _ l qs ps (fun p q A0 N R => N (representable_agree n t l q p ltac:(destruct A0 as (? & ? & HH); split; [assumption|split; [assumption|intros; symmetry; apply HH; assumption]]) R)) A).
      clear -V F. induction V; [apply Exists_cons_hd; eapply missing_not_representable; eassumption|apply Exists_cons_tl; assumption]. }
  pose proof (write_values_ok n f t l custom qs vs F V [] h counts HF HT) as WV.
  destruct (foldM (write_values custom) vs ([], h, counts)) as [[[out h'] counts']| |]; cbn [bind]; [|destruct WV|].
  2:{ refine (agree_Exists _ l qs ps _ A WV). intros p q (A1 & A2 & A3) N R. apply N. apply (representable_agree n t l q p); [|exact R].
      split; [exact A2|split; [exact A1|intros; symmetry; auto]]. }
  destruct WV as (rs & OUT & R & HE & CE). cbn [app] in OUT. subst out.
  destruct (Forall2_records_length _ _ _ _ _ R) as [UR LR].
  assert (LO : length (concat rs) = m * record_length n) by (rewrite (length_concat _ _ UR), LR, LQ; reflexivity).
  pose proof (agree_records n t l qs ps rs A R) as R'.
  assert (HE' : h' = fold_left (step_header l) ps h).
  { rewrite HE. apply (agree_fold _ l); [|exact A]. intros a p q AA. unfold step_header. rewrite (position_agree l p q AA). reflexivity. }
  assert (CE' : counts' = (if custom then counts else fold_left (step_counts l) ps counts)).
  { rewrite CE. destruct custom; [reflexivity|]. apply (agree_fold _ l); [|exact A]. intros a p q AA. unfold step_counts. rewrite (return_agree l p q AA). reflexivity. }
  assert (RL : h_record_length h' = record_length n).
  { assert (HF' : h_format h' = f).
    { rewrite HE'. clear -HF. revert h HF. generalize ps. intros xs. induction xs as [|x xs IH]; intros h HF; simpl; [exact HF|]. apply IH. exact HF. }
    unfold h_record_length. rewrite HF'. destruct (format_of_u8 n f 0 F) as [_ Q]. rewrite (with_extra_0 _ _ F) in Q. lia. }
  assert (LB : length (concat qs ++ rest) = length cb).
  { unfold rest. rewrite app_length, skipn_length. nia. }
  unfold store_chunk. rewrite RL. destruct laz.
  - assert (LB2 : length (concat rs ++ skipn (length (concat rs)) lb) = length lb) by (rewrite app_length, skipn_length; nia).
    rewrite slice_get_ok by (rewrite ?LB2; destruct custom; nia). cbn [bind]. rewrite Nat.sub_0_r.
    split; [exact LB|]. split; [exact LB2|].
    assert (SB : forall c, m <= c -> c <= chunk -> sub (concat rs ++ skipn (length (concat rs)) lb) 0 (c * record_length n)
                 = concat rs ++ firstn ((c - m) * record_length n) (skipn (length (concat rs)) lb)).
    { intros c C1 C2. unfold sub. cbn [skipn]. rewrite firstn_app. rewrite firstn_all2 by nia. f_equal. f_equal. nia. }
    destruct custom.
    + rewrite (SB chunk) by lia. eexists rs, _. split; [reflexivity|]. split; [exact R'|]. split; [|split; [exact HE'|exact CE']].
      unfold padding. cbn [andb]. rewrite firstn_length, skipn_length. nia.
    + rewrite (SB m) by lia. eexists rs, _. split; [reflexivity|]. split; [exact R'|]. split; [|split; [exact HE'|exact CE']].
      rewrite Nat.sub_diag. reflexivity.
  - cbn [bind]. split; [exact LB|]. split; [reflexivity|]. exists rs, []. rewrite app_nil_r. repeat split; auto.
Qed.

(* ---------- one call ---------- *)
Lemma foldM_range_or {S} (P : nat -> S -> Prop) (Q : Prop) (f : S -> nat -> res S) s e : s <= e -> forall st, P s st ->
  (forall i st, s <= i -> i < e -> P i st -> match f st i with Ok st' => P (Datatypes.S i) st' | Err => False | Panic => Q end) ->
  match foldM f (range s e) st with Ok st' => P e st' | Err => False | Panic => Q end.
Proof.
  intros L. remember (e - s) as d eqn:D. revert s L D. induction d as [|d IH]; intros s L D st P0 H.
  - assert (s = e) by lia. subst. rewrite range_empty by lia. exact P0.
  - rewrite range_step by lia. cbn [foldM]. specialize (H s st ltac:(lia) ltac:(lia) P0) as H0.
    destruct (f st s) as [st'| |]; cbn [bind]; auto. apply IH; [lia|lia|exact H0|]. intros i st2 A B C. apply H; [lia|lia|exact C].
Qed.

Lemma firstn_chunk {A} (l : list A) k c : k * c < length l ->
  firstn (S k * c) l = firstn (k * c) l ++ sub l (k * c) (Nat.min c (length l - k * c)).
Proof.
  intros H. apply nth_error_ext. intros i. rewrite nth_error_firstn.
  destruct (Nat.lt_ge_cases i (k * c)) as [I|I].
  - rewrite nth_error_app1 by (rewrite firstn_length; lia). rewrite nth_error_firstn.
    destruct (Nat.ltb_spec i (S k * c)); [|lia]. destruct (Nat.ltb_spec i (k * c)); [reflexivity|lia].
  - rewrite nth_error_app2 by (rewrite firstn_length; lia). rewrite firstn_length, nth_error_sub.
    replace (Nat.min (k * c) (length l)) with (k * c) by lia. replace (k * c + (i - k * c)) with i by lia.
    destruct (Nat.ltb_spec i (S k * c)) as [J|J]; destruct (Nat.ltb_spec (i - k * c) (Nat.min c (length l - k * c))) as [J2|J2]; try reflexivity; try lia.
    apply nth_error_None. lia.
Qed.

(* records behind the last point of a call: a custom LAZ chunk is always stored in full *)
Definition chunks (chunk len : nat) : nat := (len + (chunk - 1)) / chunk.
Lemma chunks_bounds chunk len : 0 < chunk -> len <= chunks chunk len * chunk /\ (forall k, k < chunks chunk len -> k * chunk < len).
Proof.
  intros C. unfold chunks. pose proof (Nat.div_mod (len + (chunk - 1)) chunk ltac:(lia)) as D. pose proof (Nat.mod_upper_bound (len + (chunk - 1)) chunk ltac:(lia)) as M.
  set (q := (len + (chunk - 1)) / chunk) in *. set (r := (len + (chunk - 1)) mod chunk) in *. split; [nia|]. intros k K. nia.
Qed.

Lemma write_points_ok n f t custom chunk w b :
  format_new n = Ok f -> 0 < chunk -> bf_wf b -> mode_ok n custom (bf_layout b) -> h_format (w_header w) = f -> h_tr (w_header w) = t ->
  let l := bf_layout b in let ps := bf_points b in
  match write_points chunk custom w b with
  | Ok w' =>
      exists rs junk, Forall2 (record_of n t l) ps rs
      /\ length junk = padding (w_laz w) custom ((chunks chunk (length ps) * chunk - length ps) * record_length n)
      /\ ((ps = [] /\ w' = w /\ junk = []) \/
          (ps <> [] /\ w' = mk_writer (w_laz w) (w_default_layout w)
             (update_point_counts_in_las_header (length ps) (if custom then no_returns else fold_left (step_counts l) ps no_returns) (fold_left (step_header l) ps (w_header w)))
             (w_evlrs w) true (w_file w) (put (w_data w) (w_position w) (concat rs ++ junk)) (w_position w + length (concat rs ++ junk))))
  | Err => False
  | Panic => Exists (fun p => ~ representable n t l p) ps
  end.
Proof.
  intros F C W MO HF HT l ps. unfold write_points. destruct (bf_points_uniform b W) as [_ LP]. fold ps in LP.
  destruct (Nat.eqb_spec (bf_len b) 0) as [Z0|Z0].
  - assert (ps = []) as N by (destruct ps; [reflexivity|simpl in LP; lia]). exists [], []. rewrite N. split; [constructor|]. split; [|left; auto].
    cbn. unfold chunks. rewrite Nat.div_small by lia. unfold padding. destruct (_ && _); reflexivity.
  - fold (chunks chunk (bf_len b)). destruct (chunks_bounds chunk (bf_len b) C) as [CB1 CB2].
    set (nc := chunks chunk (bf_len b)) in *.
    assert (RL : h_record_length (w_header w) = record_length n).
    { unfold h_record_length. rewrite HF. destruct (format_of_u8 n f 0 F) as [_ Q]. rewrite (with_extra_0 _ _ F) in Q. lia. }
    rewrite RL. fold l.
    set (P := fun k (s : list Z * list Z * list Z * las_header * list Z) =>
      let '(cb, lb, st, h, counts) := s in
      length cb = chunk * l_size l /\ length lb = chunk * record_length n
      /\ h_format h = f /\ h_tr h = t
      /\ exists rs junk, st = concat rs ++ junk /\ Forall2 (record_of n t l) (firstn (k * chunk) ps) rs
         /\ length junk = padding (w_laz w) custom ((k * chunk - bf_len b) * record_length n)
         /\ h = fold_left (step_header l) (firstn (k * chunk) ps) (w_header w)
         /\ counts = (if custom then no_returns else fold_left (step_counts l) (firstn (k * chunk) ps) no_returns)).
    pose proof (foldM_range_or P (Exists (fun p => ~ representable n t l p) ps) (write_chunk (w_laz w) custom chunk b) 0 nc ltac:(lia)
      (repeat 0%Z (chunk * l_size l), repeat 0%Z (chunk * record_length n), [], w_header w, no_returns)) as FM.
    assert (P0 : P 0 (repeat 0%Z (chunk * l_size l), repeat 0%Z (chunk * record_length n), [], w_header w, no_returns)).
    { unfold P. rewrite !repeat_length. split; [reflexivity|]. split; [reflexivity|]. split; [exact HF|]. split; [exact HT|].
      exists [], []. cbn. split; [reflexivity|]. split; [constructor|]. split; [unfold padding; destruct (_ && _); reflexivity|]. split; [reflexivity|]. destruct custom; reflexivity. }
    specialize (FM P0).
    assert (ST : forall i st, 0 <= i -> i < nc -> P i st ->
      match write_chunk (w_laz w) custom chunk b st i with
      | Ok st' => P (S i) st' | Err => False | Panic => Exists (fun p => ~ representable n t l p) ps end).
    { intros i [[[[cb lb] st] h] counts] _ I (L1 & L2 & HF' & HT' & rs & junk & E1 & R & LJ & E2 & E3).
      specialize (CB2 i I). pose proof (write_chunk_ok n f t (w_laz w) custom chunk b cb lb st h counts i F W MO HF' HT' L1 L2 CB2) as WC. cbv zeta in WC.
      fold l ps in WC. set (m := Nat.min chunk (bf_len b - i * chunk)) in *.
      assert (FC : firstn (S i * chunk) ps = firstn (i * chunk) ps ++ sub ps (i * chunk) m).
      { unfold m. rewrite <- LP. apply firstn_chunk. lia. }
      destruct (write_chunk (w_laz w) custom chunk b (cb, lb, st, h, counts) i) as [[[[[cb' lb'] st'] h'] counts']| |].
      - destruct WC as (L3 & L4 & rs' & junk' & E4 & R' & LJ' & E5 & E6). unfold P. split; [lia|]. split; [lia|].
        assert (PR : forall xs (hh : las_header), h_format (fold_left (step_header l) xs hh) = h_format hh /\ h_tr (fold_left (step_header l) xs hh) = h_tr hh).
        { intros xs. induction xs as [|x xs IH]; intros hh; [split; reflexivity|]. cbn [fold_left]. destruct (IH (step_header l hh x)) as [Q1 Q2]. rewrite Q1, Q2. split; reflexivity. }
        split; [rewrite E5; rewrite (proj1 (PR _ _)); exact HF'|]. split; [rewrite E5; rewrite (proj2 (PR _ _)); exact HT'|].
        exists (rs ++ rs'), junk'. 
        assert (J0 : junk = []).
        { apply length_zero_iff_nil. rewrite LJ. replace (i * chunk - bf_len b) with 0 by lia. unfold padding. destruct (_ && _); reflexivity. }
        subst junk. rewrite app_nil_r in E1. rewrite FC, concat_app, <- app_assoc, <- E1. split; [exact E4|].
        split; [apply Forall2_app; assumption|]. split.
        { rewrite LJ'. f_equal. f_equal. unfold m. nia. }
        rewrite !fold_left_app, <- E2, <- E5. split; [reflexivity|]. rewrite E6. destruct custom; [exact E3|]. rewrite E3. reflexivity.
      - exact WC.
      - rewrite Exists_exists in *. destruct WC as (p & IN & N). exists p. split; [|exact N]. unfold sub in IN.
        assert (IN2 : In p (skipn (i * chunk) ps)) by (rewrite <- (firstn_skipn m (skipn (i * chunk) ps)); apply in_or_app; left; exact IN).
        rewrite <- (firstn_skipn (i * chunk) ps). apply in_or_app. right. exact IN2. }
    specialize (FM ST).
    destruct (foldM (write_chunk (w_laz w) custom chunk b) (range 0 nc) _) as [[[[[cb lb] st] h] counts]| |]; cbn [bind]; auto.
    destruct FM as (_ & _ & _ & _ & rs & junk & E1 & R & LJ & E2 & E3).
    rewrite firstn_all2 in R, E2, E3 by lia. exists rs, junk. split; [exact R|]. rewrite LP. split; [exact LJ|]. right.
    split; [intros N; rewrite N in LP; simpl in LP; lia|]. rewrite E1, E2, E3. reflexivity.
Qed.
