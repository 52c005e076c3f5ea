(* Writing: the text is the concatenation of the lines of the points. *)
From Coq Require Import String Ascii List ZArith Bool Arith Lia SpecFloat.
From Verif Require Import Base LayoutModel LayoutSpec LayoutProofs BufferModel BufferSpec TraitModel TraitSpec NumModel NumSpec NumProofs ConvModel
  ListLemmas BufferProofs TraitProofs TraitProofs2 LasIoProofs3 AsciiModel AsciiSpec AsciiProofs AsciiProofs2.
Import ListNotations.
Open Scope nat_scope.

Lemma mapM_app {A B} (f : A -> res B) l l' : mapM f (l ++ l') = let* x := mapM f l in let* y := mapM f l' in Ok (x ++ y).
Proof.
  induction l as [|a l IH]; cbn [app mapM bind]; [destruct (mapM f l'); reflexivity|].
  destruct (f a); cbn [bind]; [|reflexivity..]. rewrite IH. destruct (mapM f l); cbn [bind]; [|reflexivity..]. destruct (mapM f l'); reflexivity.
Qed.
Lemma mapM_agree {A B} (R : A -> A -> Prop) (f : A -> res B) l l' : (forall a a', R a a' -> f a = f a') -> Forall2 R l l' -> mapM f l = mapM f l'.
Proof. intros H. induction 1 as [|a a' l l' E _ IH]; [reflexivity|]. cbn [mapM]. rewrite (H a a' E), IH. reflexivity. Qed.

Lemma get_raw_agree l p q a : good_layout l -> agree l p q -> untyped_get_raw l p a = untyped_get_raw l q a.
Proof.
  intros G (L1 & L2 & H). unfold untyped_get_raw. change (get_attribute l a) with (member_of l a).
  destruct (member_of l a) as [m|] eqn:M; [|reflexivity]. pose proof (find_some _ _ M) as [I _]. destruct (good_member _ _ G I) as (_ & S & _).
  change (ad_type (m_def m)) with (m_type m) in S. rewrite <- S, L1, L2. specialize (H m I). unfold attr_value in H. rewrite H. reflexivity.
Qed.
Lemma column_text_agree prec l p q c : good_layout l -> agree l p q -> column_text prec l p c = column_text prec l q c.
Proof.
  intros G A. destruct c; cbn [column_text]; unfold coordinate_text, u64_text, color_text, flag_text, untyped_get; rewrite ?(get_raw_agree l p q _ G A); reflexivity.
Qed.
Lemma point_text_agree w l p q : good_layout l -> agree l p q -> point_text w l p = point_text w l q.
Proof.
  intros G A. unfold point_text. f_equal. apply foldM_ext_in. intros [i c] out _. rewrite (column_text_agree _ l p q c G A). reflexivity.
Qed.

(* the points of one chunk *)
Lemma chunk_lines w l qs rest : uniform (l_size l) qs -> forall out,
  foldM (fun out i => let* p := slice_get (concat qs ++ rest) (i * l_size l) (i * l_size l + l_size l) in
                      let* t := point_text w l p in Ok (out ++ t)) (range 0 (length qs)) out
  = let* ts := mapM (point_text w l) qs in Ok (out ++ concat ts).
Proof.
  intros U.
  assert (X : forall post pre out, qs = pre ++ post ->
    foldM (fun out i => let* p := slice_get (concat qs ++ rest) (i * l_size l) (i * l_size l + l_size l) in
                        let* t := point_text w l p in Ok (out ++ t)) (range (length pre) (length qs)) out
    = let* ts := mapM (point_text w l) post in Ok (out ++ concat ts)).
  { induction post as [|q post IH]; intros pre out E.
    - rewrite app_nil_r in E. rewrite range_empty by (rewrite E; lia). cbn [foldM mapM bind concat]. now rewrite app_nil_r.
    - rewrite range_step by (rewrite E, app_length; cbn [length]; lia). cbn [foldM mapM].
      assert (NQ : nth_error qs (length pre) = Some q) by (rewrite E, nth_error_app2, Nat.sub_diag by lia; reflexivity).
      assert (LQ : length q = l_size l) by exact (uniform_nth _ _ _ _ U NQ).
      assert (LL : length pre * l_size l + l_size l <= length (concat qs)).
      { rewrite (length_concat _ _ U). assert (length pre < length qs) by (rewrite E, app_length; cbn [length]; lia). nia. }
      rewrite slice_get_ok by (rewrite ?app_length; lia). cbn [bind].
      replace (length pre * l_size l + l_size l - length pre * l_size l) with (l_size l) by lia.
      assert (SQ : sub (concat qs ++ rest) (length pre * l_size l) (l_size l) = q).
      { unfold sub. rewrite skipn_app. replace (length pre * l_size l - length (concat qs)) with 0 by lia. cbn [skipn].
        rewrite firstn_app, skipn_length. replace (l_size l - (length (concat qs) - length pre * l_size l)) with 0 by lia. rewrite app_nil_r.
        exact (sub_concat_one _ _ _ _ U NQ). }
      rewrite SQ. destruct (point_text w l q) as [t| |]; cbn [bind]; [|reflexivity..].
      replace (S (length pre)) with (length (pre ++ [q])) by (rewrite app_length; cbn [length]; lia).
      rewrite (IH (pre ++ [q]) (out ++ t)) by (rewrite <- app_assoc; exact E).
      destruct (mapM (point_text w l) post) as [ts| |]; cbn [bind]; [|reflexivity..]. cbn [concat]. now rewrite app_assoc. }
  intros out. exact (X qs [] out eq_refl).
Qed.

Lemma ascii_chunk_ok chunk w b cb out k : bf_wf b -> length cb = chunk * l_size (bf_layout b) -> k * chunk < bf_len b ->
  exists cb', length cb' = length cb /\
  ascii_write_chunk chunk w b (cb, out) k
  = let* ts := mapM (point_text w (bf_layout b)) (sub (bf_points b) (k * chunk) (Nat.min chunk (bf_len b - k * chunk))) in Ok (cb', out ++ concat ts).
Proof.
  intros W LCB K. unfold ascii_write_chunk. set (m := Nat.min chunk (bf_len b - k * chunk)). set (l := bf_layout b) in *.
  assert (M : m <= chunk) by apply Nat.le_min_l. assert (M2 : k * chunk + m <= bf_len b) by lia.
  rewrite slice_get_ok by nia. cbn [bind]. rewrite Nat.sub_0_r.
  destruct (chunk_points b (k * chunk) (k * chunk + m) (sub cb 0 (m * l_size l)) W ltac:(lia) M2) as (qs & E & A & LQ).
  { rewrite length_sub; [|fold l; nia]. fold l. f_equal. lia. }
  rewrite E. cbn [bind]. replace (k * chunk + m - k * chunk) with m in A, LQ by lia. fold l in A. fold l.
  assert (UQ : uniform (l_size l) qs) by (clear -A; induction A; constructor; [exact (proj1 H)|assumption]).
  assert (LC : length (concat qs) = m * l_size l) by (rewrite (length_concat _ _ UQ), LQ; reflexivity).
  exists (blit cb 0 (concat qs)). split; [apply length_blit; nia|].
  assert (B : blit cb 0 (concat qs) = concat qs ++ skipn (length (concat qs)) cb) by reflexivity.
  rewrite B. pose proof (chunk_lines w l qs (skipn (length (concat qs)) cb) UQ out) as CL. rewrite LQ in CL. rewrite CL.
  destruct (bf_wf_root b W) as (_ & _ & _ & G).
  rewrite (mapM_agree (agree l) (point_text w l) qs (sub (bf_points b) (k * chunk) m) (fun p q => point_text_agree w l p q G) A).
  destruct (mapM (point_text w l) (sub (bf_points b) (k * chunk) m)); reflexivity.
Qed.

Lemma ascii_write_eq chunk w b : 0 < chunk -> bf_wf b ->
  ascii_write chunk w b = let* ts := mapM (point_text w (bf_layout b)) (bf_points b) in
                          Ok (mk_awriter (aw_out w ++ concat ts) (aw_delimiter w) (aw_precision w) (aw_columns w)).
Proof.
  intros C W. unfold ascii_write. fold (chunks chunk (bf_len b)). destruct (chunks_bounds chunk (bf_len b) C) as [CB1 CB2].
  set (nc := chunks chunk (bf_len b)) in *. set (l := bf_layout b). destruct (bf_points_uniform b W) as [_ LP].
  assert (X : forall d k cb out, d = nc - k -> k <= nc -> length cb = chunk * l_size l ->
    (let* '(_, o) := foldM (ascii_write_chunk chunk w b) (range k nc) (cb, out) in Ok o)
    = let* ts := mapM (point_text w l) (skipn (k * chunk) (bf_points b)) in Ok (out ++ concat ts)).
  { induction d as [|d IH]; intros k cb out D K LC.
    - rewrite range_empty by lia. cbn [foldM bind]. rewrite skipn_all2 by nia. cbn [mapM bind concat]. now rewrite app_nil_r.
    - rewrite range_step by lia. cbn [foldM]. destruct (ascii_chunk_ok chunk w b cb out k W LC (CB2 k ltac:(lia))) as (cb' & L' & E). rewrite E.
      assert (SK : skipn (k * chunk) (bf_points b) = sub (bf_points b) (k * chunk) (Nat.min chunk (bf_len b - k * chunk)) ++ skipn (S k * chunk) (bf_points b)).
      { unfold sub. rewrite <- (firstn_skipn (Nat.min chunk (bf_len b - k * chunk)) (skipn (k * chunk) (bf_points b))) at 1. f_equal.
        rewrite ListLemmas.skipn_skipn. destruct (Nat.le_gt_cases chunk (bf_len b - k * chunk)).
        - f_equal. lia.
        - rewrite !skipn_all2 by lia. reflexivity. }
      rewrite SK, mapM_app. fold l. set (sp := sub (bf_points b) _ _). destruct (mapM (point_text w l) sp) as [ts| |]; cbn [bind]; [|reflexivity..].
      pose proof (IH (S k) cb' (out ++ concat ts) ltac:(lia) ltac:(lia) ltac:(lia)) as IH'. etransitivity; [exact IH'|].
      destruct (mapM (point_text w l) (skipn (S k * chunk) (bf_points b))) as [ts2| |]; cbn [bind]; [|reflexivity..]. rewrite concat_app, app_assoc. reflexivity. }
  specialize (X nc 0 (repeat 0%Z (chunk * l_size l)) (aw_out w) ltac:(lia) ltac:(lia) ltac:(apply repeat_length)). cbn [skipn Nat.mul] in X.
  destruct (foldM (ascii_write_chunk chunk w b) (range 0 nc) _) as [[cb o]| |]; cbn [bind] in *; destruct (mapM (point_text w l) (bf_points b)); cbn [bind] in *; congruence.
Qed.

(* ---- one line ---- *)

Lemma point_text_join w l p ts : Forall2 (fun c t => column_text (aw_precision w) l p c = Ok t) (aw_columns w) ts ->
  point_text w l p = Ok (terminated (join (aw_delimiter w) ts)).
Proof.
  intros F. unfold point_text. set (n := length (aw_columns w)).
  assert (X : forall cols ts, Forall2 (fun c t => column_text (aw_precision w) l p c = Ok t) cols ts -> forall i out, i + length cols = n ->
    foldM (fun out e => let '(index, c) := e in
             let* t := column_text (aw_precision w) l p c in
             Ok (out ++ t ++ (if Nat.eqb index (n - 1) then [] else aw_delimiter w))) (combine (range i n) cols) out
    = Ok (out ++ join (aw_delimiter w) ts)).
  { induction 1 as [|c t cols ts' E F' IH]; intros i out L; cbn [length] in L.
    - rewrite range_empty by lia. cbn [combine foldM join]. now rewrite app_nil_r.
    - rewrite range_step by lia. cbn [combine foldM]. rewrite E. cbn [bind]. rewrite IH by lia. f_equal. rewrite <- app_assoc. f_equal.
      destruct F' as [|c2 t2 cols ts' E2 F2]; cbn [length] in L.
      + destruct (Nat.eqb_spec i (n - 1)); [|lia]. cbn [join]. rewrite !app_nil_r. reflexivity.
      + destruct (Nat.eqb_spec i (n - 1)); [lia|]. rewrite <- app_assoc. reflexivity. }
  rewrite (X _ ts F 0 [] ltac:(unfold n; lia)). reflexivity.
Qed.
Lemma point_text_err w l p pre c post : aw_columns w = pre ++ c :: post -> column_text (aw_precision w) l p c = Err ->
  (forall c, In c pre -> column_text (aw_precision w) l p c <> Panic) -> point_text w l p = Err.
Proof.
  intros E C P. unfold point_text. set (n := length (aw_columns w)).
  assert (X : forall pre i out, i + length (pre ++ c :: post) = n -> (forall c, In c pre -> column_text (aw_precision w) l p c <> Panic) ->
    foldM (fun out e => let '(index, c) := e in
             let* t := column_text (aw_precision w) l p c in
             Ok (out ++ t ++ (if Nat.eqb index (n - 1) then [] else aw_delimiter w))) (combine (range i n) (pre ++ c :: post)) out = Err).
  { induction pre0 as [|c0 pre0 IH]; intros i out L NP; cbn [length app] in L; rewrite range_step by lia; cbn [app combine foldM].
    - rewrite C. reflexivity.
    - specialize (NP c0 (or_introl eq_refl)) as N0. destruct (column_text (aw_precision w) l p c0); cbn [bind]; [|reflexivity|congruence].
      apply IH; [lia|]. intros c' I. apply NP. right. exact I. }
  rewrite E. rewrite X; [reflexivity|unfold n; rewrite E; lia|exact P].
Qed.
