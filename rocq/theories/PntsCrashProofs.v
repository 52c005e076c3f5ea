(* Proofs about interrupted writers of PNTS files. *)
From Coq Require Import String List ZArith Lia Bool Arith Permutation SpecFloat.
From Verif Require Import Base LayoutModel LayoutSpec LayoutProofs BufferModel BufferSpec ListLemmas BufferProofs
  TraitModel TraitSpec NumModel NumSpec NumProofs ConvModel ConvSpec MathModel LasModel LasIoModel PntsModel PntsSpec PntsProofs PntsProofs2 PntsProofs3 PntsProofs4 PntsProofs5 PntsProofs6 PntsProofs7
  PntsProofs8 PntsProofs9 PntsProofs10 PntsProofs11 PntsExamples PntsCrashModel PntsCrashSpec.
Import ListNotations.
Open Scope nat_scope.

(* ---- the calls write the file ---- *)
Lemma zeros_if n : concat (if Nat.eqb n 0 then [] else [repeat 0%Z n]) = repeat 0%Z n.
Proof. destruct n; cbn [Nat.eqb concat]; [reflexivity|apply app_nil_r]. Qed.
Lemma body_writes_eq w out : match body_writes w (length out) with
  | Ok ws => write_feature_table_body w out = Ok (out ++ concat ws) | Err => write_feature_table_body w out = Err | Panic => write_feature_table_body w out = Panic end.
Proof.
  unfold body_writes, write_feature_table_body.
  assert (X : forall ms out, foldM (fun out m =>
                let* data := hb_get_attribute_range_ref (pw_cache w) (m_def m) 0 (hb_len (pw_cache w)) in
                let size := m_size m * hb_len (pw_cache w) in
                Ok (out ++ data ++ repeat 0%Z (align_to size 8 - size))) ms out
    = let* ws := mapM (fun m =>
               let* data := hb_get_attribute_range_ref (pw_cache w) (m_def m) 0 (hb_len (pw_cache w)) in
               let size := m_size m * hb_len (pw_cache w) in
               let padding := align_to size 8 - size in
               Ok (data :: if Nat.eqb padding 0 then [] else [repeat 0%Z padding])) ms in Ok (out ++ concat (concat ws))).
  { induction ms as [|m ms IH]; intros o; cbn [foldM mapM bind]; [cbn [concat]; now rewrite app_nil_r|].
    destruct (hb_get_attribute_range_ref _ _ _ _) as [data| |]; cbn [bind]; [|reflexivity..]. rewrite IH. destruct (mapM _ ms); cbn [bind]; [|reflexivity..].
    cbn [concat app]. rewrite concat_app, zeros_if, <- !app_assoc. reflexivity. }
  rewrite X. destruct (mapM _ _) as [ws| |]; cbn [bind]; [|reflexivity..]. rewrite concat_app, zeros_if, app_length, <- app_assoc. reflexivity.
Qed.
Lemma writes_all ws : forall out, fold_left write_whole ws out = out ++ concat ws.
Proof. induction ws as [|x ws IH]; intros out; cbn [fold_left concat]; [now rewrite app_nil_r|]. rewrite IH. unfold write_whole. now rewrite app_assoc. Qed.
Lemma whole_sink take c w : (forall pos n, n <= take pos n) -> write_cached_points_some take c w = write_cached_points c w.
Proof.
  intros T. unfold write_cached_points_some, write_cached_points. destruct (create_feature_table w) as [table| |]; cbn [bind]; [|reflexivity..].
  do 5 (destruct (to_u32 _); cbn [bind]; [|reflexivity..]). unfold write_some, write_whole. rewrite firstn_all2 by apply T. rewrite <- app_assoc.
  match goal with |- context [body_writes w (length ?o)] => pose proof (body_writes_eq w o) as B; destruct (body_writes w (length o)) as [ws| |]; rewrite B end; cbn [bind]; [|reflexivity..].
  change (fun out bytes : list Z => out ++ bytes) with write_whole. rewrite writes_all, firstn_all2 by apply T. reflexivity.
Qed.
Lemma flush_writes_eq c w : match flush_writes c w with
  | Ok ws => exists w', write_cached_points c w = Ok w' /\ pw_out w' = pw_out w ++ concat ws
  | Err => write_cached_points c w = Err | Panic => write_cached_points c w = Panic end.
Proof.
  unfold flush_writes, write_cached_points. destruct (create_feature_table w) as [table| |]; cbn [bind]; [|reflexivity..].
  do 5 (destruct (to_u32 _); cbn [bind]; [|reflexivity..]).
  match goal with |- context [body_writes w (length ?o)] => pose proof (body_writes_eq w o) as B; destruct (body_writes w (length o)) as [ws| |]; rewrite B end; cbn [bind]; [|reflexivity..].
  eexists. split; [reflexivity|]. cbn [pw_out app concat]. rewrite concat_app. cbn [concat]. rewrite app_nil_r, <- !app_assoc. reflexivity.
Qed.
Lemma left_is_prefix before ws f : left_behind before ws f -> exists k, f = firstn k (before ++ concat ws).
Proof.
  intros [done_ next rest j k E|k]; [|eauto]. subst ws. exists (Nat.min k (length (before ++ concat done_ ++ firstn j next))).
  rewrite <- firstn_firstn. f_equal. rewrite concat_app. cbn [concat]. rewrite <- (firstn_skipn j next) at 3. rewrite <- !app_assoc, !app_assoc.
  set (a := ((before ++ concat done_) ++ firstn j next)). rewrite <- !app_assoc. rewrite firstn_app, firstn_all, Nat.sub_diag. cbn [firstn]. now rewrite app_nil_r.
Qed.

Lemma stopped_flush c w ws f : flush_writes c w = Ok ws -> left_behind (pw_out w) ws f ->
  exists w' k, write_cached_points c w = Ok w' /\ pw_out w' = pw_out w ++ concat ws /\ f = firstn k (pw_out w').
Proof.
  intros F L. pose proof (flush_writes_eq c w) as X. rewrite F in X. destruct X as (w' & E & O). destruct (left_is_prefix _ _ _ L) as (k & ->).
  exists w', k. rewrite O. auto.
Qed.

(* ---- reading a file without its end ---- *)
Definition below {A B} (g : A -> B) (x : res B) (y : res A) : Prop := x = Err \/ x = match y with Ok a => Ok (g a) | Err => Err | Panic => Panic end.
Lemma below_bind {A B A' B'} (g : A -> B) (g' : A' -> B') x y f f' : below g x y -> (forall a, y = Ok a -> below g' (f (g a)) (f' a)) -> below g' (bind x f) (bind y f').
Proof. intros [-> | ->] H; [left; reflexivity|]. destruct y as [a| |]; cbn [bind]; [apply H; reflexivity|right; reflexivity..]. Qed.
Lemma below_same {A} (x : res A) : below (fun a => a) x x.
Proof. right. destruct x; reflexivity. Qed.
Lemma below_fold {A S} (f f' : S -> A -> res S) l : (forall s a, below (fun a => a) (f s a) (f' s a)) -> forall s, below (fun a => a) (foldM f l s) (foldM f' l s).
Proof. intros H. induction l as [|a l IH]; intros s; cbn [foldM]; [apply below_same|]. apply (below_bind (fun a => a)); [apply H|]. intros s' _. apply IH. Qed.

Definition cut (k : nat) (r : pnts_reader) : pnts_reader := mk_pr (firstn k (pr_bytes r)) (pr_num r) (pr_rtc r) (pr_layout r) (pr_index r) (pr_offsets r) (pr_mode r).
Lemma sub_firstn {A} (l : list A) k i n : i + n <= k -> sub (firstn k l) i n = sub l i n.
Proof. intros L. unfold sub. rewrite skipn_firstn_comm, firstn_firstn. f_equal. lia. Qed.
Lemma cut_read_at k bytes pos n : below (fun a => a) (read_at (firstn k bytes) pos n) (read_at bytes pos n).
Proof.
  unfold read_at. rewrite firstn_length. destruct (Nat.leb_spec (pos + n) (Nat.min k (length bytes))) as [L|L]; [|left; reflexivity].
  right. replace (pos + n <=? length bytes) with true by (symmetry; apply Nat.leb_le; lia). rewrite sub_firstn by lia. reflexivity.
Qed.
Lemma cut_attribute k r n target b a : below (fun a => a) (read_attribute (cut k r) n target b a) (read_attribute r n target b a).
Proof.
  unfold read_attribute. destruct (get_attribute_by_name target (m_name a)) as [ta|]; [|apply below_same].
  apply (below_bind (fun a => a)); [apply below_same|]. intros first _. apply (below_bind (fun a => a)); [apply below_same|]. intros current _.
  apply (below_bind (fun a => a)); [apply below_same|]. intros [f|] _.
  - apply (below_bind (fun a => a)); [|intros; apply below_same]. apply below_fold. intros s i. apply (below_bind (fun a => a)); [apply cut_read_at|]. intros; apply below_same.
  - apply below_fold. intros s i. apply (below_bind (fun a => a)); [apply cut_read_at|]. intros; apply below_same.
Qed.
Lemma cut_read k r b count : below (fun x => let '(n, b, r) := x in (n, b, cut k r)) (read_into (cut k r) b count) (read_into r b count).
Proof.
  unfold read_into. cbn [cut pr_bytes pr_num pr_rtc pr_layout pr_index pr_offsets pr_mode]. destruct (Nat.eqb _ 0); [left; reflexivity|].
  apply (below_bind (fun a => a)); [apply below_fold; intros; apply cut_attribute|]. intros b1 _.
  apply (below_bind (fun a => a)); [destruct (pr_mode r); apply below_same|]. intros b2 _. right. reflexivity.
Qed.
Lemma cut_open c bytes k : below (cut k) (from_read c (firstn k bytes)) (from_read c bytes).
Proof.
  unfold from_read. apply (below_bind (fun h => h)).
  { unfold read_header. rewrite firstn_length. destruct (Nat.ltb_spec (Nat.min k (length bytes)) HEADER_LENGTH) as [L|L]; [left; reflexivity|]. unfold HEADER_LENGTH in *.
    replace (length bytes <? 28) with false by (symmetry; apply Nat.ltb_ge; lia). rewrite !sub_firstn by lia. right. destruct (list_eq_dec _ _ _); reflexivity. }
  intros h _. apply (below_bind (fun h => h)).
  { unfold deser_feature_table_header. apply (below_bind (fun h => h)); [|intros; apply below_same]. unfold read_json_header. set (size := Z.to_nat (ph_ft_json h)).
    rewrite !skipn_length, firstn_length. destruct (Nat.leb_spec size (Nat.min k (length bytes) - HEADER_LENGTH)) as [L|L]; [|left; reflexivity].
    replace (size <=? length bytes - HEADER_LENGTH) with true by (symmetry; apply Nat.leb_le; lia). right.
    replace (firstn size (skipn HEADER_LENGTH (firstn k bytes))) with (firstn size (skipn HEADER_LENGTH bytes)); [destruct (json_parse c _); reflexivity|].
    rewrite skipn_firstn_comm, firstn_firstn. f_equal. lia. }
  intros table _. apply (below_bind (fun h => h)); [apply below_same|]. intros x _. apply (below_bind (fun h => h)); [apply below_same|]. intros meta _.
  apply (below_bind (fun h => h)); [apply below_same|]. intros offs _. right. reflexivity.
Qed.
Lemma cut_reader k r b count : match read_into (cut k r) b count with
  | Ok (n, b', _) => exists r2, read_into r b count = Ok (n, b', r2) | Err => True | Panic => read_into r b count = Panic end.
Proof.
  destruct (cut_read k r b count) as [-> | ->]; [exact I|]. destruct (read_into r b count) as [((n, b'), r2)| |]; [eauto|exact I|reflexivity].
Qed.

Lemma interrupted c reread order l calls w0 w k : json_ok c reread -> (forall x, Permutation (order x) x) -> good_layout l -> pnts_ready l -> Forall (call_ok l) calls ->
  writer_new order l = Ok w0 -> run_and_drop c w0 calls = Ok w ->
  from_read c (firstn k (pw_out w)) = Err \/ exists r r', from_read c (pw_out w) = Ok r /\ holds r l (written (before_flush calls)) /\ from_read c (firstn k (pw_out w)) = Ok r'
    /\ pr_num r' = pr_num r /\ pr_rtc r' = pr_rtc r /\ pr_layout r' = pr_layout r
    /\ forall i m b count, match read_into (reader_at r' i m) b count with
         | Ok (n, b', _) => exists r2, read_into (reader_at r i m) b count = Ok (n, b', r2)
         | Err => True
         | Panic => read_into (reader_at r i m) b count = Panic
         end.
Proof.
  intros J P G RD OK N R. destruct (reopened c reread l order calls w0 w J P G RD OK N R) as (r & E & _ & H & _).
  destruct (cut_open c (pw_out w) k) as [X|X]; [left; exact X|]. rewrite E in X. right. exists r, (cut k r). split; [exact E|]. split; [exact H|]. split; [exact X|].
  split; [reflexivity|]. split; [reflexivity|]. split; [reflexivity|]. intros i m b count. exact (cut_reader k (reader_at r i m) b count).
Qed.

(* ---- all points are there ---- *)
Lemma body_there c reread order l calls w0 w k : json_ok c reread -> (forall x, Permutation (order x) x) -> good_layout l -> pnts_ready l -> Forall (call_ok l) calls ->
  writer_new order l = Ok w0 -> run_and_drop c w0 calls = Ok w -> end_of_body (pw_out w) <= k ->
  exists r, from_read c (firstn k (pw_out w)) = Ok r /\ reader_ok r /\ holds r l (written (before_flush calls))
    /\ pr_rtc r = option_map (map_p3 reread) (centre_set (before_flush calls)) /\ pr_index r = 0 /\ pr_mode r = Absolute.
Proof.
  intros J P G RD OK N R LK. destruct (file_written c reread l order calls J P G RD OK) as (w0' & E & H). rewrite N in E. injection E as <-. specialize (H w R).
  destruct (opened_body _ _ _ _ _ H G RD) as (r & E & (H1 & H2 & H3) & B & (L1 & L2) & GR & BY & RT & IX & MO). unfold end_of_body in LK.
  set (e := 28 + Z.to_nat (u32_at (pw_out w) 12) + Z.to_nat (u32_at (pw_out w) 16)) in *.
  assert (X : from_read c (firstn k (pw_out w)) = Ok (cut k r)).
  { assert (HB : 28 + Z.to_nat (u32_at (pw_out w) 12) <= k /\ 28 + Z.to_nat (u32_at (pw_out w) 12) <= length (pw_out w)) by lia. clear - E HB. set (bytes := pw_out w) in *. clearbody bytes. revert E.
    unfold from_read, read_header. rewrite firstn_length. replace (Nat.min k (length bytes) <? HEADER_LENGTH) with false by (symmetry; apply Nat.ltb_ge; unfold HEADER_LENGTH; lia).
    replace (length bytes <? HEADER_LENGTH) with false by (symmetry; apply Nat.ltb_ge; unfold HEADER_LENGTH; lia). rewrite !sub_firstn by lia.
    destruct (list_eq_dec Z.eq_dec (sub bytes 0 4) PNTS_MAGIC); [|discriminate]. cbn [bind ph_ft_json]. fold (u32_at bytes 12). set (size := Z.to_nat (u32_at bytes 12)) in *.
    unfold deser_feature_table_header, read_json_header. rewrite !skipn_length, firstn_length. unfold HEADER_LENGTH.
    replace (size <=? Nat.min k (length bytes) - 28) with true by (symmetry; apply Nat.leb_le; lia). replace (size <=? length bytes - 28) with true by (symmetry; apply Nat.leb_le; lia).
    rewrite skipn_firstn_comm, firstn_firstn, (Nat.min_l size (k - 28)) by lia.
    destruct (json_parse c (firstn size (skipn 28 bytes))) as [v|]; cbn [bind]; [|discriminate]. destruct v; try discriminate.
    destruct (mapM _ fields); cbn [bind]; try discriminate. destruct (layout_from_feature_table_header a); cbn [bind]; try discriminate.
    destruct (metadata_from_feature_table_header a); cbn [bind]; try discriminate. destruct (mapM _ _); cbn [bind]; try discriminate. intros Q. injection Q as <-. reflexivity. }
  exists (cut k r). split; [exact X|]. split.
  { split; [exact GR|]. split; [|cbn [cut pr_index pr_num]; lia]. intros m I. cbn [cut pr_layout pr_offsets pr_num pr_bytes] in *. destruct (B m I) as (o & A & L). exists o. split; [exact A|].
    rewrite BY, firstn_length. split; lia. }
  split; [|auto]. split; [exact H1|]. split; [|exact H3]. intros m key t I S. destruct (H2 m key t I S) as (rm & R1 & R2 & R3 & R4). exists rm. split; [exact R1|]. split; [exact R2|]. split; [exact R3|].
  intros i p NP. rewrite (R4 i p NP). f_equal. unfold file_value. cbn [cut pr_offsets pr_bytes]. destruct (B rm R1) as (o & A & L). rewrite A. symmetry. apply sub_firstn.
  assert (i < pr_num r) by (rewrite H1; apply nth_error_Some; rewrite NP; discriminate). nia.
Qed.

(* a write that takes one byte less of the feature table: the values are found one byte too late *)
Definition short_sink (pos n : nat) : nat := if Nat.eqb pos 28 then n - 1 else n.
Definition t_unflushed : pnts_writer := match foldM (writer_step ex_codec) t_calls t_writer with Ok w => w | _ => t_writer end.
Definition t_short : pnts_writer := match write_cached_points_some short_sink ex_codec t_unflushed with Ok w => w | _ => t_writer end.
Lemma short_refuted : exists c take calls w0 w w' r b r1 full b0 r0,
  (forall pos n, 0 < n -> take pos n <= n /\ (1 < n -> 0 < take pos n))
  /\ writer_new (fun x => x) t_layout = Ok w0 /\ foldM (writer_step c) calls w0 = Ok w /\ write_cached_points_some take c w = Ok w'
  /\ from_read c (pw_out w') = Ok r /\ read_into r (t_empty 4) 4 = Ok (4, b, r1)
  /\ write_cached_points c w = Ok full
  /\ (exists r2, from_read c (pw_out full) = Ok r2 /\ read_into r2 (t_empty 4) 4 = Ok (4, b0, r0)) /\ mb_points b <> mb_points b0.
Proof.
  exists ex_codec, short_sink, t_calls, t_writer, t_unflushed, t_short. eexists. eexists. eexists. exists (t_done t_calls). eexists. eexists.
  split; [intros pos n L; unfold short_sink; destruct (Nat.eqb pos 28); lia|]. split; [exact (proj1 t_runs)|]. split; [vm_compute; reflexivity|]. split; [vm_compute; reflexivity|].
  split; [vm_compute; reflexivity|]. split; [vm_compute; reflexivity|]. split; [vm_compute; reflexivity|].
  split; [exists t_reader; split; [vm_compute; reflexivity|vm_compute; reflexivity]|]. vm_compute. discriminate.
Qed.
Lemma not_detected : exists c reread l calls w0 w k r b,
  json_ok c reread /\ good_layout l /\ pnts_ready l /\ Forall (call_ok l) calls /\ writer_new (fun x => x) l = Ok w0 /\ run_and_drop c w0 calls = Ok w
  /\ k < length (pw_out w) /\ from_read c (firstn k (pw_out w)) = Ok r /\ pr_num r = 4 /\ read_into r b 4 = Err /\ mb_len b = 4.
Proof.
  destruct t_runs as (N & R & O & F). destruct t_cut_ok as (_ & C & M & _ & E & _).
  exists ex_codec, ex_reread, t_layout, t_calls, t_writer, (t_done t_calls), (length t_file - 20), t_cut_reader, (t_empty 4).
  split; [exact ex_codec_ok|]. split; [exact t_good|]. split; [exact t_ready|]. split; [exact t_calls_ok|]. split; [exact N|]. split; [exact R|]. rewrite O.
  split; [apply Nat.ltb_lt; vm_compute; reflexivity|]. split; [exact C|]. split; [exact M|]. split; [exact E|reflexivity].
Qed.
Lemma crash_example : json_ok ex_codec ex_reread /\ good_layout t_layout /\ pnts_ready t_layout /\ Forall (call_ok t_layout) t_calls
  /\ writer_new (fun x => x) t_layout = Ok t_writer /\ run_and_drop ex_codec t_writer t_calls = Ok (t_done t_calls)
  /\ length (pw_out (t_done t_calls)) = 192 /\ end_of_body (pw_out (t_done t_calls)) = 184
  /\ (exists ws, flush_writes ex_codec t_unflushed = Ok ws /\ map (@length Z) ws = [28; 92; 48; 12; 4; 8])
  /\ from_read ex_codec (firstn 119 (pw_out (t_done t_calls))) = Err
  /\ (exists r b r1, from_read ex_codec (firstn 184 (pw_out (t_done t_calls))) = Ok r /\ read_into r (t_empty 4) 4 = Ok (4, b, r1)).
Proof.
  destruct t_runs as (N & R & O & F).
  split; [exact ex_codec_ok|]. split; [exact t_good|]. split; [exact t_ready|]. split; [exact t_calls_ok|]. split; [exact N|]. split; [exact R|]. rewrite O.
  split; [reflexivity|]. split; [reflexivity|]. split; [eexists; split; [vm_compute; reflexivity|vm_compute; reflexivity]|]. split; [vm_compute; reflexivity|].
  eexists. eexists. eexists. split; [vm_compute; reflexivity|]. vm_compute; reflexivity.
Qed.
