(* The layout of a reader, what a writer writes, and reading what was written. *)
From Coq Require Import String Ascii List ZArith Bool Arith Lia SpecFloat Permutation.
From Verif Require Import Base LayoutModel LayoutSpec LayoutProofs BufferModel BufferSpec TraitModel TraitSpec NumModel NumSpec NumProofs NumProofs2 NumProofs3
  ConvModel ConvProofs ListLemmas BufferProofs BufferSteps TraitProofs TraitProofs2 LasIoProofs6 AsciiModel AsciiSpec AsciiProofs AsciiProofs2 AsciiProofs3 AsciiProofs4 AsciiProofs5 AsciiProofs6.
Import ListNotations.
Open Scope nat_scope.

(* ---- the layout ---- *)

Lemma least_bound a cur o : 0 < a -> least (fun x => Nat.divide a x /\ cur <= x) o -> o <= cur + a.
Proof.
  intros A [_ L]. apply Nat.le_trans with ((cur / a + 1) * a).
  - apply L. split; [exists (cur / a + 1); reflexivity|]. pose proof (Nat.div_mod cur a ltac:(lia)). pose proof (Nat.mod_upper_bound cur a ltac:(lia)). nia.
  - pose proof (Nat.div_mod cur a ltac:(lia)). nia.
Qed.
Lemma placed_bound cur fs os e : placed cur fs os e -> (forall s a, In (s, a) fs -> s <= 24 /\ 0 < a <= 8) -> e <= cur + 32 * length fs.
Proof.
  induction 1 as [cur|cur s a fs o os e L P IH]; intros B; [cbn [length]; lia|]. destruct (B s a (or_introl eq_refl)) as [S A].
  pose proof (least_bound a cur o ltac:(lia) L). assert (e <= o + s + 32 * length fs) by (apply IH; intros s' a' I; apply B; right; exact I). cbn [length]. lia.
Qed.
Lemma ascii_attribute_sizes : forallb (fun a => Nat.leb (dt_size (ad_type a)) 24 && Nat.ltb 0 (dt_size (ad_type a)) && Nat.ltb 0 (dt_align (ad_type a)) && Nat.leb (dt_align (ad_type a)) 8
  && existsb (Nat.eqb (dt_align (ad_type a))) [1; 2; 4; 8]) ascii_attributes = true.
Proof. vm_compute. reflexivity. Qed.
Lemma ascii_attribute_size a : In a ascii_attributes -> 0 < dt_size (ad_type a) <= 24 /\ 0 < dt_align (ad_type a) <= 8 /\ power_of_two (dt_align (ad_type a)).
Proof.
  intros I. pose proof ascii_attribute_sizes as D. rewrite forallb_forall in D. specialize (D a I). rewrite !andb_true_iff in D. destruct D as ((((A & B) & C) & D) & E).
  apply Nat.leb_le in A, D. apply Nat.ltb_lt in B, C. split; [lia|]. split; [lia|]. apply existsb_exists in E. destruct E as (x & X & E). apply Nat.eqb_eq in E. rewrite E.
  cbn [In] in X. destruct X as [<-|[<-|[<-|[<-|[]]]]]; [exists 0|exists 1|exists 2|exists 3]; reflexivity.
Qed.
Lemma column_attrs_in cols a : In a (column_attrs cols) -> In a ascii_attributes.
Proof.
  intros H. unfold column_attrs in H. apply in_flat_map in H. destruct H as (k & _ & H). destruct (column_attribute k) as [a'|] eqn:E; [|destruct H].
  destruct H as [<-|[]]. exact (column_attribute_in _ _ E).
Qed.

Lemma layout_columns order cols : (forall l, Permutation (order l) l) -> exists l, layout_from_columns order cols = Ok l
  /\ Permutation (map m_def (l_attrs l)) (hash_set (column_attrs cols)) /\ (column_attrs cols <> [] -> good_layout l).
Proof.
  intros O. unfold layout_from_columns. fold (column_attrs cols). destruct (hash_set_spec (column_attrs cols)) as [ND IN]. pose proof (O (hash_set (column_attrs cols))) as P.
  assert (A : forall a, In a (order (hash_set (column_attrs cols))) -> In a ascii_attributes).
  { intros a H. apply (Permutation_in _ P) in H. apply IN in H. exact (column_attrs_in _ _ H). }
  set (attrs := order (hash_set (column_attrs cols))) in *.
  assert (LEN : length attrs <= 13).
  { change 13 with (length ascii_attributes). apply NoDup_incl_length; [|exact A]. apply (Permutation_NoDup (Permutation_sym P)). exact ND. }
  assert (FB : forall s a, In (s, a) (fields_of attrs) -> s <= 24 /\ 0 < a <= 8).
  { intros s a H. unfold fields_of in H. apply in_map_iff in H. destruct H as (x & E & X). injection E as <- <-. destruct (ascii_attribute_size x (A x X)) as (Q1 & Q2 & _). lia. }
  destruct (from_attributes_succeeds attrs) as [l E].
  - apply (Permutation_NoDup (l := map ad_name (hash_set (column_attrs cols)))); [apply Permutation_map, Permutation_sym; exact P|apply attrs_named].
  - intros a H. exact (proj2 (proj2 (ascii_attribute_size a (A a H)))).
  - intros os s a (e & PL & (S1 & S2 & S3) & LS).
    pose proof (placed_bound _ _ _ _ PL FB) as EB. assert (LF : length (fields_of attrs) = length attrs) by apply map_length.
    assert (AB : 0 < a <= 8).
    { destruct S3 as [->|H]; [lia|]. apply in_map_iff in H. destruct H as ((s' & a') & <- & H). apply FB in H. cbn [snd]. lia. }
    assert (s <= e + a) by (apply least_bound; [lia|exact LS]). apply Z.le_trans with (Z.of_nat 1000); [lia|]. cbn. lia.
  - exists l. split; [exact E|]. rewrite from_attributes_history in E. destruct (grown_layout _ _ E) as (D & _). split.
    + rewrite D, map_map. cbn [fst]. rewrite map_id. exact P.
    + intros NE. apply (grown_good _ _ E).
      * intros X. apply map_eq_nil in X. destruct (column_attrs cols) as [|a r] eqn:C; [congruence|].
        assert (In a attrs) by (apply (Permutation_in _ (Permutation_sym P)); apply IN; left; reflexivity). rewrite X in H. destruct H.
      * intros a fa H. apply in_map_iff in H. destruct H as (x & Q & X). injection Q as <- _. exact (proj1 (proj1 (ascii_attribute_size x (A x X)))).
Qed.

Lemma columns_meaning format cols c : columns_of format cols -> In c format -> exists k, In k cols /\ column_of_char c = Some k.
Proof. intros F. induction F as [|c' k format cols H F IH]; [intros []|]. intros [->|I]; [exists k; split; [left; reflexivity|exact H]|]. destruct (IH I) as (k' & I' & E). exists k'. split; [right; exact I'|exact E]. Qed.
Lemma columns_letter format cols k : columns_of format cols -> In k cols -> exists c, In c format /\ column_of_char c = Some k.
Proof. intros F. induction F as [|c k' format cols H F IH]; [intros []|]. intros [->|I]; [exists c; split; [left; reflexivity|exact H]|]. destruct (IH I) as (c' & I' & E). exists c'. split; [right; exact I'|exact E]. Qed.

Lemma attrs_of_format format cols a : columns_of format cols -> In a (column_attrs cols) <-> exists c o pr flag, In c format /\ meaning_of c = Some (Field a o pr flag).
Proof.
  intros F. unfold column_attrs. rewrite in_flat_map. split.
  - intros (k & K & H). rewrite column_attribute_meaning in H. destruct (col_meaning k) as [|a' o pr flag] eqn:E; [destruct H|]. destruct H as [->|[]].
    destruct (columns_letter _ _ _ F K) as (c & C & Q). exists c, o, pr, flag. split; [exact C|]. rewrite column_meaning, Q. cbn [option_map]. now rewrite E.
  - intros (c & o & pr & flag & C & E). destruct (columns_meaning _ _ _ F C) as (k & K & Q). exists k. split; [exact K|]. rewrite column_meaning, Q in E. cbn [option_map] in E. injection E as E.
    rewrite column_attribute_meaning, E. left. reflexivity.
Qed.

Lemma reader_layout order file format d : (forall l, Permutation (order l) l) ->
  (exists r, ascii_reader_new order file format d = Ok r
     /\ NoDup (map m_def (l_attrs (ar_layout r)))
     /\ (forall a, In a (map m_def (l_attrs (ar_layout r))) <-> exists c o pr flag, In c format /\ meaning_of c = Some (Field a o pr flag))
     /\ (l_attrs (ar_layout r) <> [] -> good_layout (ar_layout r)))
  \/ ascii_reader_new order file format d = Err.
Proof.
  intros O. unfold ascii_reader_new. destruct (get_parse_layout format) as [cols| |] eqn:E; [|now right|destruct (parse_layout_total _ E)].
  left. cbn [bind]. apply parse_layout_ok in E. destruct (layout_columns order cols O) as (l & -> & P & G). cbn [bind]. exists (mk_areader file d l cols). split; [reflexivity|].
  cbn [ar_layout]. destruct (hash_set_spec (column_attrs cols)) as [ND IN]. split; [exact (Permutation_NoDup (Permutation_sym P) ND)|]. split.
  - intros a. rewrite <- (attrs_of_format format cols a E). rewrite <- IN. split; apply Permutation_in; [exact P|apply Permutation_sym; exact P].
  - intros NE. apply G. intros C. apply NE. rewrite C in P. cbn [hash_set] in P. apply Permutation_sym, Permutation_nil in P. now apply map_eq_nil in P.
Qed.
Lemma reader_created order file format d : (forall l, Permutation (order l) l) -> (exists r, ascii_reader_new order file format d = Ok r) <-> Forall known format.
Proof.
  intros O. rewrite <- parse_layout_known. unfold ascii_reader_new. destruct (get_parse_layout format) as [cols| |]; cbn [bind].
  - destruct (layout_columns order cols O) as (l & -> & _). cbn [bind]. split; eauto.
  - split; intros [x X]; discriminate X.
  - split; intros [x X]; discriminate X.
Qed.
Lemma writer_new format w : ascii_writer_new format = Ok w -> columns_of format (aw_columns w) /\ aw_out w = [] /\ aw_delimiter w = txt ", " /\ aw_precision w = 5.
Proof. unfold ascii_writer_new. destruct (get_parse_layout format) as [cols| |] eqn:E; try discriminate. cbn [bind]. intros Q. injection Q as <-. apply parse_layout_ok in E. auto. Qed.
Lemma writer_created format : (exists w, ascii_writer_new format = Ok w) <-> Forall known format.
Proof.
  rewrite <- parse_layout_known. unfold ascii_writer_new. destruct (get_parse_layout format) as [cols| |]; cbn [bind]; split; intros [x X]; try discriminate X; eauto.
Qed.

(* ---- writing ---- *)

Lemma step_columns chunk w o w' : ascii_step chunk w o = Ok w' -> aw_columns w' = aw_columns w.
Proof.
  destruct o as [d|n|b]; cbn [ascii_step]; [intros E; injection E as <-; reflexivity..|]. unfold ascii_write.
  destruct (foldM _ _ _) as [[cb out]| |]; try discriminate. cbn [bind]. intros E. injection E as <-. reflexivity.
Qed.
Lemma reachable_columns chunk format w : reachable chunk format w -> columns_of format (aw_columns w).
Proof.
  intros (w0 & ops & E & R). apply writer_new in E. destruct E as (F & _). revert w0 F R. induction ops as [|o ops IH]; intros w0 F R.
  - injection R as <-. exact F.
  - cbn [foldM] in R. destruct (ascii_step chunk w0 o) as [w1| |] eqn:E; try discriminate R. cbn [bind] in R. apply (IH w1); [|exact R]. rewrite (step_columns _ _ _ _ E). exact F.
Qed.

Lemma not_letter s format c k : only s format -> In c format -> column_of_char c = Some k -> forallb (fun c => negb (match column_of_char c with Some k' => match k, k' with Classification, Classification | UserData, UserData => true | _, _ => false end | None => false end)) (txt s) = true -> honest k.
Proof.
  intros O I C H. rewrite forallb_forall in H. specialize (H c (O c I)). rewrite C in H. split; intros ->; discriminate H.
Qed.
Lemma honest_letter format c k : only "sxyzirntpRGBedaI" format -> In c format -> column_of_char c = Some k -> honest k.
Proof. intros O I C. apply (not_letter _ _ c k O I C). destruct k; vm_compute; reflexivity. Qed.
Lemma integer_letter format c k : only "sirncupRGBedaI" format -> In c format -> column_of_char c = Some k -> is_float k = false.
Proof.
  intros O I C. assert (H : forallb (fun c => match column_of_char c with Some k' => negb (is_float k') | None => true end) (txt "sirncupRGBedaI") = true) by (vm_compute; reflexivity).
  rewrite forallb_forall in H. specialize (H c (O c I)). rewrite C in H. destruct (is_float k); [discriminate H|reflexivity].
Qed.

Lemma line_of w l format p : good_layout l -> length p = l_size l -> columns_of format (aw_columns w) -> only "sxyzirntpRGBedaI" format -> (aw_precision w = 0 -> only "sirncupRGBedaI" format) -> has_fields l format ->
  exists line, point_text w l p = Ok (terminated line) /\ point_line (aw_precision w) l format (aw_delimiter w) p line.
Proof.
  intros G L F O P0 H.
  assert (X : exists ts, Forall2 (fun k t => column_text (aw_precision w) l p k = Ok t) (aw_columns w) ts /\ Forall2 (column_shows (aw_precision w) l p) format ts).
  { induction F as [|c k format' cols C F IH]; [exists []; split; constructor|].
    destruct IH as (ts & T1 & T2).
    { intros x X. apply O. now right. } { intros E x X. apply (P0 E). now right. } { intros x a o pr flag X. apply (H x). now right. }
    pose proof (column_meaning c) as CM. rewrite C in CM. cbn [option_map] in CM.
    assert (T : exists t, column_text (aw_precision w) l p k = Ok t /\ column_shows (aw_precision w) l p c t).
    { unfold column_shows. rewrite CM. destruct (col_meaning k) as [|a o pr flag] eqn:K.
      - exists []. split; [|reflexivity]. destruct k; try discriminate K. reflexivity.
      - destruct (member_of l a) as [m|] eqn:M; [|destruct (H c a o pr flag (or_introl eq_refl) CM M)].
        destruct (column_text_ok (aw_precision w) l p k a o pr flag m G L) as (t & E & S); auto.
        { apply (honest_letter (c :: format') c k O (or_introl eq_refl) C). } { intros E. exact (integer_letter _ c k (P0 E) (or_introl eq_refl) C). }
        exists t. split; [exact E|]. exists (sub (attr_value m p) o (prim_size pr)). split; [|exact S]. unfold field_bytes. rewrite M. reflexivity. }
    destruct T as (t & E & S). exists (t :: ts). split; constructor; assumption. }
  destruct X as (ts & T1 & T2). exists (join (aw_delimiter w) ts). split; [exact (point_text_join w l p ts T1)|]. exists ts. split; [reflexivity|exact T2].
Qed.

Lemma write_ok_lines chunk format w b : 0 < chunk -> reachable chunk format w -> bf_wf b -> only "sxyzirntpRGBedaI" format -> (aw_precision w = 0 -> only "sirncupRGBedaI" format) -> has_fields (bf_layout b) format ->
  exists w' lines, ascii_write chunk w b = Ok w' /\ aw_out w' = aw_out w ++ concat (map terminated lines)
    /\ aw_delimiter w' = aw_delimiter w /\ aw_precision w' = aw_precision w /\ reachable chunk format w'
    /\ Forall2 (point_line (aw_precision w) (bf_layout b) format (aw_delimiter w)) (bf_points b) lines.
Proof.
  intros C R W O P0 H. pose proof (reachable_columns _ _ _ R) as F. pose proof (bf_points_uniform b W) as U.
  assert (X : exists lines, mapM (point_text w (bf_layout b)) (bf_points b) = Ok (map terminated lines)
    /\ Forall2 (point_line (aw_precision w) (bf_layout b) format (aw_delimiter w)) (bf_points b) lines).
  { assert (G : good_layout (bf_layout b)) by (destruct (bf_wf_root b W) as (_ & _ & _ & G); exact G). destruct U as [U _]. induction U as [|p ps Lp U IH]; [exists []; split; [reflexivity|constructor]|].
    destruct IH as (lines & E & FL). destruct (line_of w _ format p G Lp F O P0 H) as (line & E1 & PL). exists (line :: lines). cbn [mapM]. rewrite E1. cbn [bind]. rewrite E. split; [reflexivity|constructor; assumption]. }
  destruct X as (lines & E & FL). pose proof (ascii_write_eq chunk w b C W) as Q. rewrite E in Q. cbn [bind] in Q.
  exists (mk_awriter (aw_out w ++ concat (map terminated lines)) (aw_delimiter w) (aw_precision w) (aw_columns w)), lines.
  split; [exact Q|]. split; [reflexivity|]. split; [reflexivity|]. split; [reflexivity|]. split; [|exact FL].
  destruct R as (w0 & ops & R1 & R2). exists w0, (ops ++ [WritePoints b]). split; [exact R1|]. rewrite foldM_snoc, R2. exact Q.
Qed.

(* an attribute that is missing *)
Lemma column_text_total prec l p k : good_layout l -> length p = l_size l -> honest k -> column_text prec l p k <> Panic.
Proof.
  intros G L H. destruct (col_meaning k) as [|a o pr flag] eqn:K; [destruct k; discriminate|]. destruct (member_of l a) as [m|] eqn:M.
  - destruct (is_float k) eqn:FK.
    + destruct (column_text_ok 1 l p k a o pr flag m G L H ltac:(discriminate) K M) as (t & E & _).
      destruct k; try discriminate FK; cbn [column_text] in E |- *; unfold coordinate_text in E |- *;
        match goal with |- bind ?x _ <> _ => destruct x; [discriminate|discriminate|discriminate E] end.
    + destruct (column_text_ok prec l p k a o pr flag m G L H ltac:(auto) K M) as (t & -> & _). discriminate.
  - rewrite (column_text_missing _ _ _ k a o pr flag H K M). discriminate.
Qed.
Lemma write_missing chunk format w b c a o pr flag : 0 < chunk -> reachable chunk format w -> bf_wf b -> 0 < bf_len b -> only "sxyzirntpRGBedaI" format ->
  In c format -> meaning_of c = Some (Field a o pr flag) -> member_of (bf_layout b) a = None -> ascii_write chunk w b = Err.
Proof.
  intros C R W LN O I M N. pose proof (reachable_columns _ _ _ R) as F. rewrite (ascii_write_eq chunk w b C W).
  destruct (columns_meaning _ _ _ F I) as (k & K & CK). pose proof (column_meaning c) as CM. rewrite CK, M in CM. injection CM as CM.
  assert (H : honest k) by exact (honest_letter format c k O I CK).
  destruct (bf_points_uniform b W) as [U LU].
  assert (PT : forall p, length p = l_size (bf_layout b) -> point_text w (bf_layout b) p = Err).
  { intros p Lp. apply in_split in K. destruct K as (pre & post & K). apply (point_text_err w _ p pre k post K).
    - exact (column_text_missing _ _ _ k a o pr flag H (eq_sym CM) N).
    - intros k' I'. apply column_text_total; [|exact Lp|].
      + destruct (bf_wf_root b W) as (_ & _ & _ & G). exact G.
      + destruct (columns_letter format (aw_columns w) k' F ltac:(rewrite K; apply in_app_iff; left; exact I')) as (c' & C' & Q). exact (honest_letter format c' k' O C' Q). }
  destruct (bf_points b) as [|p ps] eqn:E; [cbn [length] in LU; lia|]. inversion U as [|? ? Lp U']; subst. cbn [mapM]. rewrite (PT p Lp). reflexivity.
Qed.

(* ---- both ---- *)

Lemma digits_all t : forall a v, fold_left dstep t (Some a) = Some v -> Forall is_digit t.
Proof.
  induction t as [|c t IH]; intros a v E; constructor; cbn [fold_left] in E; unfold dstep at 2 in E;
    (destruct (Z.leb_spec 48 c), (Z.leb_spec c 57); cbn [andb] in E; try (rewrite fold_none in E; discriminate E)).
  - split; lia.
  - exact (IH _ _ E).
Qed.
Lemma integer_number v t : integer_text v t -> Forall number_char t.
Proof.
  intros (ds & -> & D & _). apply Forall_app. split.
  - destruct (v <? 0)%Z; constructor; [|constructor]. left. reflexivity.
  - apply (Forall_impl _ digit_number). exact (digits_all ds 0 _ D).
Qed.
Definition integer_prim (pr : prim) : Prop := In pr [PU8; PU16; PI8].
Definition prim_range (pr : prim) (v : Z) : Prop := match kind pr with KInt s => (int_min s (bits pr) <= v <= int_max s (bits pr))%Z | _ => False end.
Lemma field_of_text pr v t : integer_prim pr -> prim_range pr v -> integer_text v t -> field_number pr false t = Some (NInt v).
Proof.
  intros I R (ds & E & D & NE & _). pose proof (digits_all ds 0 _ D) as DG.
  assert (X : field_integer pr false t = Some v).
  { unfold field_integer. subst t. destruct (Z.ltb_spec v 0) as [N|N].
    - cbn [app]. change (Z.eqb (ch "-") (ch "+")) with false. change (Z.eqb (ch "-") (ch "-")) with true. cbn [andb]. cbv iota.
      destruct I as [<-|[<-|[<-|[]]]]; unfold prim_range, kind, int_min, int_max, bits in R; cbn in R; try lia.
      destruct ds as [|x ds]; [congruence|]. rewrite D. cbn [prim_size]. replace (- Z.abs v)%Z with v by lia. change (8 * Z.of_nat 1)%Z with 8%Z. change (2 ^ (8 - 1))%Z with 128%Z.
      destruct (Z.leb_spec (-(128)) v), (Z.ltb_spec v 128); try lia. reflexivity.
    - cbn [app]. destruct ds as [|x ds]; [congruence|]. assert (DX : is_digit x) by (inversion DG; assumption). unfold is_digit in DX.
      destruct (Z.eqb_spec x (ch "+")) as [Q|_]; [change (ch "+") with 43%Z in Q; lia|]. destruct (Z.eqb_spec x (ch "-")) as [Q|_]; [change (ch "-") with 45%Z in Q; lia|]. cbn [andb]. cbv iota.
      rewrite D. replace (Z.abs v) with v by lia.
      destruct I as [<-|[<-|[<-|[]]]]; unfold prim_range, kind, int_min, int_max, bits in R; cbn in R; cbn [prim_size].
      + change (2 ^ (8 * Z.of_nat 1))%Z with 256%Z. destruct (Z.ltb_spec v 256); [reflexivity|lia].
      + change (2 ^ (8 * Z.of_nat 2))%Z with 65536%Z. destruct (Z.ltb_spec v 65536); [reflexivity|lia].
      + change (8 * Z.of_nat 1)%Z with 8%Z. change (2 ^ (8 - 1))%Z with 128%Z. destruct (Z.leb_spec (-(128)) v), (Z.ltb_spec v 128); try lia. reflexivity. }
  destruct I as [<-|[<-|[<-|[]]]]; cbn [field_number]; rewrite X; reflexivity.
Qed.

Lemma roundtrip_letter format c a o pr flag : only "sirnpRGBedaI" format -> In c format -> meaning_of c = Some (Field a o pr flag) -> integer_prim pr /\ (flag = true -> pr = PU8).
Proof.
  intros O I M. assert (H : forallb (fun c => match meaning_of c with Some (Field _ _ pr flag) => (match pr with PU8 | PU16 | PI8 => true | _ => false end) && (negb flag || match pr with PU8 => true | _ => false end) | _ => true end) (txt "sirnpRGBedaI") = true) by (vm_compute; reflexivity).
  rewrite forallb_forall in H. specialize (H c (O c I)). rewrite M in H. apply andb_true_iff in H. destruct H as [H1 H2]. split.
  - destruct pr; try discriminate H1; unfold integer_prim; cbn [In]; tauto.
  - intros ->. destruct pr; try discriminate H2; reflexivity.
Qed.

Lemma bytes_sub bs o n : is_bytes bs -> is_bytes (sub bs o n).
Proof.
  unfold is_bytes. rewrite !Forall_forall. intros B x X. apply B. unfold sub in X. apply In_nth_error in X. destruct X as [k X]. rewrite nth_error_firstn in X.
  destruct (Nat.ltb k n); [|discriminate X]. rewrite nth_error_skipn in X. exact (nth_error_In _ _ X).
Qed.
(* the text of a column is the number of the point *)
Lemma column_back format l p prec c t : good_layout l -> length p = l_size l -> is_bytes p -> only "sirnpRGBedaI" format -> In c format -> flags_ok format l p -> column_shows prec l p c t ->
  Forall number_char t /\ forall a o pr flag, meaning_of c = Some (Field a o pr flag) -> exists v bs, field_number pr flag t = Some v /\ field_bytes l p a o pr = Some bs /\ bs = enc_num pr v.
Proof.
  intros G L B O I FL S. unfold column_shows in S. destruct (meaning_of c) as [[|a o pr flag]|] eqn:M; [subst t; split; [constructor|discriminate]| |destruct S].
  destruct S as (bs & FB & S). destruct (roundtrip_letter _ _ _ _ _ _ O I M) as [IP FP].
  assert (MEM : memory_of pr bs).
  { unfold field_bytes in FB. destruct (member_of l a) as [m|] eqn:MO; [|discriminate FB]. injection FB as <-. destruct (member_size l a m G MO) as (S1 & _ & S2). destruct (meaning_ok _ _ _ _ _ M) as [FO _].
    assert (LV : length (attr_value m p) = m_size m) by (unfold attr_value; apply length_sub; lia).
    split; [|apply length_sub; lia]. apply bytes_sub, bytes_sub. exact B. }
  assert (KI : exists s, kind pr = KInt s) by (destruct IP as [<-|[<-|[<-|[]]]]; eexists; reflexivity). destruct KI as [s KI].
  assert (ED : enc_num pr (dec_num pr bs) = bs).
  { apply enc_dec; [exact MEM|]. unfold is_nan. rewrite KI. tauto. }
  rewrite (int_of_dec pr s bs KI) in S, ED.
  assert (X : Forall number_char t /\ field_number pr flag t = Some (NInt (int_of pr bs))).
  { cbn [shows] in S. destruct flag.
    - specialize (FP eq_refl). subst pr. specialize (FL c a o PU8 bs I M FB). destruct FL as [->| ->]; vm_compute in S; subst t; (split; [repeat constructor; vm_compute; tauto|vm_compute; reflexivity]).
    - split; [exact (integer_number _ _ S)|]. apply field_of_text; [exact IP| |exact S]. unfold prim_range. rewrite KI. apply (int_of_range pr s bs KI). }
  destruct X as [X1 X2]. split; [exact X1|]. intros a' o' pr' flag' E. injection E as <- <- <- <-. exists (NInt (int_of pr bs)), bs. auto.
Qed.

Lemma last_occurrence (c : Z) format : In c format -> exists k, nth_error format k = Some c /\ ~ In c (skipn (S k) format).
Proof.
  induction format as [|x format IH]; [intros []|]. intros I. destruct (in_dec Z.eq_dec c format) as [J|J].
  - destruct (IH J) as (k & E & N). exists (S k). auto.
  - destruct I as [->|I]; [|contradiction]. exists 0. auto.
Qed.
Lemma Forall2_nth2 {A B} (P : A -> B -> Prop) l l' : Forall2 P l l' -> forall k a b, nth_error l k = Some a -> nth_error l' k = Some b -> P a b.
Proof. induction 1; intros [|k] a b E1 E2; try discriminate; [injection E1 as <-; injection E2 as <-; assumption|eauto]. Qed.

Lemma in_join d ts c : In c (join d ts) -> In c d \/ exists t, In t ts /\ In c t.
Proof.
  induction ts as [|t ts IH]; [intros []|]. destruct ts as [|t' ts]; [cbn [join]; intros I; right; exists t; split; [left; reflexivity|exact I]|].
  change (join d (t :: t' :: ts)) with (t ++ d ++ join d (t' :: ts)). intros I. apply in_app_iff in I. destruct I as [I|I]; [right; exists t; split; [left; reflexivity|exact I]|].
  apply in_app_iff in I. destruct I as [I|I]; [now left|]. destruct (IH I) as [J|(x & X & J)]; [now left|]. right. exists x. split; [right; exact X|exact J].
Qed.

Lemma line_back format l p prec d line : good_layout l -> length p = l_size l -> is_bytes p -> only "sirnpRGBedaI" format -> flags_ok format l p -> good_delimiter d -> point_line prec l format d p line ->
  (~ In 10%Z line /\ ~ In 13%Z line) /\ good_line format d line
  /\ forall l2 q, line_point l2 format d line q -> same_columns format l p l2 q.
Proof.
  intros G L B O FL GD (ts & -> & F).
  assert (N : Forall (Forall number_char) ts).
  { clear GD. assert (X : forall f us, (forall c, In c f -> In c format) -> Forall2 (column_shows prec l p) f us -> Forall (Forall number_char) us).
    { intros f us IN F'. induction F' as [|c t f ts' S F' IH]; constructor.
      - exact (proj1 (column_back format l p prec c t G L B O (IN c (or_introl eq_refl)) FL S)).
      - apply IH. intros x X. apply IN. now right. }
    apply (X format); auto. }
  assert (NN : forall x, number_char x -> x <> 10%Z /\ x <> 13%Z).
  { intros x X. assert (H : forallb (fun x => negb (Z.eqb x 10) && negb (Z.eqb x 13)) (txt "-0123456789") = true) by (vm_compute; reflexivity). rewrite forallb_forall in H. specialize (H x X).
    apply andb_true_iff in H. destruct H as [H1 H2]. split; intros ->; discriminate. }
  rewrite Forall_forall in N. assert (NF : forall t, In t ts -> Forall number_char t) by exact N.
  split.
  { destruct GD as (_ & D1 & D2). split; intros I; apply in_join in I; (destruct I as [I|(t & T & I)]; [contradiction|]); specialize (N t T); rewrite Forall_forall in N; destruct (NN _ (N _ I)); congruence. }
  assert (LT : length format = length ts) by exact (Forall2_len _ _ _ F).
  assert (SP : forall k t, nth_error (split d (join d ts)) k = Some t -> k < length format -> nth_error ts k = Some t).
  { intros k t E K. destruct ts as [|t0 ts0] eqn:T; [cbn [length] in LT; lia|]. rewrite split_join in E; [exact E|exact GD|discriminate|apply Forall_forall; exact NF]. }
  split.
  - split.
    + destruct ts as [|t0 ts0] eqn:T; [rewrite LT; cbn [length]; lia|]. rewrite split_join; [lia|exact GD|discriminate|apply Forall_forall; exact NF].
    + intros k c a o pr flag t E M ET. pose proof (SP k t ET (nth_error_lt _ _ _ E)) as ET'. pose proof (Forall2_nth2 _ _ _ F _ _ _ E ET') as S.
      destruct (column_back format l p prec c t G L B O (nth_error_In _ _ E) FL S) as [_ X]. destruct (X _ _ _ _ M) as (v & bs & -> & _). discriminate.
  - intros l2 q (Lq & A & _) c a o pr flag bs I M FB. destruct (last_occurrence c format I) as (k & E & NL). destruct (A k c a o pr flag bs E NL M FB) as (t & v & ET & V & ->).
    pose proof (SP k t ET (nth_error_lt _ _ _ E)) as ET'. pose proof (Forall2_nth2 _ _ _ F _ _ _ E ET') as S.
    destruct (column_back format l p prec c t G L B O (nth_error_In _ _ E) FL S) as [_ X]. destruct (X _ _ _ _ M) as (v' & bs' & V' & FB' & ->). rewrite V in V'. injection V' as <-. exact FB'.
Qed.

Lemma round_trip chunk order format d w0 pts b : 0 < chunk -> (forall l, Permutation (order l) l) -> ascii_writer_new format = Ok w0 -> only "sirnpRGBedaI" format -> good_delimiter d ->
  bf_wf pts -> has_fields (bf_layout pts) format -> (forall p, In p (bf_points pts) -> is_bytes p /\ flags_ok format (bf_layout pts) p) ->
  mb_wf b -> bf_len pts <= mb_len b ->
  exists w r b' r' read, ascii_write chunk (set_delimiter w0 d) pts = Ok w /\ length (lines_of (aw_out w)) = bf_len pts
   /\ ascii_reader_new order (aw_out w) format d = Ok r
   /\ ascii_read_into r b (bf_len pts) = Ok (b', r', bf_len pts) /\ mb_layout b' = mb_layout b
   /\ mb_points b' = read ++ skipn (bf_len pts) (mb_points b)
   /\ Forall2 (fun p q => same_columns format (bf_layout pts) p (mb_layout b) q) (bf_points pts) read.
Proof.
  intros C PO WN O GD W HF PB WB LB. destruct (writer_new _ _ WN) as (F & OUT & _ & PR).
  assert (R : reachable chunk format (set_delimiter w0 d)) by (exists w0, [SetDelimiter d]; split; [exact WN|reflexivity]).
  destruct (write_ok_lines chunk format (set_delimiter w0 d) pts C R W) as (w & lines & E & OW & _ & _ & _ & FL).
  { intros x X. specialize (O x X). revert O. clear. intros O. assert (H : forallb (fun x => existsb (Z.eqb x) (txt "sxyzirntpRGBedaI")) (txt "sirnpRGBedaI") = true) by (vm_compute; reflexivity).
    rewrite forallb_forall in H. specialize (H x O). apply existsb_exists in H. destruct H as (y & Y & Q). apply Z.eqb_eq in Q. now subst. }
  { cbn [set_delimiter aw_precision]. rewrite PR. discriminate. }
  { exact HF. }
  cbn [set_delimiter aw_out aw_precision aw_delimiter] in *. rewrite OUT in OW. cbn [app] in OW. destruct (bf_points_uniform pts W) as [U LU].
  assert (G : good_layout (bf_layout pts)) by (destruct (bf_wf_root pts W) as (_ & _ & _ & G); exact G).
  assert (LL : Forall2 (fun p line => (~ In 10%Z line /\ ~ In 13%Z line) /\ good_line format d line /\ forall l2 q, line_point l2 format d line q -> same_columns format (bf_layout pts) p l2 q) (bf_points pts) lines).
  { unfold uniform in U. rewrite Forall_forall in U. clear LU E OW. revert U PB. induction FL as [|p line ps lines PL FL IH]; intros U PB; constructor.
    - destruct (PB p (or_introl eq_refl)) as [P1 P2]. apply (line_back format _ p _ d line G (U p (or_introl eq_refl)) P1 O P2 GD PL).
    - apply IH; [intros x X; apply U; right; exact X|intros x X; apply PB; right; exact X]. }
  assert (LO : lines_of (aw_out w) = lines).
  { rewrite OW. rewrite <- (app_nil_r (concat _)). rewrite lines_terminated; [apply app_nil_r|]. clear - LL. induction LL as [|p line ps lines H F IH]; constructor; [exact (proj1 H)|exact IH]. }
  assert (LE : length lines = bf_len pts) by (rewrite <- LU; symmetry; exact (Forall2_len _ _ _ LL)). 
  destruct (proj2 (reader_created order (aw_out w) format d PO) (proj1 (writer_created format) (ex_intro _ _ WN))) as [r RN].
  destruct (read_into_ok order (aw_out w) format d r b (bf_len pts) RN WB) as (b' & r' & rest & ps & E2 & _ & _ & W' & L' & P' & LP).
  { rewrite firstn_length. lia. }
  { rewrite LO, firstn_all2 by lia. clear - LL. induction LL as [|p line ps lines H F IH]; constructor; [exact (proj1 (proj2 H))|exact IH]. }
  exists w, r, b', r', ps. split; [exact E|]. split; [rewrite LO; exact LE|]. split; [exact RN|]. split; [exact E2|]. split; [exact L'|]. rewrite LO, firstn_all2 in LP by lia. pose proof (Forall2_len _ _ _ LP) as LE2. split; [rewrite P'; f_equal; f_equal; lia|].
  clear - LL LP. revert ps LP. induction LL as [|p line ps0 lines H F IH]; intros ps LP; inversion LP as [|? q ? qs Q1 Q2]; subst; constructor; [|apply IH; exact Q2].
  destruct H as (_ & _ & H). apply H. exact Q1.
Qed.
