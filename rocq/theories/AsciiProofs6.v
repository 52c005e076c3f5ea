(* Reading the lines of a file, writing the lines of points, and both. *)
From Coq Require Import String Ascii List ZArith Bool Arith Lia SpecFloat Permutation.
From Verif Require Import Base LayoutModel LayoutSpec LayoutProofs BufferModel BufferSpec TraitModel TraitSpec NumModel NumSpec NumProofs NumProofs2 NumProofs3
  ConvModel ConvProofs ListLemmas BufferProofs BufferSteps TraitProofs TraitProofs2 LasIoProofs6 AsciiModel AsciiSpec AsciiProofs AsciiProofs3 AsciiProofs4 AsciiProofs5.
Import ListNotations.
Open Scope nat_scope.

Definition columns_of (format : text) (cols : list column) : Prop := Forall2 (fun c k => column_of_char c = Some k) format cols.

Lemma Forall2_len {A B} (P : A -> B -> Prop) l l' : Forall2 P l l' -> length l = length l'.
Proof. induction 1; cbn [length]; congruence. Qed.

(* ---- points of lines ---- *)

Definition zero_elsewhere (l : layout) (format : text) (p : list Z) : Prop :=
  forall i, (forall c a o pr flag m, In c format -> meaning_of c = Some (Field a o pr flag) -> member_of l a = Some m ->
               i < m_offset m + o \/ m_offset m + o + prim_size pr <= i) -> nth i p 0%Z = 0%Z.

Lemma nth_zeros n i : nth i (repeat 0%Z n) 0%Z = 0%Z.
Proof. revert i. induction n as [|n IH]; intros [|i]; cbn [repeat nth]; auto. Qed.
Lemma field_bytes_sub l p a o pr m : good_layout l -> length p = l_size l -> member_of l a = Some m -> o + prim_size pr <= m_size m ->
  field_bytes l p a o pr = Some (sub p (m_offset m + o) (prim_size pr)).
Proof.
  intros G L M B. unfold field_bytes. rewrite M. unfold attr_value. destruct (member_size l a m G M) as (_ & _ & B').
  rewrite sub_sub by lia. reflexivity.
Qed.
Lemma meaning_ok c a o pr flag : meaning_of c = Some (Field a o pr flag) -> field_ok a o pr.
Proof. rewrite column_meaning. destruct (column_of_char c) as [k|]; [|discriminate]. intros E. injection E as E. exact (col_field_ok k _ _ _ _ E). Qed.

Lemma parse_line l format cols d line p : good_layout l -> columns_of format cols -> length p = l_size l -> zero_elsewhere l format p -> good_line format d line ->
  exists p', parse_point l p line d cols = Ok p' /\ line_point l format d line p'.
Proof.
  intros G F L Z GL. destruct (parse_fields_ok l G cols format (split d line) p F L GL) as (p' & E & L' & A & U). exists p'. split; [exact E|].
  split; [exact L'|]. split.
  - intros k c a o pr flag bs H1 H2 H3 H4. destruct (member_of l a) as [m|] eqn:M; [|unfold field_bytes in H4; rewrite M in H4; discriminate H4].
    destruct (meaning_ok _ _ _ _ _ H3) as [FO _]. destruct (member_size l a m G M) as (S & _ & B).
    rewrite (field_bytes_sub l p' a o pr m G L' M) in H4 by lia. injection H4 as <-.
    destruct (A k c a o pr flag m H1 H2 H3 M) as (t & v & Q1 & Q2 & Q3). exists t, v. auto.
  - intros i N. rewrite U; [apply Z; exact N|]. intros c I (a & o & pr & flag & m & E1 & E2 & R). specialize (N c a o pr flag m I E1 E2). lia.
Qed.
Lemma line_point_zero l format d line p : line_point l format d line p -> zero_elsewhere l format p.
Proof. intros (_ & _ & Z). exact Z. Qed.
Lemma parse_bad_line l format cols d line p : good_layout l -> columns_of format cols -> length p = l_size l -> ~ good_line format d line ->
  parse_point l p line d cols = Err.
Proof. intros G F L N. exact (parse_fields_bad l G cols format (split d line) p F L N). Qed.

Lemma good_line_dec format d line : good_line format d line \/ ~ good_line format d line.
Proof.
  unfold good_line. generalize (split d line) as fields. induction format as [|c format IH]; intros fields.
  - left. split; [cbn [length]; lia|]. intros [|k]; discriminate.
  - destruct fields as [|t fields]; [right; intros [N _]; cbn [length] in N; lia|]. destruct (IH fields) as [[LE OK]|N].
    + destruct (meaning_of c) as [[|a o pr flag]|] eqn:M.
      * left. split; [cbn [length]; lia|]. intros [|k] c' a' o' pr' flag' t' H1 H2 H3; [injection H1 as <-; congruence|exact (OK k c' a' o' pr' flag' t' H1 H2 H3)].
      * destruct (field_number pr flag t) eqn:V.
        -- left. split; [cbn [length]; lia|]. intros [|k] c' a' o' pr' flag' t' H1 H2 H3; [|exact (OK k c' a' o' pr' flag' t' H1 H2 H3)].
           injection H1 as <-. injection H3 as <-. rewrite M in H2. injection H2 as <- <- <- <-. congruence.
        -- right. intros [_ OK']. exact (OK' 0 c a o pr flag t eq_refl M eq_refl V).
      * left. split; [cbn [length]; lia|]. intros [|k] c' a' o' pr' flag' t' H1 H2 H3; [injection H1 as <-; congruence|exact (OK k c' a' o' pr' flag' t' H1 H2 H3)].
    + right. intros [LE OK]. apply N. split; [cbn [length] in LE; lia|]. intros k c' a' o' pr' flag' t' H1 H2 H3. exact (OK (S k) c' a' o' pr' flag' t' H1 H2 H3).
Qed.

(* such points are stored completely *)
Lemma stored_zero b p format : good_layout (mb_layout b) -> length p = l_size (mb_layout b) -> zero_elsewhere (mb_layout b) format p -> stored b p = p.
Proof.
  intros G L Z. unfold stored. destruct (mb_columnar b); [|reflexivity]. apply nth_error_ext. intros k.
  rewrite overlay_byte by (auto; now rewrite repeat_length). destruct (existsb _ _) eqn:X; [reflexivity|].
  destruct (Nat.lt_ge_cases k (l_size (mb_layout b))) as [K|K].
  - destruct (nth_error_get p k ltac:(lia)) as [x E]. rewrite E. rewrite (nth_error_nth' _ 0%Z) by (rewrite repeat_length; lia). f_equal. rewrite nth_zeros.
    rewrite <- (nth_nth_error _ _ 0%Z _ E). symmetry. apply Z. intros c a o pr flag m I M MO.
    destruct (Nat.lt_ge_cases k (m_offset m + o)) as [|A1]; [now left|]. destruct (Nat.lt_ge_cases k (m_offset m + o + prim_size pr)) as [A2|]; [|now right]. exfalso.
    destruct (member_size _ a m G MO) as (S & IM & B). destruct (meaning_ok _ _ _ _ _ M) as [FO _].
    assert (T : existsb (fun m => Nat.leb (m_offset m) k && Nat.ltb k (m_offset m + m_size m)) (l_attrs (mb_layout b)) = true).
    { apply existsb_exists. exists m. split; [exact IM|]. destruct (Nat.leb_spec (m_offset m) k), (Nat.ltb_spec k (m_offset m + m_size m)); try lia; reflexivity. }
    rewrite T in X. discriminate X.
  - rewrite (proj2 (nth_error_None _ _)) by (rewrite repeat_length; lia). symmetry. apply nth_error_None. lia.
Qed.

Lemma set_one b i p : mb_wf b -> i < mb_len b -> length p = l_size (mb_layout b) -> exists b', mb_set_point b i p = Ok b' /\ put_points b i [p] b'.
Proof.
  intros W LT LP.
  destruct (mb_write b (OSetPoint i p) W) as (b' & pts' & E & W' & SH & L & N & O & SP & P & _ & LR & OUT); [split; assumption|].
  exists b'. split; [exact E|]. cbn [spec_step] in SP. destruct (wf_uniform b W) as [_ UL]. rewrite UL in SP. destruct (Nat.ltb_spec i (mb_len b)); [|lia]. injection SP as <-.
  destruct (same_shape_facts b b' SH LR) as (_ & _ & EC & _).
  split; [repeat split; auto; congruence|]. split.
  - intros [|j] rec Ei; [|destruct j; discriminate Ei]. injection Ei as <-. rewrite Nat.add_0_r. rewrite P, nth_error_map. unfold set_nth. rewrite nth_error_mapi.
    destruct (nth_error_get (mb_points b) i) as [old HO]; [lia|]. rewrite HO. cbn [option_map]. rewrite Nat.eqb_refl. reflexivity.
  - intros k K. cbn [length] in K. rewrite P, nth_error_map. unfold set_nth. rewrite nth_error_mapi. rewrite <- (stored_points b W) at 2. rewrite nth_error_map.
    destruct (nth_error (mb_points b) k); [|reflexivity]. cbn [option_map]. destruct (Nat.eqb_spec k i); [lia|reflexivity].
Qed.
Lemma put_fits b s xs b' : mb_wf b -> put_points b s xs b' -> s + length xs <= mb_len b -> (forall x, In x xs -> stored b x = x) ->
  mb_points b' = firstn s (mb_points b) ++ xs ++ skipn (s + length xs) (mb_points b).
Proof.
  intros W (F & P & O) LE ST. destruct F as (W' & L & N & _). destruct (wf_uniform b' W') as [_ UL'], (wf_uniform b W) as [_ UL].
  apply nth_error_ext. intros k. destruct (Nat.lt_ge_cases k s) as [A|A].
  - rewrite O by lia. rewrite nth_error_app1 by (rewrite firstn_length; lia). rewrite nth_error_firstn. destruct (Nat.ltb_spec k s); [reflexivity|lia].
  - rewrite nth_error_app2 by (rewrite firstn_length; lia). rewrite firstn_length, Nat.min_l by lia.
    destruct (Nat.lt_ge_cases (k - s) (length xs)) as [B|B].
    + rewrite nth_error_app1 by exact B. destruct (nth_error_get xs (k - s) B) as [x X]. rewrite X. specialize (P _ _ X). replace (s + (k - s)) with k in P by lia. rewrite P.
      f_equal. apply ST. exact (nth_error_In _ _ X).
    + rewrite nth_error_app2 by exact B. rewrite nth_error_skipn. rewrite O by lia. f_equal. lia.
Qed.

(* ---- lines of a file ---- *)

Lemma read_lines_ok format cols d : columns_of format cols -> forall n file b temp i,
  mb_wf b -> length temp = l_size (mb_layout b) -> zero_elsewhere (mb_layout b) format temp ->
  i + length (firstn n (lines_of file)) <= mb_len b -> Forall (good_line format d) (firstn n (lines_of file)) ->
  exists b' rest ps, read_lines cols d n i file temp b = Ok (b', rest) /\ lines_of rest = skipn n (lines_of file) /\ put_points b i ps b'
    /\ Forall2 (line_point (mb_layout b) format d) (firstn n (lines_of file)) ps.
Proof.
  intros F. induction n as [|n IH]; intros file b temp i W L Z LE GL.
  - exists b, file, []. split; [reflexivity|]. split; [reflexivity|]. split; [apply put_nothing; exact W|constructor].
  - cbn [read_lines]. rewrite lines_next in *. destruct (next_line file) as [[line rest]|] eqn:NX.
    + cbn [firstn] in *. cbn [length] in LE. inversion GL as [|? ? G1 G2]; subst.
      destruct (parse_line _ format cols d line temp (wf_good _ W) F L Z G1) as (p & E & LP). rewrite E. cbn [bind].
      destruct (set_one b i p W ltac:(lia) (proj1 LP)) as (b1 & E1 & P1). rewrite E1. cbn [bind].
      pose proof P1 as (FR & _). destruct FR as (W1 & L1 & N1 & _).
      destruct (IH rest b1 p (S i) W1) as (b' & rest' & ps & E2 & R2 & P2 & LP2).
      * rewrite L1. exact (proj1 LP).
      * rewrite L1. exact (line_point_zero _ _ _ _ _ LP).
      * rewrite N1. lia.
      * exact G2.
      * exists b', rest', (p :: ps). split; [exact E2|]. split; [exact R2|]. split.
        -- apply (put_app b b1 b' i [p] ps P1). cbn [length]. rewrite Nat.add_1_r. exact P2.
        -- constructor; [exact LP|]. rewrite L1 in LP2. exact LP2.
    + exists b, file, []. split; [reflexivity|]. split; [rewrite lines_next, NX; reflexivity|]. split; [apply put_nothing; exact W|constructor].
Qed.

Lemma read_lines_bad format cols d : columns_of format cols -> forall n file b temp i,
  mb_wf b -> length temp = l_size (mb_layout b) -> zero_elsewhere (mb_layout b) format temp ->
  i + length (firstn n (lines_of file)) <= mb_len b -> ~ Forall (good_line format d) (firstn n (lines_of file)) ->
  read_lines cols d n i file temp b = Err.
Proof.
  intros F. induction n as [|n IH]; intros file b temp i W L Z LE GL; [destruct GL; constructor|].
  cbn [read_lines]. rewrite lines_next in LE, GL. destruct (next_line file) as [[line rest]|] eqn:NX; [|destruct GL; constructor].
  cbn [firstn length] in *. destruct (good_line_dec format d line) as [G|N].
  - destruct (parse_line _ format cols d line temp (wf_good _ W) F L Z G) as (p & E & LP). rewrite E. cbn [bind].
    destruct (set_one b i p W ltac:(lia) (proj1 LP)) as (b1 & E1 & P1). rewrite E1. cbn [bind].
    pose proof P1 as (FR & _). destruct FR as (W1 & L1 & N1 & _). apply IH.
    + exact W1.
    + rewrite L1. exact (proj1 LP).
    + rewrite L1. exact (line_point_zero _ _ _ _ _ LP).
    + rewrite N1. lia.
    + intros A. apply GL. constructor; assumption.
  - rewrite (parse_bad_line _ format cols d line temp (wf_good _ W) F L N). reflexivity.
Qed.

Lemma zeros_elsewhere l format : zero_elsewhere l format (repeat 0%Z (l_size l)).
Proof. intros i _. apply nth_zeros. Qed.

Lemma reader_new order file format d r : ascii_reader_new order file format d = Ok r ->
  columns_of format (ar_columns r) /\ layout_from_columns order (ar_columns r) = Ok (ar_layout r) /\ ar_text r = file /\ ar_delimiter r = d.
Proof.
  unfold ascii_reader_new. destruct (get_parse_layout format) as [cols| |] eqn:E; try discriminate. cbn [bind].
  destruct (layout_from_columns order cols) as [l| |] eqn:E2; try discriminate. cbn [bind]. intros Q. injection Q as <-.
  apply parse_layout_ok in E. auto.
Qed.
Lemma reader_same order file rest format d r : ascii_reader_new order file format d = Ok r ->
  ascii_reader_new order rest format d = Ok (mk_areader rest (ar_delimiter r) (ar_layout r) (ar_columns r)).
Proof.
  unfold ascii_reader_new. destruct (get_parse_layout format) as [cols| |] eqn:E; try discriminate. cbn [bind].
  destruct (layout_from_columns order cols) as [l| |] eqn:E2; try discriminate. cbn [bind]. intros Q. injection Q as <-. reflexivity.
Qed.

Lemma read_into_ok order file format d r b count : ascii_reader_new order file format d = Ok r -> mb_wf b ->
  length (firstn count (lines_of file)) <= mb_len b -> Forall (good_line format d) (firstn count (lines_of file)) ->
  exists b' r' rest ps, ascii_read_into r b count = Ok (b', r', count)
    /\ ascii_reader_new order rest format d = Ok r' /\ lines_of rest = skipn count (lines_of file)
    /\ mb_wf b' /\ mb_layout b' = mb_layout b
    /\ mb_points b' = ps ++ skipn (length ps) (mb_points b)
    /\ Forall2 (line_point (mb_layout b) format d) (firstn count (lines_of file)) ps.
Proof.
  intros R W LE GL. destruct (reader_new _ _ _ _ _ R) as (F & _ & T & D).
  destruct (read_lines_ok format (ar_columns r) d F count file b (repeat 0%Z (l_size (mb_layout b))) 0 W) as (b' & rest & ps & E & RL & P & LP); auto.
  { apply repeat_length. } { apply zeros_elsewhere. }
  exists b', (mk_areader rest (ar_delimiter r) (ar_layout r) (ar_columns r)), rest, ps. unfold ascii_read_into. rewrite D, T, E. cbn [bind].
  split; [reflexivity|]. split; [pose proof (reader_same _ _ rest _ _ _ R) as Q; rewrite D in Q; exact Q|]. split; [exact RL|].
  pose proof P as (FR & _). destruct FR as (W1 & L1 & N1 & _). split; [exact W1|]. split; [exact L1|]. split; [|exact LP].
  rewrite (put_fits b 0 ps b' W P); [reflexivity| |].
  - apply Forall2_len in LP. cbn [plus]. lia.
  - intros x I. assert (Q : exists line, line_point (mb_layout b) format d line x).
    { clear - LP I. induction LP; [destruct I|]. destruct I as [<-|I]; [eauto|auto]. }
    destruct Q as [line LPx]. exact (stored_zero b x format (wf_good _ W) (proj1 LPx) (line_point_zero _ _ _ _ _ LPx)).
Qed.
Lemma read_into_bad order file format d r b count : ascii_reader_new order file format d = Ok r -> mb_wf b ->
  length (firstn count (lines_of file)) <= mb_len b -> ~ Forall (good_line format d) (firstn count (lines_of file)) -> ascii_read_into r b count = Err.
Proof.
  intros R W LE GL. destruct (reader_new _ _ _ _ _ R) as (F & _ & T & D). unfold ascii_read_into. rewrite D, T.
  rewrite (read_lines_bad format (ar_columns r) d F count file b (repeat 0%Z (l_size (mb_layout b))) 0 W); auto.
  { apply repeat_length. } { apply zeros_elsewhere. }
Qed.

(* ---- new readers and writers ---- *)

Definition column_attrs (cols : list column) : list attr_def := flat_map (fun c => match column_attribute c with Some a => [a] | None => [] end) cols.
Lemma column_attribute_meaning k : column_attribute k = match col_meaning k with Skipped => None | Field a _ _ _ => Some a end.
Proof. destruct k; reflexivity. Qed.
Lemma hash_set_spec l : NoDup (hash_set l) /\ forall a, In a (hash_set l) <-> In a l.
Proof.
  induction l as [|a l [N I]]; [split; [constructor|tauto]|]. cbn [hash_set]. destruct (existsb (attr_def_eqb a) l) eqn:E.
  - split; [exact N|]. intros x. rewrite I. split; [right; assumption|]. intros [<-|H]; [|exact H]. apply existsb_exists in E. destruct E as (y & Y & Q). apply attr_def_eqb_eq in Q. subst. exact Y.
  - split; [constructor; [|exact N]|].
    + intros H. apply I in H. assert (T : existsb (attr_def_eqb a) l = true) by (apply existsb_exists; exists a; split; [exact H|apply attr_def_eqb_refl]). congruence.
    + intros x. cbn [In]. rewrite I. tauto.
Qed.
Definition ascii_attributes : list attr_def :=
  [POSITION_3D; INTENSITY; RETURN_NUMBER; NUMBER_OF_RETURNS; CLASSIFICATION; GPS_TIME; USER_DATA; POINT_SOURCE_ID; COLOR_RGB; EDGE_OF_FLIGHT_LINE; SCAN_DIRECTION_FLAG; SCAN_ANGLE_RANK; NIR].
Lemma column_attribute_in k a : column_attribute k = Some a -> In a ascii_attributes.
Proof. destruct k; cbn [column_attribute]; intros E; try discriminate E; injection E as <-; unfold ascii_attributes; cbn [In]; tauto. Qed.
Lemma names_distinct : forallb (fun a => forallb (fun b => negb (String.eqb (ad_name a) (ad_name b)) || attr_def_eqb a b) ascii_attributes) ascii_attributes = true.
Proof. vm_compute. reflexivity. Qed.
Lemma attrs_named cols : NoDup (map ad_name (hash_set (column_attrs cols))).
Proof.
  destruct (hash_set_spec (column_attrs cols)) as [N I].
  assert (A : forall a, In a (hash_set (column_attrs cols)) -> In a ascii_attributes).
  { intros a H. apply I in H. unfold column_attrs in H. apply in_flat_map in H. destruct H as (k & _ & H). destruct (column_attribute k) as [a'|] eqn:E; [|destruct H].
    destruct H as [<-|[]]. exact (column_attribute_in _ _ E). }
  revert N A. generalize (hash_set (column_attrs cols)) as l. induction l as [|a l IH]; intros N A; cbn [map]; [constructor|]. inversion N; subst. constructor.
  - intros H. apply in_map_iff in H. destruct H as (b & E & B). pose proof names_distinct as D. rewrite forallb_forall in D. specialize (D a (A a (or_introl eq_refl))).
    rewrite forallb_forall in D. specialize (D b (A b (or_intror B))). rewrite E, String.eqb_refl in D. cbn [negb orb] in D. apply attr_def_eqb_eq in D. subst b. contradiction.
  - apply IH; [assumption|]. intros x X. apply A. now right.
Qed.
