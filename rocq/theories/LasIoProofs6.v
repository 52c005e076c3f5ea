(* Lemmas about the readers: reading records into buffers with the layout of the records. *)
From Coq Require Import String List ZArith Lia Bool Arith SpecFloat ZifyBool ZifyNat ZifyN.
From Verif Require Import Base LayoutModel LayoutSpec LayoutProofs BufferModel BufferSpec ListLemmas BufferProofs BufferSteps TraitModel TraitSpec TraitProofs2
  NumModel ConvModel ConvSpec ConvProofs MathModel LasModel LasSpec LasProofs LasProofs2 LasIoModel LasIoSpec.
Import ListNotations.
Open Scope nat_scope.

(* ---------- points of a buffer replaced by records ---------- *)
Definition same_frame (b b' : mbuf) : Prop :=
  mb_wf b' /\ mb_layout b' = mb_layout b /\ mb_len b' = mb_len b /\ mb_off b' = mb_off b /\ mb_len (mb_root b') = mb_len (mb_root b)
  /\ mb_columnar b' = mb_columnar b
  /\ (forall q, q < mb_off b \/ mb_off b + mb_len b <= q -> nth_error (mb_points (mb_root b')) q = nth_error (mb_points (mb_root b)) q).
Definition put_points (b : mbuf) (s : nat) (xs : list (list Z)) (b' : mbuf) : Prop :=
  same_frame b b'
  /\ (forall i rec, nth_error xs i = Some rec -> nth_error (mb_points b') (s + i) = Some (stored b rec))
  /\ (forall k, k < s \/ s + length xs <= k -> nth_error (mb_points b') k = nth_error (mb_points b) k).

Lemma same_frame_refl b : mb_wf b -> same_frame b b.
Proof. intros W. repeat split; auto. Qed.
Lemma same_frame_trans a b c : same_frame a b -> same_frame b c -> same_frame a c.
Proof.
  intros (A1 & A2 & A3 & A4 & A5 & A6 & A7) (B1 & B2 & B3 & B4 & B5 & B6 & B7). repeat split; try congruence.
  intros q Q. rewrite B7; [apply A7; exact Q|]. rewrite A3, A4. exact Q.
Qed.
Lemma put_nothing b s : mb_wf b -> put_points b s [] b.
Proof. intros W. split; [now apply same_frame_refl|]. split; [intros [|i] rec E; discriminate|auto]. Qed.
Lemma stored_same a b : same_frame a b -> forall r, stored b r = stored a r.
Proof. intros (_ & L & _ & _ & _ & C & _) r. unfold stored. now rewrite L, C. Qed.
Lemma put_app a b c s xs ys : put_points a s xs b -> put_points b (s + length xs) ys c -> put_points a s (xs ++ ys) c.
Proof.
  intros (F1 & P1 & O1) (F2 & P2 & O2). split; [exact (same_frame_trans _ _ _ F1 F2)|]. split.
  - intros i rec E. destruct (Nat.lt_ge_cases i (length xs)) as [I|I].
    + rewrite nth_error_app1 in E by exact I. rewrite O2 by lia. now apply P1.
    + rewrite nth_error_app2 in E by exact I. specialize (P2 _ _ E). replace (s + length xs + (i - length xs)) with (s + i) in P2 by lia.
      rewrite P2. f_equal. exact (stored_same _ _ F1 rec).
  - intros k K. rewrite app_length in K. rewrite O2 by lia. apply O1. lia.
Qed.

Lemma set_points b s xs : mb_wf b -> s + length xs <= mb_len b -> uniform (l_size (mb_layout b)) xs ->
  exists b', mb_set_point_range b s (s + length xs) (concat xs) = Ok b' /\ put_points b s xs b'.
Proof.
  intros W LE U. pose proof (length_concat _ _ U) as LC.
  destruct (mb_write b (OSetPointRange s (s + length xs) (concat xs)) W) as (b' & pts' & E & W' & SH & L & N & O & SP & P & _ & LR & OUT).
  { cbn [write_ok]. split; [lia|]. split; [exact LE|]. rewrite LC. f_equal. lia. }
  exists b'. split; [exact E|]. cbn [spec_step] in SP. destruct (wf_uniform b W) as [_ UL]. rewrite UL in SP.
  destruct (Nat.leb_spec (s + length xs) (mb_len b)); [|lia]. replace (s + length xs - s) with (length xs) in SP by lia.
  rewrite (pieces_concat _ _ U) in SP. injection SP as <-.
  destruct (same_shape_facts b b' SH LR) as (_ & _ & EC & _).
  split; [repeat split; auto; congruence|]. split.
  - intros i rec Ei. pose proof (nth_error_lt _ _ _ Ei) as I. rewrite P, nth_error_map. unfold set_range. rewrite nth_error_mapi.
    destruct (nth_error_get (mb_points b) (s + i)) as [old HO]; [lia|]. rewrite HO. cbn [option_map].
    destruct (Nat.leb_spec s (s + i)); [|lia]. destruct (Nat.ltb_spec (s + i) (s + length xs)); [|lia]. cbn [andb].
    replace (s + i - s) with i by lia. rewrite (nth_nth_error _ _ _ _ Ei). reflexivity.
  - intros k K. rewrite P, nth_error_map. unfold set_range. rewrite nth_error_mapi.
    rewrite <- (stored_points b W) at 2. rewrite nth_error_map. destruct (nth_error (mb_points b) k) as [old|]; [|reflexivity]. cbn [option_map].
    destruct (Nat.leb_spec s k), (Nat.ltb_spec k (s + length xs)); cbn [andb]; try reflexivity. lia.
Qed.

(* ---------- the state of a reader ---------- *)
Definition reader_at (f : las_file) (raw : layout) (r : las_reader) (i : nat) : Prop :=
  r_file r = f /\ r_exact_layout r = raw /\ r_index r = i /\ i <= length (records f) /\ r_position r = i * l_size raw.

Lemma file_sizes f raw : file_ok f raw -> format_len (h_format (f_header f)) = l_size raw
  /\ length (records f) = Z.to_nat (h_total (f_header f)) /\ length (records f) * l_size raw <= length (f_data f)
  /\ uniform (l_size raw) (records f) /\ good_layout raw.
Proof.
  intros (_ & _ & S & G & _ & _ & _ & LE & _). unfold records. rewrite length_pieces. rewrite <- S in LE |- *.
  split; [reflexivity|]. split; [reflexivity|]. split; [exact LE|]. split; [|exact G].
  apply uniform_intro. intros k r E. rewrite nth_error_pieces in E. destruct (Nat.ltb_spec k (Z.to_nat (h_total (f_header f)))); [|discriminate].
  injection E as <-. apply length_sub. nia.
Qed.
Lemma sub_records f raw i n : file_ok f raw -> i + n <= length (records f) -> sub (f_data f) (i * l_size raw) (n * l_size raw) = concat (sub (records f) i n).
Proof.
  intros FO LE. destruct (file_sizes f raw FO) as (S & LR & LD & U & _). rewrite <- (ListLemmas.sub_concat (l_size raw) (records f) i n U).
  assert (E : concat (records f) = firstn (length (records f) * l_size raw) (f_data f)).
  { rewrite <- (concat_pieces (l_size raw) (length (records f)) (firstn (length (records f) * l_size raw) (f_data f))) by (rewrite firstn_length; lia).
    f_equal. apply nth_error_ext. intros k. unfold records at 1. rewrite S. rewrite !nth_error_pieces, <- LR.
    destruct (Nat.ltb_spec k (length (records f))); [|reflexivity]. f_equal. unfold sub.
    rewrite skipn_firstn_comm, firstn_firstn. rewrite Nat.min_l by nia. reflexivity. }
  rewrite E. unfold sub. rewrite skipn_firstn_comm, firstn_firstn. rewrite Nat.min_l by nia. reflexivity.
Qed.
Lemma reads f raw r i n : file_ok f raw -> r_file r = f -> r_position r = i * l_size raw -> i + n <= length (records f) ->
  read_exact r (n * l_size raw) = Ok (concat (sub (records f) i n), with_position r ((i + n) * l_size raw)).
Proof.
  intros FO EF EP LE. unfold read_exact. rewrite EF, EP. destruct (file_sizes f raw FO) as (_ & _ & LD & _).
  destruct (Nat.leb_spec (i * l_size raw + n * l_size raw) (length (f_data f))); [|nia].
  rewrite (sub_records f raw i n FO LE). rewrite Nat.mul_add_distr_r. reflexivity.
Qed.

Lemma sub_split {A} (l : list A) i a b : sub l i (a + b) = sub l i a ++ sub l (i + a) b.
Proof.
  unfold sub. replace (i + a) with (a + i) by lia. rewrite <- skipn_skipn. generalize (skipn i l). clear. intros l.
  revert l. induction a as [|a IH]; intros l; [reflexivity|]. destruct l as [|x l]; [cbn; rewrite firstn_nil; reflexivity|]. cbn [Nat.add firstn skipn app]. now rewrite IH.
Qed.

Lemma last_chunk k c per n sz : k < c -> (c - 1) * per < n -> n <= c * per ->
  (if Nat.eqb k (c - 1) then (n - k * per) * sz else per * sz) = (Nat.min ((k + 1) * per) n - k * per) * sz.
Proof.
  intros K A B. destruct (Nat.eqb_spec k (c - 1)) as [->|N]; f_equal.
  - replace (c - 1 + 1) with c by lia. lia.
  - assert ((k + 1) * per <= (c - 1) * per) by (apply Nat.mul_le_mono_r; lia). lia.
Qed.
Lemma columns_read f raw chunk r b i n : file_ok f raw -> reader_at f raw r i -> mb_wf b -> mb_layout b = raw -> n <= mb_len b -> i + n <= length (records f) -> 0 < n ->
  let per := chunk / l_size raw in 0 < per ->
  let num_chunks := (n + per - 1) / per in
  exists b' r', foldM (fun st k =>
       let '(b, r) := st in
       let bytes_in_chunk := if Nat.eqb k (num_chunks - 1) then (n - k * per) * r_size r else per * r_size r in
       let* '(bytes, r) := read_exact r bytes_in_chunk in
       let* b := mb_set_point_range b (k * per) (Nat.min ((k + 1) * per) n) bytes in
       Ok (b, r)) (range 0 num_chunks) (b, r) = Ok (b', r')
  /\ r_file r' = f /\ r_exact_layout r' = raw /\ r_index r' = i /\ r_position r' = (i + n) * l_size raw
  /\ put_points b 0 (sub (records f) i n) b'.
Proof.
  intros FO (R1 & R2 & R3 & R4 & R5) W L LN IN N0 per PP num_chunks.
  destruct (file_sizes f raw FO) as (S & LR & LD & U & G).
  pose proof (Nat.div_mod (n + per - 1) per ltac:(lia)) as DM. pose proof (Nat.mod_upper_bound (n + per - 1) per ltac:(lia)) as MB. fold num_chunks in DM.
  assert (NC : 0 < num_chunks) by nia. assert (NC1 : (num_chunks - 1) * per < n) by nia. assert (NC2 : n <= num_chunks * per) by nia.
  set (P := fun k (st : mbuf * las_reader) => let '(b', r') := st in
    r_file r' = f /\ r_exact_layout r' = raw /\ r_index r' = i /\ r_position r' = (i + Nat.min (k * per) n) * l_size raw
    /\ put_points b 0 (sub (records f) i (Nat.min (k * per) n)) b').
  match goal with |- exists _ _, foldM ?g _ _ = _ /\ _ => destruct (foldM_range (fun k st => P k st) g 0 num_chunks (b, r)) as ([b' r'] & E & H) end.
  - lia.
  - unfold P. cbn [Nat.mul Nat.min]. rewrite Nat.add_0_r. repeat split; auto. apply put_nothing. exact W.
  - intros k [b1 r1] K (A1 & A2 & A3 & A4 & A5).
    set (m := Nat.min ((k + 1) * per) n - k * per).
    assert (KP : k * per < n) by nia. rewrite (Nat.min_l (k * per) n) in * by lia.
    assert (RS : r_size r1 = l_size raw) by (unfold r_size, h_record_length; rewrite A1; exact S). rewrite RS.
    assert (BC : (if Nat.eqb k (num_chunks - 1) then (n - k * per) * l_size raw else per * l_size raw) = m * l_size raw).
    { apply (last_chunk k num_chunks per n (l_size raw)); lia. }
    cbv zeta. rewrite BC. rewrite (reads f raw r1 (i + k * per) m FO A1) by (try exact A4; unfold m; lia). cbn [bind].
    pose proof A5 as (FR & _). destruct FR as (W1 & L1 & N1 & _).
    destruct (set_points b1 (k * per) (sub (records f) (i + k * per) m)) as (b2 & E2 & P2); [exact W1| | |].
    + rewrite length_sub; unfold m; lia.
    + rewrite L1, L. now apply uniform_sub.
    + rewrite length_sub in E2 by (unfold m; lia).
      assert (KM : k * per + m = Nat.min ((k + 1) * per) n) by (unfold m; lia). rewrite KM in E2. rewrite E2. cbn [bind].
      eexists. split; [reflexivity|]. unfold P. rewrite <- KM.
      cbn [with_position r_file r_exact_layout r_index r_position]. repeat (split; [first [assumption|f_equal; lia]|]).
      rewrite sub_split. apply (put_app b b1 b2); [exact A5|]. rewrite length_sub by lia. exact P2.
  - exists b', r'. split; [exact E|]. unfold P in H. rewrite Nat.min_r in H by exact NC2. exact H.
Qed.

Lemma read_default f raw chunk r b i count : file_ok f raw -> reader_at f raw r i -> mb_wf b -> mb_layout b = raw -> count <= mb_len b -> l_size raw <= chunk ->
  let n := Nat.min count (length (records f) - i) in
  exists b' r', read_into_default_layout chunk r b count = Ok (b', r', n) /\ reader_at f raw r' (i + n) /\ put_points b 0 (sub (records f) i n) b'.
Proof.
  intros FO RA W L LC CH n. pose proof RA as (R1 & R2 & R3 & R4 & R5). destruct (file_sizes f raw FO) as (S & LR & LD & U & G).
  unfold read_into_default_layout, remaining_points.
  assert (RC : r_count r = length (records f)) by (unfold r_count; rewrite R1; congruence). rewrite RC, R3.
  destruct (Nat.leb_spec i (length (records f))); [|lia]. cbn [assert bind]. fold n.
  destruct (Nat.eqb_spec n 0) as [N0|N0].
  - exists b, r. rewrite N0. split; [reflexivity|]. rewrite Nat.add_0_r. split; [exact RA|]. apply put_nothing. exact W.
  - assert (IN : i + n <= length (records f)) by (unfold n; lia). assert (NL : n <= mb_len b) by (unfold n; lia).
    pose proof (good_size _ G) as SP. rewrite mb_is_columnar_eq. destruct (mb_columnar b) eqn:C; cbn [negb].
    + assert (RS : r_size r = l_size raw) by (unfold r_size, h_record_length; rewrite R1; exact S). rewrite RS.
      destruct (Nat.eqb_spec (l_size raw) 0); [lia|]. cbn [negb assert bind].
      assert (PP : 0 < chunk / l_size raw) by (apply Nat.div_str_pos; lia).
      destruct (Nat.eqb_spec (chunk / l_size raw) 0); [lia|]. cbn [negb assert bind].
      destruct (columns_read f raw chunk r b i n FO RA W L NL IN ltac:(lia) PP) as (b' & r' & E & A1 & A2 & A3 & A4 & A5).
      cbv zeta in E. rewrite E. cbn [bind]. eexists. eexists. split; [reflexivity|]. split; [|exact A5].
      unfold reader_at. cbn [with_index r_file r_exact_layout r_index r_position]. rewrite A3. repeat split; auto.
    + rewrite (mb_points_ref b 0 n W C) by lia. cbn [bind]. destruct (wf_uniform b W) as [UB LB].
      assert (LD' : length (concat (sub (mb_points b) 0 (n - 0))) = n * l_size raw).
      { rewrite (length_concat (l_size raw)) by (rewrite <- L; now apply uniform_sub). rewrite length_sub by lia. f_equal. lia. }
      rewrite LD'. rewrite (reads f raw r i n FO R1 R5 IN). cbn [bind].
      assert (US : uniform (l_size (mb_layout b)) (sub (records f) i n)) by (rewrite L; now apply uniform_sub).
      assert (LS : length (sub (records f) i n) = n) by (apply length_sub; lia).
      rewrite (modify_points b (fun _ => Ok (concat (sub (records f) i n))) (concat (sub (records f) i n))); [|exact W|exact C|lia|lia|reflexivity|].
      2:{ rewrite (length_concat _ _ US), LS. f_equal. lia. }
      destruct (set_points b 0 (sub (records f) i n) W) as (b' & E & P); [rewrite LS; lia|exact US|].
      rewrite LS in E. cbn [Nat.add] in E. rewrite E. cbn [bind]. eexists. eexists. split; [reflexivity|]. split; [|exact P].
      unfold reader_at. cbn [with_index with_position r_file r_exact_layout r_index r_position]. rewrite R3. repeat split; auto.
Qed.
