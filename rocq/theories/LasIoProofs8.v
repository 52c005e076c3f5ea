(* Lemmas about the readers: reading records into other layouts, and histories of a reader. *)
From Coq Require Import String List ZArith Lia Bool Arith SpecFloat ZifyBool ZifyNat ZifyN.
From Verif Require Import Base LayoutModel LayoutSpec LayoutProofs BufferModel BufferSpec ListLemmas BufferProofs BufferSteps TraitModel TraitSpec TraitProofs2
  NumModel NumSpec NumProofs NumProofs2 NumProofs3 ConvModel ConvSpec ConvProofs ConvProofs5 MathModel LasModel LasSpec LasProofs LasProofs2 LasIoModel LasIoSpec
  LasIoProofs2 LasIoProofs6 LasIoProofs7.
Import ListNotations.
Open Scope nat_scope.

Lemma adds attrs fa l l' : foldM (fun l a => add_attribute l a fa) attrs l = Ok l' ->
  incl (l_attrs l) (l_attrs l') /\ (forall a, In a attrs -> exists m, In m (l_attrs l') /\ m_def m = a).
Proof.
  revert l. induction attrs as [|a attrs IH]; intros l E.
  - injection E as <-. split; [apply incl_refl|contradiction].
  - cbn [foldM] in E. destruct (add_attribute l a fa) as [l1| |] eqn:A; try discriminate. cbn [bind] in E.
    destruct (add_attribute_inv _ _ _ _ A) as (o & _ & _ & L & _). destruct (IH _ E) as [I J]. split.
    + intros m M. apply I. rewrite L. apply in_or_app. now left.
    + intros a' [<-|M]; [|now apply J]. exists (at_offset_in_type a o). split; [|reflexivity]. apply I. rewrite L. apply in_or_app. right. now left.
Qed.
Lemma metadata_has f es raw a : point_layout_from_las_metadata f es true = Ok raw -> In a (exact_attributes f) -> exists m, In m (l_attrs raw) /\ m_def m = a.
Proof.
  unfold point_layout_from_las_metadata, point_layout_from_las_point_format. destruct (format_to_u8 f) as [n| |]; try discriminate. cbn [bind].
  destruct (foldM _ (exact_attributes f) layout_default) as [base| |] eqn:B; try discriminate. cbn [bind]. destruct (adds _ _ _ _ B) as [_ HB].
  intros E I. destruct (HB a I) as (m & M & D). destruct (Nat.eqb (extra_bytes f) 0); [injection E as <-; eauto|].
  destruct (mapM eb_attribute _) as [xs| |]; try discriminate. cbn [bind] in E.
  destruct (foldM _ xs base) as [l| |] eqn:X; try discriminate. cbn [bind] in E. destruct (adds _ _ _ _ X) as [HX _]. apply HX in M.
  destruct (Nat.leb _ (extra_bytes f)); [|discriminate]. cbn [assert bind] in E. destruct (Nat.ltb 0 _); [|injection E as <-; eauto].
  destruct (add_attribute_inv _ _ _ _ E) as (o & _ & _ & L & _). exists m. split; [|exact D]. rewrite L. apply in_or_app. now left.
Qed.
Lemma file_raw f raw : file_ok f raw -> raw_ok (is_extended (h_format (f_header f))) raw.
Proof.
  intros (_ & E & _ & G & P & B & _). split; [exact G|]. split; [|split; [|split; [exact P|exact B]]].
  - apply (metadata_has _ _ _ _ E). now left.
  - apply (metadata_has _ _ _ _ E). cbn [exact_attributes app In]. auto.
Qed.

(* ---------- the converter exists ---------- *)
Lemma readable_position ext raw target : readable ext raw target -> position_type_ok target.
Proof. intros R m I N. specialize (R m I). rewrite N in R. exact R. Qed.
Lemma table_typed ext t target : good_layout target -> Forall typed (table_calls target (las_table ext t)).
Proof.
  intros G. apply Forall_forall. intros k K. apply in_flat_map in K. destruct K as (e & E & K).
  destruct (get_attribute_by_name target (fst e)) as [m|]; [|contradiction]. destruct K as [<-|[]]. destruct E as [<-|E].
  - unfold position_entry. cbn [snd]. destruct (m_type m); cbn [typed]; intros v _; unfold to_world_f64, to_world_f32; rewrite !app_length; reflexivity.
  - destruct ext; cbn in E; repeat (destruct E as [<-|E]; [intros v _; reflexivity|]); contradiction.
Qed.
Lemma table_calls_ok ext raw t target : raw_ok ext raw -> good_layout target -> readable ext raw target ->
  layouts_ok false raw target /\ Forall (call_ok raw target) (table_calls target (las_table ext t)).
Proof.
  intros (G & (pm & PI & PD) & (fm & FI & FD) & PN & _) GT R. split.
  - intros tm I. specialize (R tm I). destruct (find (fun m => String.eqb (m_name m) (m_name tm)) (l_attrs raw)) as [sm|] eqn:F.
    + left. apply find_some in F. destruct F as [SI SE]. apply String.eqb_eq in SE. exists sm. split; [exact SI|]. split; [exact SE|].
      assert (NP : ~ In (m_name tm) packed_names) by (intros Q; apply (PN _ Q); rewrite <- SE; now apply in_map).
      destruct (String.eqb_spec (m_name tm) "Position3D") as [E|E]; [exfalso; apply NP; rewrite E; now left|].
      destruct (flag_bits ext (m_name tm)) as [p|] eqn:FB; [|now apply R]. exfalso. apply NP.
      unfold flag_bits in FB. destruct (find _ _) as [[s q]|] eqn:FE in FB; [|discriminate]. apply find_some in FE. destruct FE as [FE EQ]. apply String.eqb_eq in EQ. cbn [fst] in EQ. subst s.
      destruct ext; cbn in FE; repeat (destruct FE as [FE|FE]; [injection FE as <- _; cbn; tauto|]); contradiction.
    + right. split; [reflexivity|]. intros sm SI EQ. apply find_none_name in F. apply F. rewrite <- EQ. now apply in_map.
  - apply Forall_forall. intros k K. apply in_flat_map in K. destruct K as (e & E & K).
    destruct (get_attribute_by_name target (fst e)) as [m|] eqn:M; [|contradiction]. destruct K as [<-|[]].
    apply get_by_name_spec in M; [|apply GT]. destruct M as [I N]. pose proof (R m I) as Rm. destruct E as [<-|E].
    + cbn [fst position_entry] in N. rewrite N in Rm. cbn in Rm. unfold position_entry. cbn [snd]. exists pm, m.
      assert (PT : m_type pm = Vec3i32) by (unfold m_type; now rewrite PD).
      destruct Rm as [T|T]; rewrite T, PT; cbn [call_from call_to]; (split; [exact PI|]; split; [exact PD|]; split; [exact I|]; split; [reflexivity|];
        split; [right; right; split; discriminate|reflexivity]).
    + exists fm, m. assert (FT : m_type fm = ad_type (m_def fm)) by reflexivity. rewrite FD in FT.
      rewrite N in Rm. 
      destruct ext; cbn in E; repeat (destruct E as [<-|E]; [cbn [fst flag_entry] in Rm; cbn in Rm; cbn [snd flag_entry call_from call_to]; rewrite FT;
        split; [exact FI|]; split; [exact FD|]; split; [exact I|]; split; [reflexivity|]; split; [exact Rm|reflexivity]|]); contradiction.
Qed.
Lemma converter_total ext raw t target : raw_ok ext raw -> good_layout target -> readable ext raw target ->
  exists c, get_default_las_converter raw target t = Ok c /\ build false raw target (table_calls target (las_table ext t)) = Ok c.
Proof.
  intros RO GT R. rewrite (converter_build ext raw target t GT (raw_flags _ _ RO) (readable_position _ _ _ R)).
  destruct (build_iff false raw target (table_calls target (las_table ext t)) (proj1 RO) GT) as [[_ H] _].
  destruct (H (table_calls_ok ext raw t target RO GT R)) as [c C]. eauto.
Qed.

(* ---------- reading into another layout ---------- *)
Definition put_read (ext : bool) (raw : layout) (t : transforms) (b : mbuf) (s : nat) (xs : list (list Z)) (b' : mbuf) : Prop :=
  (mb_wf b' /\ mb_layout b' = mb_layout b /\ mb_len b' = mb_len b /\ mb_off b' = mb_off b /\ mb_len (mb_root b') = mb_len (mb_root b))
  /\ (forall i rec p, nth_error xs i = Some rec -> nth_error (mb_points b) (s + i) = Some p ->
        exists p', nth_error (mb_points b') (s + i) = Some p'
        /\ (forall tm, In tm (l_attrs (mb_layout b)) -> read_value ext raw t tm rec (attr_value tm p) = Some (attr_value tm p'))
        /\ (forall q, (forall tm, In tm (l_attrs (mb_layout b)) -> q < m_offset tm \/ m_offset tm + m_size tm <= q) -> nth_error p' q = nth_error p q))
  /\ (forall k, k < s \/ s + length xs <= k -> nth_error (mb_points b') k = nth_error (mb_points b) k)
  /\ (forall q, q < mb_off b \/ mb_off b + mb_len b <= q -> nth_error (mb_points (mb_root b')) q = nth_error (mb_points (mb_root b)) q).
Lemma put_read_nothing ext raw t b s : mb_wf b -> put_read ext raw t b s [] b.
Proof. intros W. split; [auto|]. split; [intros [|i] rec p E; discriminate|auto]. Qed.
Lemma put_read_app ext raw t a b c s xs ys : put_read ext raw t a s xs b -> put_read ext raw t b (s + length xs) ys c -> put_read ext raw t a s (xs ++ ys) c.
Proof.
  intros ((A1 & A2 & A3 & A4 & A5) & P1 & O1 & Q1) ((B1 & B2 & B3 & B4 & B5) & P2 & O2 & Q2). split; [repeat split; congruence|]. split; [|split].
  - intros i rec p E EP. destruct (Nat.lt_ge_cases i (length xs)) as [I|I].
    + rewrite nth_error_app1 in E by exact I. rewrite O2 by lia. now apply P1.
    + rewrite nth_error_app2 in E by exact I. rewrite A2 in P2.
      destruct (P2 (i - length xs) rec p E) as (p' & H); replace (s + length xs + (i - length xs)) with (s + i) in * by lia; [rewrite O1 by lia; exact EP|eauto].
  - intros k K. rewrite app_length in K. rewrite O2 by lia. apply O1. lia.
  - intros q Q. rewrite Q2 by (rewrite A3, A4; exact Q). now apply Q1.
Qed.

Section Custom.
Variables (f : las_file) (raw : layout).
Hypothesis (FO : file_ok f raw).
Let ext := is_extended (h_format (f_header f)).
Let t := h_tr (f_header f).

Lemma vec_stored cb cb' rec : same_frame cb cb' -> mb_columnar cb = false -> stored cb rec = rec.
Proof. intros _ C. unfold stored. now rewrite C. Qed.

(* one conversion step *)
Lemma convert_step target c cb b recs m s : good_layout target -> position_type_ok target ->
  build false raw target (table_calls target (las_table ext t)) = Ok c ->
  mb_wf cb -> mb_layout cb = raw -> mb_wf b -> mb_layout b = target -> length recs = m -> m <= mb_len cb -> s + m <= mb_len b ->
  (forall i rec, nth_error recs i = Some rec -> nth_error (mb_points cb) i = Some rec) ->
  exists b', convert_into_range c (Of cb) 0 m b s (s + m) = Ok b' /\ put_read ext raw t b s recs b'.
Proof.
  intros GT PT B WC LC WB LB LR MC MB PC. pose proof (file_raw f raw FO) as RO. fold ext in RO. pose proof RO as (G & _).
  destruct (convert_into_range_ok false raw target _ c (Of cb) 0 m b s (s + m) G GT (table_typed ext t target GT) B) as (b' & E & CV);
    [exact WC|exact LC|exact WB|exact LB|lia|exact MC|lia|lia|lia|].
  exists b'. split; [exact E|]. destruct CV as (C1 & C2 & C3 & C4 & C5 & C6 & C7 & C8). split; [repeat split; congruence|]. split; [|split].
  - intros i rec p Er Ep. pose proof (nth_error_lt _ _ _ Er) as I.
    destruct (C6 i rec p ltac:(lia) (PC _ _ Er) Ep) as (r' & R1 & R2 & R3). exists r'. split; [exact R1|]. rewrite LB. split; [|exact R3].
    intros tm TM. rewrite <- (R2 tm TM). symmetry. now apply converted_value.
  - intros k K. apply C7. lia.
  - exact C8.
Qed.

Lemma custom_las chunk r b i count : f_laz f = false -> reader_at f raw r i -> mb_wf b -> readable ext raw (mb_layout b) -> count <= mb_len b -> l_size raw <= chunk ->
  let n := Nat.min count (length (records f) - i) in
  exists b' r', read_into_custom_layout_las chunk r b count = Ok (b', r', ReadPoints n) /\ reader_at f raw r' (i + n)
    /\ put_read ext raw t b 0 (sub (records f) i n) b'.
Proof.
  intros LZ RA W RD LC CH n. pose proof RA as (R1 & R2 & R3 & R4 & R5). destruct (file_sizes f raw FO) as (S & LR & LD & U & G).
  unfold read_into_custom_layout_las, remaining_points.
  assert (RC : r_count r = length (records f)) by (unfold r_count; rewrite R1; congruence). rewrite RC, R3.
  destruct (Nat.leb_spec i (length (records f))); [|lia]. cbn [assert bind]. fold n.
  destruct (Nat.eqb_spec n 0) as [N0|N0].
  - exists b, r. rewrite N0. split; [reflexivity|]. rewrite Nat.add_0_r. split; [exact RA|]. apply put_read_nothing. exact W.
  - assert (IN : i + n <= length (records f)) by (unfold n; lia). assert (NL : n <= mb_len b) by (unfold n; lia).
    pose proof (good_size _ G) as SP. rewrite R2. destruct (Nat.eqb_spec (l_size raw) 0); [lia|]. cbn [negb assert bind].
    assert (PP : 0 < chunk / l_size raw) by (apply Nat.div_str_pos; lia). set (per := chunk / l_size raw) in *.
    destruct (Nat.eqb_spec per 0); [lia|]. cbn [negb assert bind].
    destruct (converter_total ext raw t (mb_layout b) (file_raw f raw FO) (wf_good b W) RD) as (c & EC & BC). rewrite R1. fold t. rewrite EC.
    pose proof (Nat.div_mod (n + per - 1) per ltac:(lia)) as DM. pose proof (Nat.mod_upper_bound (n + per - 1) per ltac:(lia)) as MB.
    set (num_chunks := (n + per - 1) / per) in *.
    assert (NC : 0 < num_chunks) by nia. assert (NC1 : (num_chunks - 1) * per < n) by nia. assert (NC2 : n <= num_chunks * per) by nia.
    set (sz := if Nat.ltb 1 num_chunks then per else n).
    assert (SZ : (num_chunks - 1) * sz < n /\ n <= num_chunks * sz /\ 0 < sz).
    { unfold sz. destruct (Nat.ltb_spec 1 num_chunks); [lia|]. replace num_chunks with 1 by lia. lia. }
    clearbody sz num_chunks. destruct SZ as (SZ1 & SZ2 & SZ0). clear NC1 NC2 DM MB.
    destruct (fresh_vec raw sz G) as (F1 & F2 & F3 & F4).
    set (P := fun k (st : mbuf * mbuf * las_reader) => let '(cb, b', r') := st in
      mb_wf cb /\ mb_layout cb = raw /\ mb_len cb = sz /\ mb_columnar cb = false /\ reader_at f raw r' (i + Nat.min (k * sz) n)
      /\ put_read ext raw t b 0 (sub (records f) i (Nat.min (k * sz) n)) b').
    match goal with |- context [foldM ?g (range 0 num_chunks) ?s0] => destruct (foldM_range (fun k st => P k st) g 0 num_chunks s0) as ([[cb' b'] r'] & E & HP) end.
    + lia.
    + unfold P. cbn [Nat.mul Nat.min]. rewrite Nat.add_0_r. repeat (split; [assumption || reflexivity|]). apply put_read_nothing. exact W.
    + intros k [[cb b1] r1] K (A1 & A2 & A3 & A4 & A5 & A6).
      assert (KP : k * sz < n). { assert (k * sz <= (num_chunks - 1) * sz) by (apply Nat.mul_le_mono_r; lia). lia. }
      rewrite (Nat.min_l (k * sz) n) in A5, A6 by lia. set (m := Nat.min ((k + 1) * sz) n - k * sz).
      assert (BC' : (if Nat.eqb k (num_chunks - 1) then n - (num_chunks - 1) * sz else sz) = m).
      { pose proof (last_chunk k num_chunks sz n 1 ltac:(lia) SZ1 SZ2) as Q. rewrite !Nat.mul_1_r in Q. unfold m. rewrite <- Q. destruct (Nat.eqb_spec k (num_chunks - 1)) as [->|]; reflexivity. }
      cbv zeta. rewrite BC'. assert (KM : k * sz + m = Nat.min ((k + 1) * sz) n) by (unfold m; lia).
      assert (MS : m <= sz) by (unfold m; lia).
      destruct (read_default f raw chunk r1 cb (i + k * sz) m FO A5 A1 A2 ltac:(lia) CH) as (cb2 & r2 & E2 & RA2 & PP2).
      rewrite (Nat.min_l m (length (records f) - (i + k * sz))) in E2, RA2, PP2 by lia. rewrite E2. cbn [bind].
      pose proof PP2 as (SF & PS & _). pose proof SF as (W2 & L2 & N2 & _ & _ & C2 & _).
      destruct A6 as ((B1 & B2 & B3 & B4 & B5) & B6).
      destruct (convert_step (mb_layout b) c cb2 b1 (sub (records f) (i + k * sz) m) m (k * sz) (wf_good b W) (readable_position _ _ _ RD) BC) as (b2 & E3 & P3);
        [exact W2|congruence|exact B1|exact B2|apply length_sub; lia|lia|lia| |].
      { intros j rec Ej. rewrite <- (vec_stored cb cb2 rec SF A4). exact (PS j rec Ej). }
      rewrite E3. cbn [bind]. eexists. split; [reflexivity|]. unfold P. rewrite <- KM.
      split; [exact W2|]. split; [congruence|]. split; [congruence|]. split; [congruence|]. split; [rewrite Nat.add_assoc; exact RA2|].
      rewrite sub_split. apply (put_read_app ext raw t b b1 b2); [repeat split; try assumption; apply B6|]. rewrite length_sub by lia. exact P3.
    + rewrite E. cbn [bind]. unfold P in HP. rewrite Nat.min_r in HP by exact SZ2. destruct HP as (_ & _ & _ & _ & H5 & H6). eauto.
Qed.

Lemma custom_laz chunk r b i count : f_laz f = true -> reader_at f raw r i -> mb_wf b -> readable ext raw (mb_layout b) -> count <= mb_len b -> l_size raw <= chunk ->
  let n := Nat.min count (length (records f) - i) in
  exists b' r', read_into_custom_layout_laz chunk r b count = Ok (b', r', ReadPoints n) /\ reader_at f raw r' (i + n)
    /\ put_read ext raw t b 0 (sub (records f) i n) b'.
Proof.
  intros LZ RA W RD LC CH n. pose proof RA as (R1 & R2 & R3 & R4 & R5). destruct (file_sizes f raw FO) as (S & LR & LD & U & G).
  unfold read_into_custom_layout_laz, remaining_points.
  assert (RC : r_count r = length (records f)) by (unfold r_count; rewrite R1; congruence). rewrite RC, R3.
  destruct (Nat.leb_spec i (length (records f))); [|lia]. cbn [assert bind]. fold n.
  destruct (Nat.eqb_spec n 0) as [N0|N0].
  - exists b, r. rewrite N0. split; [reflexivity|]. rewrite Nat.add_0_r. split; [exact RA|]. apply put_read_nothing. exact W.
  - assert (IN : i + n <= length (records f)) by (unfold n; lia). assert (NL : n <= mb_len b) by (unfold n; lia).
    rewrite R2. destruct (fresh_vec raw n G) as (F1 & F2 & F3 & F4). set (cb := VecB (vb_resize (vb_new raw) n)) in *.
    assert (CC : mb_columnar cb = false) by reflexivity. clearbody cb.
    destruct (read_default f raw chunk r cb i n FO RA F1 F2 ltac:(lia) CH) as (cb2 & r2 & E2 & RA2 & PP2).
    rewrite (Nat.min_l n (length (records f) - i)) in E2, RA2, PP2 by lia. rewrite E2. cbn [bind]. pose proof RA2 as (Q1 & Q2 & _). rewrite Q1, Q2.
    destruct (converter_total ext raw t (mb_layout b) (file_raw f raw FO) (wf_good b W) RD) as (c & EC & BC). fold t. rewrite EC.
    pose proof PP2 as (SF & PS & _). pose proof SF as (W2 & L2 & N2 & _).
    destruct (convert_step (mb_layout b) c cb2 b (sub (records f) i n) n 0 (wf_good b W) (readable_position _ _ _ RD) BC) as (b2 & E3 & P3);
      [exact W2|congruence|exact W|reflexivity|apply length_sub; lia|lia|lia| |].
    { intros j rec Ej. rewrite <- (vec_stored cb cb2 rec SF CC). exact (PS j rec Ej). }
    unfold convert_into. change (bf_len (Of cb2)) with (mb_len cb2). rewrite N2, F3. cbn [Nat.add] in E3. rewrite E3. cbn [bind]. eauto.
Qed.

Lemma stored_value b rec tm : good_layout (mb_layout b) -> length rec = l_size (mb_layout b) -> In tm (l_attrs (mb_layout b)) -> attr_value tm (stored b rec) = attr_value tm rec.
Proof.
  intros G L I. unfold stored. destruct (mb_columnar b); [|reflexivity]. apply attr_value_overlay; auto. now rewrite repeat_length.
Qed.

Lemma read_into_ok chunk r b i count : reader_at f raw r i -> mb_wf b -> mb_layout b = raw \/ readable ext raw (mb_layout b) -> count <= mb_len b -> l_size raw <= chunk ->
  let n := Nat.min count (length (records f) - i) in
  exists b' r', las_read_into chunk r b count = Ok (b', r', ReadPoints n) /\ reader_at f raw r' (i + n)
    /\ filled f raw (firstn n (skipn i (records f))) b b'.
Proof.
  intros RA W RD LC CH n. pose proof RA as (R1 & R2 & _). unfold las_read_into. destruct (Nat.leb_spec count (mb_len b)); [|lia]. cbn [assert bind].
  rewrite R1, R2. destruct (layout_eqb (mb_layout b) raw) eqn:L; cbn [negb].
  - pose proof L as L'. apply layout_eqb_eq in L'. destruct (read_default f raw chunk r b i count FO RA W L' LC CH) as (b' & r' & E & RA' & P). fold n in E, RA', P.
    rewrite E. cbn [bind]. exists b', r'. split; [reflexivity|]. split; [exact RA'|]. change (firstn n (skipn i (records f))) with (sub (records f) i n).
    destruct P as ((W' & L1 & L2 & L3 & L4 & L5 & L6) & PS & PO). unfold filled. rewrite L. repeat (split; [assumption|]). split; [|split; [|exact L6]].
    + intros j rec p Er Ep. exists (stored b rec). split; [exact (PS j rec Er)|]. intros tm I. apply stored_value; [now apply wf_good| |now rewrite L'].
      destruct (file_sizes f raw FO) as (_ & _ & _ & U & _). rewrite L'. apply (uniform_nth _ _ j _ (uniform_sub _ _ _ _ U) Er).
    + intros j J. apply PO. right. exact J.
  - destruct RD as [RD|RD]; [rewrite RD in L; rewrite (proj2 (layout_eqb_eq raw raw) eq_refl) in L; discriminate|].
    assert (X : exists b' r', (if f_laz f then read_into_custom_layout_laz else read_into_custom_layout_las) chunk r b count = Ok (b', r', ReadPoints n)
      /\ reader_at f raw r' (i + n) /\ put_read ext raw t b 0 (sub (records f) i n) b').
    { destruct (f_laz f) eqn:LZ; [now apply custom_laz|now apply custom_las]. }
    destruct X as (b' & r' & E & RA' & P). exists b', r'. split; [exact E|]. split; [exact RA'|]. change (firstn n (skipn i (records f))) with (sub (records f) i n).
    destruct P as ((W' & L1 & L2 & L3 & L4) & PS & PO & PQ). unfold filled. rewrite L. do 5 (split; [assumption|]). split; [|split; [|exact PQ]].
    + exact PS.
    + intros j J. apply PO. right. exact J.
Qed.

(* ---------- seeking ---------- *)
Lemma seek_ok r i s : reader_at f raw r i -> (Z.of_nat (length (records f)) < 2 ^ 63)%Z ->
  match s with FromStart n => (0 <= n < 2 ^ 64)%Z | FromEnd n | FromCurrent n => (- 2 ^ 63 <= n < 2 ^ 63)%Z end ->
  match seek_target (length (records f)) i s with
  | Some j => exists r', las_seek_point r s = Ok (r', j) /\ reader_at f raw r' j
  | None => las_seek_point r s = Panic
  end.
Proof.
  intros (R1 & R2 & R3 & R4 & R5) B SR. destruct (file_sizes f raw FO) as (S & LR & LD & U & G).
  assert (RC : r_count r = length (records f)) by (unfold r_count; rewrite R1; congruence).
  assert (RS : r_size r = l_size raw) by (unfold r_size, h_record_length; rewrite R1; exact S).
  assert (J : forall z, (0 <= z)%Z -> exists r', (let clamped := Z.to_nat (Z.min (Z.of_nat (length (records f))) z) in
      let r := if negb (Nat.eqb i clamped) then with_index (with_position r (clamped * l_size raw)) clamped else r in Ok (r, r_index r))
      = Ok (r', Nat.min (length (records f)) (Z.to_nat z)) /\ reader_at f raw r' (Nat.min (length (records f)) (Z.to_nat z))).
  { intros z Z0. cbv zeta. replace (Z.to_nat (Z.min (Z.of_nat (length (records f))) z)) with (Nat.min (length (records f)) (Z.to_nat z)) by lia.
    set (j := Nat.min (length (records f)) (Z.to_nat z)). assert (j <= length (records f)) by (unfold j; lia). clearbody j.
    destruct (Nat.eqb_spec i j) as [->|N]; cbn [negb].
    - exists r. rewrite R3. split; [reflexivity|]. repeat split; auto.
    - eexists. split; [reflexivity|]. repeat split; auto. }
  unfold las_seek_point. rewrite RC, RS, R3. unfold seek_target. cbv zeta.
  destruct s as [z|z|z].
  - cbn [bind]. unfold wrap. cbn [andb]. rewrite Z.mod_small by lia. change (64 - 1)%Z with 63%Z.
    destruct (Z.leb_spec (2 ^ 63) z).
    + destruct (Z.ltb_spec (z - 2 ^ 64) 0); [|lia]. destruct (Z.ltb_spec z 0); [lia|]. reflexivity.
    + destruct (Z.ltb_spec z 0); [lia|]. cbn [orb]. apply J. lia.
  - unfold i64_add. destruct (Z.leb_spec (- 2 ^ 63) (Z.of_nat (length (records f)) + z)), (Z.ltb_spec (Z.of_nat (length (records f)) + z) (2 ^ 63)); cbn [andb bind]; try lia.
    + destruct (Z.leb_spec (2 ^ 63) (Z.of_nat (length (records f)) + z)); [lia|]. destruct (Z.ltb_spec (Z.of_nat (length (records f)) + z) 0); cbn [orb]; [reflexivity|]. apply J. lia.
    + destruct (Z.leb_spec (2 ^ 63) (Z.of_nat (length (records f)) + z)); [|lia]. now rewrite orb_true_r.
  - unfold i64_add. destruct (Z.leb_spec (- 2 ^ 63) (Z.of_nat i + z)), (Z.ltb_spec (Z.of_nat i + z) (2 ^ 63)); cbn [andb bind]; try lia.
    + destruct (Z.leb_spec (2 ^ 63) (Z.of_nat i + z)); [lia|]. destruct (Z.ltb_spec (Z.of_nat i + z) 0); cbn [orb]; [reflexivity|]. apply J. lia.
    + destruct (Z.leb_spec (2 ^ 63) (Z.of_nat i + z)); [|lia]. now rewrite orb_true_r.
Qed.
End Custom.
