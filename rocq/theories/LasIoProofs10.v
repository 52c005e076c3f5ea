(* Points written and read back. *)
From Coq Require Import String List ZArith Lia Bool Arith SpecFloat ZifyBool ZifyNat ZifyN.
From Verif Require Import Base LayoutModel LayoutSpec LayoutProofs BufferModel BufferSpec ListLemmas BufferProofs BufferSteps BufferFacts TraitModel TraitSpec TraitProofs2
  NumModel NumSpec NumProofs NumProofs2 NumProofs3 ConvModel ConvSpec ConvProofs ConvProofs5 MathModel LasModel LasSpec LasProofs LasProofs2 LasIoModel LasIoSpec
  LasIoProofs LasIoProofs2 LasIoProofs3 LasIoProofs4 LasIoProofs5 LasIoProofs6 LasIoProofs7 LasIoProofs8 LasIoProofs9.
Import ListNotations.
Open Scope nat_scope.

(* ---------- the exact layout of a format ---------- *)
Lemma exact_raw n f es : format_new n = Ok f ->
  exists raw, point_layout_from_las_metadata f es true = Ok raw /\ map described (l_attrs raw) = las_record n /\ l_size raw = record_length n /\ good_layout raw
  /\ (forall s, In s packed_names -> ~ In s (map m_name (l_attrs raw))) /\ (is_extended f = true -> ~ In "LASBasicFlags"%string (map m_name (l_attrs raw)))
  /\ map m_def (l_attrs raw) = exact_attributes f.
Proof.
  intros F. destruct (exact_layout n f 0 F) as (raw & E & D & S & _). rewrite (with_extra_0 _ _ F) in E. exists raw.
  unfold point_layout_from_las_metadata. rewrite E. cbn [bind]. rewrite (format_extra _ _ F). cbn [Nat.eqb].
  pose proof (exact_members _ _ E) as M.
  assert (N : map m_name (l_attrs raw) = map ad_name (exact_attributes f)) by (rewrite <- M, map_map; reflexivity).
  split; [reflexivity|]. split; [exact D|]. split; [exact S|]. split; [|split; [|split; [|exact M]]].
  - unfold point_layout_from_las_point_format in E. destruct (format_to_u8 f); try discriminate. cbn [bind] in E. rewrite adds_history in E.
    apply (grown_good _ _ E); cbn [map].
    + destruct f; discriminate.
    + intros x fx I. apply in_map_iff in I. destruct I as (y & EQ & I). injection EQ as EQ1 _. subst y. clear - I F.
      assert (H : forallb (fun a => Nat.ltb 0 (dt_size (ad_type a))) (exact_attributes f) = true) by (each_format F; reflexivity).
      rewrite forallb_forall in H. apply H in I. now apply Nat.ltb_lt.
  - intros s I J. rewrite N in J. clear - I J F.
    assert (H : forallb (fun s => negb (existsb (String.eqb s) (map ad_name (exact_attributes f)))) packed_names = true) by (each_format F; reflexivity).
    rewrite forallb_forall in H. apply H in I. apply negb_true_iff, not_true_iff_false in I. apply I. apply existsb_exists. exists s. split; [exact J|apply String.eqb_refl].
  - intros X J. rewrite N in J. clear - X J F.
    assert (H : existsb (String.eqb "LASBasicFlags") (map ad_name (exact_attributes f)) = negb (is_extended f)) by (each_format F; reflexivity).
    rewrite X in H. cbn [negb] in H. apply not_true_iff_false in H. apply H. apply existsb_exists. eexists. split; [exact J|reflexivity].
Qed.

(* ---------- the file written ---------- *)
Lemma pieces_app sz n a b : length a = n * sz -> pieces sz n (a ++ b) = pieces sz n a.
Proof.
  intros L. apply nth_error_ext. intros k. rewrite !nth_error_pieces. destruct (Nat.ltb_spec k n); [|reflexivity]. f_equal.
  unfold sub. rewrite skipn_app, firstn_app, skipn_length. replace (sz - (length a - k * sz)) with 0 by nia. cbn [firstn]. apply app_nil_r.
Qed.
Lemma header_same laz n f entries t evlrs chunk ops w0 w : format_new n = Ok f -> 0 < chunk -> ops_wf ops -> open_writer laz f entries t evlrs = Ok w0 ->
  run_writer chunk w0 (ops ++ [Flush]) = Ok w -> h_format (w_file w) = f /\ h_tr (w_file w) = t /\ w_laz w = laz.
Proof.
  intros F C W O R. destruct (run_flush _ _ _ _ _ _ _ _ _ _ F C W O R) as (l0 & w1 & _ & _ & H & H2 & E & _).
  rewrite E. destruct (finalize_same (w_header w1)) as (E1 & _ & E3 & _). rewrite E1, E3. split; [exact (hi_format _ _ _ _ _ _ _ _ _ H)|]. split; [exact (hi_tr _ _ _ _ _ _ _ _ _ H)|].
  exact (hi_laz _ _ _ _ _ _ _ _ _ H2).
Qed.
Lemma file_holding laz n f entries t evlrs chunk ops w0 w data rest : format_new n = Ok f -> 0 < chunk -> ops_wf ops -> open_writer laz f entries t evlrs = Ok w0 ->
  run_writer chunk w0 (ops ++ [Flush]) = Ok w -> (laz = true -> n <> 9 /\ n <> 10) -> w_data w = data ++ rest -> holds_records n t (written ops) data ->
  exists raw, file_ok (writer_file w) raw /\ Forall2 (fun p r => record_of n t (fst p) (snd p) r) (written ops) (records (writer_file w))
  /\ map described (l_attrs raw) = las_record n /\ map m_def (l_attrs raw) = exact_attributes f.
Proof.
  intros F C W O R LZ ED HR. destruct (header_same _ _ _ _ _ _ _ _ _ _ F C W O R) as (HF & HT & HL).
  destruct (exact_raw n f (h_entries (w_file w)) F) as (raw & E & D & S & G & P & B & M). exists raw.
  pose proof (header_total _ _ _ _ _ _ _ _ _ _ F C W O R) as T. pose proof (holds_length _ _ _ _ HR) as LD.
  pose proof (proj2 (format_of_u8 n f 0 F)) as FL. pose proof (proj1 (format_of_u8 n f 0 F)) as FU. rewrite (with_extra_0 _ _ F) in FL, FU. rewrite Nat.add_0_r in FL.
  assert (RE : exists rs, data = concat rs /\ Forall2 (fun p r => record_of n t (fst p) (snd p) r) (written ops) rs) by exact HR.
  destruct RE as (rs & EC & FR). split; [|split; [|split; [exact D|exact M]]].
  - unfold file_ok. cbn [writer_file f_header f_data f_laz]. rewrite HF, HL. rewrite FU, E, FL, S, T. split; [reflexivity|]. split; [reflexivity|]. split; [reflexivity|].
    split; [exact G|]. split; [exact P|]. split; [exact B|]. split; [lia|]. split; [rewrite ED, app_length; lia|].
    intros Q X. destruct (LZ Q) as (N9 & N10). clear - F X N9 N10. each_format F; try discriminate; try reflexivity; congruence.
  - unfold records. cbn [writer_file f_header f_data]. rewrite HF, FL, T, ED, Nat2Z.id, pieces_app by exact LD. rewrite EC.
    assert (U : uniform (record_length n) rs /\ length rs = length (written ops)).
    { clear - FR. induction FR as [|p r pts rs R1 R2 [IH1 IH2]]; [split; [constructor|reflexivity]|]. split; [constructor; [exact (proj1 R1)|exact IH1]|simpl; lia]. }
    destruct U as [U LU]. rewrite <- LU, (pieces_concat _ _ U). exact FR.
Qed.
Lemma written_file laz n f entries t evlrs chunk ops w0 w l0 : format_new n = Ok f -> 0 < chunk -> ops_wf ops -> open_writer laz f entries t evlrs = Ok w0 ->
  las_type_layout n = Ok l0 -> run_writer chunk w0 (ops ++ [Flush]) = Ok w -> (laz = true -> ops_layout l0 ops /\ n <> 9 /\ n <> 10) ->
  exists raw, file_ok (writer_file w) raw /\ Forall2 (fun p r => record_of n t (fst p) (snd p) r) (written ops) (records (writer_file w))
  /\ map described (l_attrs raw) = las_record n /\ map m_def (l_attrs raw) = exact_attributes f.
Proof.
  intros F C W O L0 R LZ.
  assert (X : exists data rest, w_data w = data ++ rest /\ holds_records n t (written ops) data).
  { destruct laz.
    - destruct (LZ eq_refl) as (OL & _). exists (w_data w), []. rewrite app_nil_r. split; [reflexivity|].
      apply (laz_records n f entries t evlrs chunk ops w0 w l0 F C W O L0 R). now apply no_surplus_default.
    - destruct (las_records n f entries t evlrs chunk ops w0 w F C W O R) as (data & E1 & E2). eauto. }
  destruct X as (data & rest & ED & HR). apply (file_holding laz n f entries t evlrs chunk ops w0 w data rest F C W O R (fun Q => proj2 (LZ Q)) ED HR).
Qed.

(* ---------- the values ---------- *)
Lemma las_value_own l tm p : good_layout l -> In tm (l_attrs l) -> las_value l (m_def tm) p = Some (attr_value tm p).
Proof.
  intros G I. unfold las_value. change (ad_name (m_def tm)) with (m_name tm). rewrite (find_named l tm G I).
  unfold value_as. change (ad_type (m_def tm)) with (m_type tm). now rewrite datatype_eqb_refl.
Qed.
Lemma in_record raw n m : map described (l_attrs raw) = las_record n -> In m (l_attrs raw) -> In (m_name m, m_offset m, m_size m) (las_record n).
Proof. intros D I. rewrite <- D. change (m_name m, m_offset m, m_size m) with (described m). now apply in_map. Qed.
Lemma low_bits a b c d : let x := (a mod 8 + 8 * (b mod 8) + 64 * (c mod 2) + 128 * (d mod 2))%Z in
  ((x / 2 ^ 0) mod 2 ^ 3 = a mod 2 ^ 3 /\ (x / 2 ^ 3) mod 2 ^ 3 = b mod 2 ^ 3 /\ (x / 2 ^ 6) mod 2 ^ 1 = c mod 2 ^ 1 /\ (x / 2 ^ 7) mod 2 ^ 1 = d mod 2 ^ 1)%Z.
Proof. cbv zeta. change (2 ^ 0)%Z with 1%Z. change (2 ^ 3)%Z with 8%Z. change (2 ^ 6)%Z with 64%Z. change (2 ^ 7)%Z with 128%Z. change (2 ^ 1)%Z with 2%Z. repeat split; Z.div_mod_to_equations; lia. Qed.
Lemma high_bits a b c s d e : let x := (a mod 16 + 16 * (b mod 16) + 256 * (c mod 16 + 16 * (s mod 4) + 64 * (d mod 2) + 128 * (e mod 2)))%Z in
  ((x / 2 ^ 0) mod 2 ^ 4 = a mod 2 ^ 4 /\ (x / 2 ^ 4) mod 2 ^ 4 = b mod 2 ^ 4 /\ (x / 2 ^ 8) mod 2 ^ 4 = c mod 2 ^ 4 /\ (x / 2 ^ 12) mod 2 ^ 2 = s mod 2 ^ 2
   /\ (x / 2 ^ 14) mod 2 ^ 1 = d mod 2 ^ 1 /\ (x / 2 ^ 15) mod 2 ^ 1 = e mod 2 ^ 1)%Z.
Proof.
  cbv zeta. change (2 ^ 0)%Z with 1%Z. change (2 ^ 4)%Z with 16%Z. change (2 ^ 8)%Z with 256%Z. change (2 ^ 12)%Z with 4096%Z. change (2 ^ 14)%Z with 16384%Z.
  change (2 ^ 15)%Z with 32768%Z. change (2 ^ 1)%Z with 2%Z. change (2 ^ 2)%Z with 4%Z. repeat split; Z.div_mod_to_equations; lia.
Qed.

Lemma flag_u16_all : forallb (fun x => match value_as U16 U8 (le_enc 2 x) with Some [v] => Z.eqb v (x mod 256) | _ => false end) (zrange 16) = true.
Proof. vm_compute. reflexivity. Qed.
Lemma flag_u16_u8 x : (0 <= x < 16)%Z -> value_as U16 U8 (le_enc 2 x) = Some (le_enc 1 x).
Proof.
  intros H. pose proof (for_all_range _ _ flag_u16_all x H) as A. cbv beta in A. destruct (value_as U16 U8 (le_enc 2 x)) as [[|v [|]]|]; try discriminate.
  apply Z.eqb_eq in A. subst v. reflexivity.
Qed.
(* the attributes of the default layouts by name *)
Lemma default_named n f l0 tm : format_new n = Ok f -> las_type_layout n = Ok l0 -> In tm (l_attrs l0) ->
  las_attribute (m_name tm) = Some (m_def tm) /\ m_name tm <> "LASLocalPosition"%string /\ m_name tm <> "LASBasicFlags"%string /\ m_name tm <> "LASExtendedFlags"%string.
Proof.
  intros F L I.
  assert (H : match las_type_layout n with Ok l => forallb (fun tm => match las_attribute (m_name tm) with Some a => attr_def_eqb a (m_def tm) | None => false end
     && negb (existsb (String.eqb (m_name tm)) ["LASLocalPosition"; "LASBasicFlags"; "LASExtendedFlags"]%string)) (l_attrs l) | _ => true end = true).
  { clear - F. each_format F; vm_compute; reflexivity. }
  rewrite L, forallb_forall in H. apply H in I. apply andb_true_iff in I. destruct I as [A B]. destruct (las_attribute (m_name tm)) as [a|]; [|discriminate].
  apply attr_def_eqb_eq in A. subst a. split; [reflexivity|]. apply negb_true_iff, not_true_iff_false in B.
  repeat split; intros E; apply B; apply existsb_exists; exists (m_name tm); (split; [rewrite E; cbn [In]; auto|apply String.eqb_refl]).
Qed.
Lemma small_own l tm p : good_layout l -> In tm (l_attrs l) -> small l (m_def tm) p = Some (le_dec (attr_value tm p)).
Proof. intros G I. unfold small. now rewrite (las_value_own l tm p G I). Qed.
Lemma one_byte x : le_dec [x] = x.
Proof. change (le_dec [x]) with (x + 256 * 0)%Z. lia. Qed.
Lemma two_bytes x y : le_dec [x; y] = (x + 256 * y)%Z.
Proof. change (le_dec [x; y]) with (x + 256 * (y + 256 * 0))%Z. lia. Qed.

Lemma flags_basic l t tm p v : las_attribute (m_name tm) = Some (m_def tm) ->
  field_bytes l t "LASBasicFlags" p = Some v -> forall first bits, flag_bits false (m_name tm) = Some (first, bits) ->
  exists x, small l (m_def tm) p = Some x /\ ((le_dec v / 2 ^ first) mod 2 ^ bits = x mod 2 ^ bits)%Z.
Proof.
  intros A FB first bits E.
  change (field_bytes l t "LASBasicFlags" p) with
    (match small l RETURN_NUMBER p, small l NUMBER_OF_RETURNS p, small l SCAN_DIRECTION_FLAG p, small l EDGE_OF_FLIGHT_LINE p with
    | Some rn, Some nr, Some sd, Some eof => Some [rn mod 8 + 8 * (nr mod 8) + 64 * (sd mod 2) + 128 * (eof mod 2)]%Z
    | _, _, _, _ => None
    end) in FB.
  destruct (small l RETURN_NUMBER p) as [rn|] eqn:S1; [|discriminate]. destruct (small l NUMBER_OF_RETURNS p) as [nr|] eqn:S2; [|discriminate].
  destruct (small l SCAN_DIRECTION_FLAG p) as [sd|] eqn:S3; [|discriminate]. destruct (small l EDGE_OF_FLIGHT_LINE p) as [eof|] eqn:S4; [|discriminate].
  injection FB as <-. rewrite one_byte. pose proof (low_bits rn nr sd eof) as (B1 & B2 & B3 & B4).
  unfold flag_bits in E. cbn [find fst] in E.
  destruct (String.eqb_spec "ReturnNumber" (m_name tm)) as [N|_]; [injection E as <- <-; rewrite <- N in A; injection A as <-; rewrite S1; eexists; split; [reflexivity|exact B1]|].
  destruct (String.eqb_spec "NumberOfReturns" (m_name tm)) as [N|_]; [injection E as <- <-; rewrite <- N in A; injection A as <-; rewrite S2; eexists; split; [reflexivity|exact B2]|].
  destruct (String.eqb_spec "ScanDirectionFlag" (m_name tm)) as [N|_]; [injection E as <- <-; rewrite <- N in A; injection A as <-; rewrite S3; eexists; split; [reflexivity|exact B3]|].
  destruct (String.eqb_spec "EdgeOfFlightLine" (m_name tm)) as [N|_]; [injection E as <- <-; rewrite <- N in A; injection A as <-; rewrite S4; eexists; split; [reflexivity|exact B4]|].
  discriminate.
Qed.
Lemma flags_extended l t tm p v : las_attribute (m_name tm) = Some (m_def tm) ->
  field_bytes l t "LASExtendedFlags" p = Some v -> forall first bits, flag_bits true (m_name tm) = Some (first, bits) ->
  exists x, small l (m_def tm) p = Some x /\ ((le_dec v / 2 ^ first) mod 2 ^ bits = x mod 2 ^ bits /\ 0 <= bits <= 4)%Z.
Proof.
  intros A FB first bits E.
  change (field_bytes l t "LASExtendedFlags" p) with
    (match small l RETURN_NUMBER p, small l NUMBER_OF_RETURNS p, small l CLASSIFICATION_FLAGS p, small l SCANNER_CHANNEL p,
          small l SCAN_DIRECTION_FLAG p, small l EDGE_OF_FLIGHT_LINE p with
    | Some rn, Some nr, Some cf, Some sc, Some sd, Some eof =>
        Some [rn mod 16 + 16 * (nr mod 16); cf mod 16 + 16 * (sc mod 4) + 64 * (sd mod 2) + 128 * (eof mod 2)]%Z
    | _, _, _, _, _, _ => None
    end) in FB.
  destruct (small l RETURN_NUMBER p) as [rn|] eqn:S1; [|discriminate]. destruct (small l NUMBER_OF_RETURNS p) as [nr|] eqn:S2; [|discriminate].
  destruct (small l CLASSIFICATION_FLAGS p) as [cf|] eqn:S5; [|discriminate]. destruct (small l SCANNER_CHANNEL p) as [sc|] eqn:S6; [|discriminate].
  destruct (small l SCAN_DIRECTION_FLAG p) as [sd|] eqn:S3; [|discriminate]. destruct (small l EDGE_OF_FLIGHT_LINE p) as [eof|] eqn:S4; [|discriminate].
  injection FB as <-. rewrite two_bytes. pose proof (high_bits rn nr cf sc sd eof) as (B1 & B2 & B3 & B4 & B5 & B6).
  unfold flag_bits in E. cbn [find fst] in E.
  destruct (String.eqb_spec "ReturnNumber" (m_name tm)) as [N|_]; [injection E as <- <-; rewrite <- N in A; injection A as <-; rewrite S1; eexists; split; [reflexivity|split; [exact B1|lia]]|].
  destruct (String.eqb_spec "NumberOfReturns" (m_name tm)) as [N|_]; [injection E as <- <-; rewrite <- N in A; injection A as <-; rewrite S2; eexists; split; [reflexivity|split; [exact B2|lia]]|].
  destruct (String.eqb_spec "ClassificationFlags" (m_name tm)) as [N|_]; [injection E as <- <-; rewrite <- N in A; injection A as <-; rewrite S5; eexists; split; [reflexivity|split; [exact B3|lia]]|].
  destruct (String.eqb_spec "ScannerChannel" (m_name tm)) as [N|_]; [injection E as <- <-; rewrite <- N in A; injection A as <-; rewrite S6; eexists; split; [reflexivity|split; [exact B4|lia]]|].
  destruct (String.eqb_spec "ScanDirectionFlag" (m_name tm)) as [N|_]; [injection E as <- <-; rewrite <- N in A; injection A as <-; rewrite S3; eexists; split; [reflexivity|split; [exact B5|lia]]|].
  destruct (String.eqb_spec "EdgeOfFlightLine" (m_name tm)) as [N|_]; [injection E as <- <-; rewrite <- N in A; injection A as <-; rewrite S4; eexists; split; [reflexivity|split; [exact B6|lia]]|].
  discriminate.
Qed.

Lemma small_value l a p x : small l a p = Some x -> forall B (g : Z -> B), option_map (fun v => g (le_dec v)) (las_value l a p) = Some (g x).
Proof. unfold small. destruct (las_value l a p); [|discriminate]. intros [= <-] B g. reflexivity. Qed.
Lemma value_back_from n f t l l0 raw p rec tm old : format_new n = Ok f -> las_type_layout n = Ok l0 -> raw_ok (is_extended f) raw ->
  map described (l_attrs raw) = las_record n -> map m_def (l_attrs raw) = exact_attributes f -> record_of n t l p rec -> In tm (l_attrs l0) ->
  read_value (is_extended f) raw t tm rec old = came_back (is_extended f) t l tm p.
Proof.
  intros F L (G & (pm & PI & PD) & (fm & FI & FD) & PN & _) D M (_ & REC) I.
  destruct (default_named n f l0 tm F L I) as (LA & N1 & N2 & N3).
  assert (C : In (m_def tm) (exact_attributes f) \/ m_def tm = POSITION_3D \/ (flag_bits (is_extended f) (ad_name (m_def tm)) <> None /\ ad_type (m_def tm) = U8)).
  { destruct (default_layout n f 0 F) as (l1 & DL & E & _). rewrite (with_extra_0 _ _ F) in DL. assert (l1 = l0) by congruence. subst l1.
    apply (default_members f l0 DL). now apply in_map. }
  unfold read_value, came_back. destruct C as [C|[C|[C T]]].
  - rewrite <- M in C. apply in_map_iff in C. destruct C as (m & MD & MI). assert (NM : m_name m = m_name tm) by (unfold m_name; now rewrite MD).
    assert (NP : forall s, In s packed_names -> m_name tm <> s) by (intros s IS E; apply (PN s IS); rewrite <- E, <- NM; now apply in_map).
    rewrite (proj2 (String.eqb_neq _ _) (NP "Position3D"%string ltac:(cbn; auto))).
    replace (flag_bits (is_extended f) (m_name tm)) with (@None (Z * Z)).
    2: { unfold flag_bits. symmetry. destruct (is_extended f); cbn [find fst]; rewrite !(fun s I => proj2 (String.eqb_neq s (m_name tm)) (not_eq_sym (NP s I))) by (cbn; auto 10); reflexivity. }
    rewrite <- NM, (find_named raw m G MI). cbn [option_map]. unfold value_as. change (m_type m) with (ad_type (m_def m)). rewrite MD. change (ad_type (m_def tm)) with (m_type tm).
    rewrite datatype_eqb_refl. pose proof (REC _ _ _ (in_record raw n m D MI)) as E. unfold field_bytes in E.
    rewrite NM, (proj2 (String.eqb_neq _ _) N1), (proj2 (String.eqb_neq _ _) N2), (proj2 (String.eqb_neq _ _) N3), LA in E.
    rewrite E. reflexivity.
  - assert (NM : m_name tm = "Position3D"%string) by (unfold m_name; now rewrite C). rewrite NM.
    change (String.eqb "Position3D" "Position3D") with true. cbv iota.
    assert (PNM : "LASLocalPosition"%string = m_name pm) by (unfold m_name; now rewrite PD).
    rewrite PNM, (find_named raw pm G PI). cbn [option_map]. replace (m_type tm) with Vec3f64 by (unfold m_type; now rewrite C).
    pose proof (REC _ _ _ (in_record raw n pm D PI)) as E. rewrite <- PNM in E.
    change (field_bytes l t "LASLocalPosition" p) with (match las_value l POSITION_3D p with Some v => grid_position t (vec3_f64 v) | None => None end) in E.
    rewrite C. destruct (las_value l POSITION_3D p); [|discriminate]. cbn [option_map]. rewrite E. reflexivity.
  - change (ad_name (m_def tm)) with (m_name tm) in C. destruct (flag_bits (is_extended f) (m_name tm)) as [[first bits]|] eqn:FB; [|congruence].
    assert (NP : m_name tm <> "Position3D"%string) by (intros E; rewrite E in FB; destruct (is_extended f); discriminate).
    rewrite (proj2 (String.eqb_neq _ _) NP). change (ad_type (m_def tm)) with (m_type tm) in T. rewrite T.
    pose proof (REC _ _ _ (in_record raw n fm D FI)) as E.
    destruct (is_extended f).
    + assert (FN : "LASExtendedFlags"%string = m_name fm) by (unfold m_name; now rewrite FD). rewrite FN, (find_named raw fm G FI). cbn [option_map].
      replace (m_type fm) with U16 by (unfold m_type; now rewrite FD). rewrite <- FN in E. destruct (flags_extended l t tm p _ LA E first bits FB) as (x & SM & V & B).
      change (sub rec (m_offset fm) (m_size fm)) with (attr_value fm rec) in V. rewrite V. refine (eq_trans _ (eq_sym (small_value _ _ _ _ SM _ (fun z => le_enc 1 (z mod 2 ^ bits)%Z)))). cbv beta. change (dt_size U16) with 2. apply flag_u16_u8.
      pose proof (Z.mod_pos_bound x (2 ^ bits) ltac:(lia)). pose proof (Z.pow_le_mono_r 2 bits 4 ltac:(lia) ltac:(lia)). lia.
    + assert (FN : "LASBasicFlags"%string = m_name fm) by (unfold m_name; now rewrite FD). rewrite FN, (find_named raw fm G FI). cbn [option_map].
      replace (m_type fm) with U8 by (unfold m_type; now rewrite FD). rewrite <- FN in E. destruct (flags_basic l t tm p _ LA E first bits FB) as (x & SM & V).
      change (sub rec (m_offset fm) (m_size fm)) with (attr_value fm rec) in V. rewrite V. refine (eq_trans _ (eq_sym (small_value _ _ _ _ SM _ (fun z => le_enc 1 (z mod 2 ^ bits)%Z)))). reflexivity.
Qed.

Lemma came_back_own e t l tm p : good_layout l -> In tm (l_attrs l) -> came_back e t l tm p = returned e t tm p.
Proof.
  intros G I. unfold came_back, returned. rewrite (las_value_own l tm p G I). destruct (String.eqb _ _); [reflexivity|]. destruct (flag_bits _ _) as [[? ?]|]; reflexivity.
Qed.
Lemma value_back n f t l0 raw p rec tm old : format_new n = Ok f -> las_type_layout n = Ok l0 -> good_layout l0 -> raw_ok (is_extended f) raw ->
  map described (l_attrs raw) = las_record n -> map m_def (l_attrs raw) = exact_attributes f -> record_of n t l0 p rec -> In tm (l_attrs l0) ->
  read_value (is_extended f) raw t tm rec old = returned (is_extended f) t tm p.
Proof. intros F L G R D M RO I. rewrite <- (came_back_own _ _ l0 _ _ G I). exact (value_back_from n f t l0 l0 raw p rec tm old F L R D M RO I). Qed.

(* ---------- histories ---------- *)
Lemma default_of n f es l0 : format_new n = Ok f -> las_type_layout n = Ok l0 -> point_layout_from_las_metadata f es false = Ok l0.
Proof.
  intros F L. destruct (default_layout n f 0 F) as (l & DL & E & _). rewrite (with_extra_0 _ _ F) in DL. assert (l = l0) by congruence. subst l.
  unfold point_layout_from_las_metadata. rewrite DL. cbn [bind]. rewrite (format_extra _ _ F). reflexivity.
Qed.
Lemma extended_format n f : format_new n = Ok f -> is_extended f = Nat.ltb 5 n.
Proof. intros F. each_format F; reflexivity. Qed.
Lemma ops_layout_written l ops p : ops_layout l ops -> In p (written ops) -> fst p = l.
Proof.
  intros O I. unfold written in I. apply in_flat_map in I. destruct I as (o & IO & I). unfold ops_layout in O. rewrite Forall_forall in O. apply O in IO.
  destruct o as [b|]; [|contradiction]. apply in_map_iff in I. destruct I as (q & <- & _). exact IO.
Qed.
Lemma has_position n f l0 : format_new n = Ok f -> las_type_layout n = Ok l0 -> In "Position3D"%string (map m_name (l_attrs l0)).
Proof.
  intros F L. assert (H : match las_type_layout n with Ok l => existsb (String.eqb "Position3D") (map m_name (l_attrs l)) | _ => true end = true) by (clear - F; each_format F; vm_compute; reflexivity).
  rewrite L in H. apply existsb_exists in H. destruct H as (x & I & E). apply String.eqb_eq in E. now subst.
Qed.
Lemma Forall2_nth {A B} (P : A -> B -> Prop) l l' : Forall2 P l l' -> length l = length l' /\ forall k a, nth_error l k = Some a -> exists b, nth_error l' k = Some b /\ P a b.
Proof.
  induction 1 as [|a b l l' H H2 [IH1 IH2]]; [split; [reflexivity|intros [|k] a; discriminate]|]. split; [simpl; lia|].
  intros [|k] x E; cbn in E |- *; [injection E as <-; eauto|auto].
Qed.

Section RoundTrip.
Variables (n : nat) (f : format) (t : transforms) (l0 raw : layout) (file : las_file) (points : list (list Z)).
Hypothesis F : format_new n = Ok f.
Hypothesis L : las_type_layout n = Ok l0.
Hypothesis FO : file_ok file raw.
Hypothesis HF : h_format (f_header file) = f.
Hypothesis HT : h_tr (f_header file) = t.
Hypothesis D : map described (l_attrs raw) = las_record n.
Hypothesis M : map m_def (l_attrs raw) = exact_attributes f.
Hypothesis REC : Forall2 (fun p r => record_of n t l0 p r) points (records file).

Lemma l0_good : good_layout l0 /\ readable (is_extended f) raw l0.
Proof. rewrite <- HF. apply (default_readable file raw l0 FO). rewrite HF. apply (default_of n f _ l0 F L). Qed.
Lemma l0_not_raw : layout_eqb l0 raw = false.
Proof.
  apply not_true_iff_false. intros E. apply layout_eqb_eq in E. pose proof FO as (_ & _ & _ & _ & PN & _). apply (PN "Position3D"%string); [cbn; auto|].
  rewrite <- E. exact (has_position n f l0 F L).
Qed.
Lemma calls_from_reads rops : forall i, reads_ok l0 (length points) i rops -> calls_ok file raw i rops.
Proof.
  destruct (Forall2_nth _ _ _ REC) as [LEN _]. induction rops as [|[s|b count] rops IH]; intros i R; [exact I| |]; cbn [reads_ok calls_ok] in *.
  - rewrite <- LEN. destruct (seek_target (length points) i s); [auto|contradiction].
  - destruct R as (W & E & C & R). rewrite <- LEN. split; [exact W|]. split; [exact C|]. split; [|apply IH; exact R]. right. rewrite E, HF. apply l0_good.
Qed.
Lemma reads_from_cursor rops : forall i es last, reads_ok l0 (length points) i rops -> cursor_run file raw i rops es last ->
  reads_back (is_extended f) t l0 points i rops es.
Proof.
  destruct (Forall2_nth _ _ _ REC) as [LEN NTH]. induction rops as [|[s|b count] rops IH]; intros i es last R C; destruct es as [|[j|b' m] es]; cbn [cursor_run reads_back reads_ok] in *; try contradiction; auto.
  - rewrite <- LEN in C. destruct C as [ST C]. rewrite ST in R. split; [exact ST|]. exact (IH _ _ _ R C).
  - rewrite <- LEN in C. destruct C as (ME & FI & C). destruct R as (W & E & CO & R). split; [exact ME|]. rewrite <- ME in R. split; [|exact (IH _ _ _ R C)].
    intros k p tm NP IT. destruct FI as (_ & _ & _ & _ & _ & VAL & _).
    assert (KM : k < m) by (apply ListLemmas.nth_error_lt in NP; rewrite firstn_length in NP; lia).
    assert (NP' : nth_error points (i + k) = Some p) by (rewrite nth_error_firstn, (proj2 (Nat.ltb_lt _ _) KM), nth_error_skipn in NP; exact NP).
    destruct (NTH _ _ NP') as (rec & NR & RO).
    assert (NR' : nth_error (firstn m (skipn i (records file))) k = Some rec) by (rewrite nth_error_firstn, (proj2 (Nat.ltb_lt _ _) KM), nth_error_skipn; exact NR).
    destruct (wf_uniform b W) as [_ LP]. assert (KB : k < length (mb_points b)) by lia. destruct (nth_error (mb_points b) k) as [q|] eqn:NQ; [|apply nth_error_None in NQ; lia].
    destruct (VAL k rec q NR' NQ) as (p' & NP'' & V). rewrite E, l0_not_raw in V. destruct V as [V _]. exists p'. split; [exact NP''|].
    rewrite <- (V tm IT), HF, HT. symmetry. pose proof (file_raw file raw FO) as RO'. rewrite HF in RO'.
    apply (value_back n f t l0 raw p rec tm _ F L (proj1 l0_good) RO' D M RO IT).
Qed.
End RoundTrip.

Lemma round_trip laz n f entries t evlrs chunk ops w0 w l0 exact chunk' rops : format_new n = Ok f -> 0 < chunk -> ops_wf ops -> open_writer laz f entries t evlrs = Ok w0 ->
  las_type_layout n = Ok l0 -> ops_layout l0 ops -> run_writer chunk w0 (ops ++ [Flush]) = Ok w -> (laz = true -> n <> 9 /\ n <> 10) ->
  record_length n <= chunk' -> (Z.of_nat (length (written ops)) < 2 ^ 63)%Z -> reads_ok l0 (length (written ops)) 0 rops ->
  exists r r' es, open_reader (writer_file w) exact = Ok r /\ run_reader chunk' r rops = Ok (r', es)
  /\ reads_back (Nat.ltb 5 n) t l0 (map snd (written ops)) 0 rops es.
Proof.
  intros F C W O L OL R LZ CH B RD. destruct (written_file laz n f entries t evlrs chunk ops w0 w l0 F C W O L R) as (raw & FO & FR & D & M); [intros E; split; [exact OL|auto]|].
  destruct (header_same _ _ _ _ _ _ _ _ _ _ F C W O R) as (HF & HT & _).
  assert (REC : Forall2 (fun p r => record_of n t l0 p r) (map snd (written ops)) (records (writer_file w))).
  { assert (A : forall p, In p (written ops) -> fst p = l0) by (intros p; apply ops_layout_written; exact OL). clear - FR A. revert A.
    induction FR as [|p r pts rs R1 R2 IH]; intros A; [constructor|]. cbn [map]. constructor; [rewrite <- (A p (or_introl eq_refl)); exact R1|apply IH; intros; apply A; now right]. }
  assert (OR : exists r, open_reader (writer_file w) exact = Ok r).
  { destruct exact; [apply (open_reader_total _ raw FO)|]. destruct (open_reader_total _ raw FO) as (r & OR). unfold open_reader in *.
    destruct (_ && _); [discriminate|]. cbn [writer_file f_header] in *. rewrite HF in *. rewrite (default_of n f _ l0 F L). cbn [bind].
    destruct (point_layout_from_las_metadata f _ true); try discriminate. cbn [bind]. eexists. reflexivity. }
  destruct OR as (r & OR). pose proof (open_reader_ok _ _ _ _ FO OR) as RA.
  pose proof (Forall2_nth _ _ _ REC) as [LEN _].
  assert (RD' : reads_ok l0 (length (map snd (written ops))) 0 rops) by (rewrite map_length; exact RD).
  assert (LS : l_size raw <= chunk').
  { pose proof FO as (_ & _ & LS & _). rewrite LS. cbn [writer_file f_header]. rewrite HF. pose proof (proj2 (format_of_u8 n f 0 F)) as FL. rewrite (with_extra_0 _ _ F) in FL. lia. }
  assert (BR : (Z.of_nat (length (records (writer_file w))) < 2 ^ 63)%Z) by (rewrite <- LEN, map_length; exact B).
  pose proof (calls_from_reads n f t l0 raw (writer_file w) (map snd (written ops)) F L FO HF REC rops 0 RD') as CO.
  destruct (run_cursor (writer_file w) raw chunk' rops FO LS BR r 0 RA CO) as (r' & es & last & RR & CR & _).
  exists r, r', es. split; [exact OR|]. split; [exact RR|]. rewrite <- (extended_format n f F).
  exact (reads_from_cursor n f t l0 raw (writer_file w) (map snd (written ops)) F L FO HF HT D M REC rops 0 es last RD' CR).
Qed.
