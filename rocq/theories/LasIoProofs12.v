(* write_all, and read_all of the file it writes. *)
From Coq Require Import String List ZArith Lia Bool Arith SpecFloat ZifyBool ZifyNat ZifyN.
From Verif Require Import Base LayoutModel LayoutSpec LayoutProofs BufferModel BufferSpec ListLemmas BufferProofs BufferSteps BufferSteps3 BufferFacts TraitModel TraitSpec TraitProofs2
  NumModel NumSpec NumProofs NumProofs2 NumProofs3 ConvModel ConvSpec ConvProofs ConvProofs5 MathModel MathSpec LasModel LasSpec LasProofs LasProofs2 LasIoModel LasIoSpec
  LasIoProofs LasIoProofs2 LasIoProofs3 LasIoProofs4 LasIoProofs5 LasIoProofs6 LasIoProofs7 LasIoProofs8 LasIoProofs9 LasIoProofs10 LasIoProofs11.
Import ListNotations.
Open Scope nat_scope.

(* the format chosen for a layout, if there is one *)
Lemma chosen_format l n : format_to_u8 (las_point_format_from_point_layout l) = Ok n -> format_new n = Ok (las_point_format_from_point_layout l).
Proof.
  unfold las_point_format_from_point_layout. set (a := has_attribute_with_name l (ad_name GPS_TIME)). set (b := has_attribute_with_name l (ad_name COLOR_RGB)).
  set (d := (_ || _ || _ || _ || _)). set (e := has_attribute_with_name l (ad_name NIR)).
  set (c := (e || _ || _ || _)). assert (EC : e = true -> c = true) by (unfold c; intros ->; reflexivity). clearbody a b d e c.
  unfold format_to_u8. cbn [is_extended has_gps_time has_color has_nir has_waveform].
  destruct e; [rewrite EC by reflexivity|]; [|destruct c]; destruct a, b, d; intros [= <-]; reflexivity.
Qed.
Lemma record_representable n t l p r : record_of n t l p r -> representable n t l p.
Proof. intros (_ & H) field o s I E. rewrite (H _ _ _ I) in E. discriminate. Qed.

Lemma one_write laz chunk b n w0 : 0 < chunk -> bf_wf b -> format_new n = Ok (las_point_format_from_point_layout (bf_layout b)) ->
  open_writer laz (las_point_format_from_point_layout (bf_layout b)) None default_transforms [] = Ok w0 ->
  match las_write chunk w0 b with
  | Ok w => (forall p, In p (bf_points b) -> representable n default_transforms (bf_layout b) p)
            /\ exists rest data, w_data (las_flush w) = data ++ rest /\ (laz = false -> rest = [])
               /\ holds_records n default_transforms (written [Write b]) data
  | Err => False
  | Panic => exists p, In p (bf_points b) /\ ~ representable n default_transforms (bf_layout b) p
  end.
Proof.
  intros C W F O. destruct (default_exists n _ F) as (l0 & L0). pose proof (open_writer_ok laz n _ None default_transforms [] l0 chunk w0 F L0 O) as H.
  assert (MO : mode_ok n (negb (layout_eqb (bf_layout b) (w_default_layout w0))) (bf_layout b)).
  { unfold mode_ok. rewrite (hi_layout _ _ _ _ _ _ _ _ _ H). intros E. apply negb_false_iff in E. apply layout_eqb_eq in E. congruence. }
  pose proof (write_points_ok n _ default_transforms _ chunk w0 b F C W MO (hi_format _ _ _ _ _ _ _ _ _ H) (hi_tr _ _ _ _ _ _ _ _ _ H)) as WP. cbv zeta in WP.
  pose proof (write_history laz n _ default_transforms [] l0 chunk [] w0 b F L0 C W H) as WH.
  unfold las_write in *. destruct (write_points chunk _ w0 b) as [w| |]; [|contradiction|apply Exists_exists in WP; exact WP].
  destruct WP as (rs & junk & R & LJ & CASES). split.
  { intros p I. destruct (In_nth_error _ _ I) as (k & E). destruct (proj2 (Forall2_nth _ _ _ R) k p E) as (r & _ & RO). exact (record_representable _ _ _ _ _ RO). }
  destruct (flush_history laz n _ default_transforms [] l0 chunk _ w F WH) as (_ & _ & _ & D & _).
  assert (HR : holds_records n default_transforms (written [Write b]) (concat rs)).
  { exists rs. split; [reflexivity|]. rewrite written_write. clear - R. induction R; constructor; auto. }
  assert (Z0 : w_position w0 = 0) by (rewrite (hi_position _ _ _ _ _ _ _ _ _ H); reflexivity).
  rewrite D. replace (if laz then [] else []) with (@nil Z) by (destruct laz; reflexivity). rewrite app_nil_r.
  pose proof (hi_rest _ _ _ _ _ _ _ _ _ H) as HR0. assert (DN : w_data w0 = []) by (apply length_zero_iff_nil; destruct laz; cbn in HR0; lia).
  destruct CASES as [(PN & -> & JN)|(PN & ->)].
  - exists [], []. rewrite DN, firstn_nil. split; [reflexivity|]. split; [reflexivity|]. rewrite PN in R. inversion R; subst. exact HR.
  - cbn [w_data w_position]. exists junk, (concat rs). rewrite DN, Z0. split; [|split; [|exact HR]].
    + rewrite put_end by (cbn; lia). reflexivity.
    + intros ->. apply length_zero_iff_nil. rewrite LJ, (hi_laz _ _ _ _ _ _ _ _ _ H). reflexivity.
Qed.

Lemma default_scale_not_zero : is_zero (px (t_scale default_transforms)) || is_zero (py (t_scale default_transforms)) || is_zero (pz (t_scale default_transforms)) = false.
Proof. reflexivity. Qed.

(* what write_all does *)
Lemma write_all_ok chunk laz b : 0 < chunk -> bf_wf b ->
  match format_to_u8 (las_point_format_from_point_layout (bf_layout b)) with
  | Ok n => match write_all chunk laz b with
            | Ok f => (forall p, In p (bf_points b) -> representable n default_transforms (bf_layout b) p)
                      /\ f_laz f = laz /\ h_format (f_header f) = las_point_format_from_point_layout (bf_layout b) /\ h_tr (f_header f) = default_transforms
                      /\ h_total (f_header f) = Z.of_nat (bf_len b)
                      /\ exists rest data, f_data f = data ++ rest /\ (laz = false -> rest = [])
                         /\ holds_records n default_transforms (map (pair (bf_layout b)) (bf_points b)) data
            | Err => False
            | Panic => exists p, In p (bf_points b) /\ ~ representable n default_transforms (bf_layout b) p
            end
  | _ => write_all chunk laz b = Err
  end.
Proof.
  intros C W. unfold write_all, open_writer_for_layout. destruct (format_to_u8 (las_point_format_from_point_layout (bf_layout b))) as [n| |] eqn:E; [|reflexivity|].
  2: { exfalso. clear - E. unfold format_to_u8 in E. repeat match type of E with (if ?c then _ else _) = _ => destruct c end; discriminate. }
  cbn [bind]. pose proof (chosen_format _ _ E) as F. destruct (open_plain laz n _ default_transforms [] None F default_scale_not_zero) as (w0 & O). rewrite O. cbn [bind].
  pose proof (one_write laz chunk b n w0 C W F O) as OW. destruct (las_write chunk w0 b) as [w| |] eqn:LW; [|exact OW|exact OW]. cbn [bind].
  destruct OW as (REP & rest & data & D & RN & HR). split; [exact REP|].
  assert (R : run_writer chunk w0 ([Write b] ++ [Flush]) = Ok (las_flush w)) by (unfold run_writer; cbn [app foldM write_step]; rewrite LW; reflexivity).
  assert (OWF : ops_wf [Write b]) by (repeat constructor; exact W).
  destruct (header_same _ _ _ _ _ _ _ _ _ _ F C OWF O R) as (HF & HT & HL).
  pose proof (header_total _ _ _ _ _ _ _ _ _ _ F C OWF O R) as T. rewrite written_write, map_length, (proj2 (bf_points_uniform b W)) in T.
  cbn [writer_file f_laz f_header f_data]. split; [exact HL|]. split; [exact HF|]. split; [exact HT|]. split; [exact T|].
  exists rest, data. split; [exact D|]. split; [exact RN|]. rewrite <- written_write. exact HR.
Qed.

(* and what read_all makes of its file *)
Lemma write_read chunk chunk' laz k b n l0 : 0 < chunk -> bf_wf b -> format_to_u8 (las_point_format_from_point_layout (bf_layout b)) = Ok n -> las_type_layout n = Ok l0 ->
  (laz = true -> n <> 9 /\ n <> 10) -> record_length n <= chunk' -> (forall p, In p (bf_points b) -> representable n default_transforms (bf_layout b) p) ->
  exists f b', write_all chunk laz b = Ok f /\ read_all chunk' k f = Ok b' /\ mb_wf b' /\ mb_layout b' = l0 /\ mb_len b' = bf_len b
  /\ forall i p tm, nth_error (bf_points b) i = Some p -> In tm (l_attrs l0) ->
     exists p', nth_error (mb_points b') i = Some p' /\ came_back (Nat.ltb 5 n) default_transforms (bf_layout b) tm p = Some (attr_value tm p').
Proof.
  intros C W E L LZ CH REP. pose proof (chosen_format _ _ E) as F. unfold write_all, open_writer_for_layout. rewrite E. cbn [bind].
  destruct (open_plain laz n _ default_transforms [] None F default_scale_not_zero) as (w0 & O). rewrite O. cbn [bind].
  pose proof (one_write laz chunk b n w0 C W F O) as OW. destruct (las_write chunk w0 b) as [w| |] eqn:LW; [|contradiction|].
  2: { exfalso. destruct OW as (p & I & N). exact (N (REP p I)). }
  cbn [bind]. destruct OW as (_ & rest & data & D & _ & HR).
  assert (R : run_writer chunk w0 ([Write b] ++ [Flush]) = Ok (las_flush w)) by (unfold run_writer; cbn [app foldM write_step]; rewrite LW; reflexivity).
  assert (OWF : ops_wf [Write b]) by (repeat constructor; exact W).
  destruct (header_same _ _ _ _ _ _ _ _ _ _ F C OWF O R) as (HF & HT & HL).
  destruct (file_holding laz n _ None default_transforms [] chunk [Write b] w0 (las_flush w) data rest F C OWF O R LZ D HR) as (raw & FO & RE & DR & M).
  set (file := writer_file (las_flush w)) in *.
  assert (HF' : h_format (f_header file) = las_point_format_from_point_layout (bf_layout b)) by exact HF.
  assert (EL : point_layout_from_las_metadata (h_format (f_header file)) (h_entries (f_header file)) false = Ok l0) by (rewrite HF'; exact (default_of n _ _ l0 F L)).
  assert (LS : l_size raw <= chunk').
  { pose proof FO as (_ & _ & LS & _). rewrite LS, HF'. pose proof (proj2 (format_of_u8 n _ 0 F)) as FL. rewrite (with_extra_0 _ _ F) in FL. lia. }
  destruct (read_all_ok file raw l0 chunk' k FO LS EL) as (b' & RA & WB & LB & NB & VAL). exists file, b'. split; [reflexivity|]. split; [exact RA|]. split; [exact WB|]. split; [exact LB|].
  destruct (Forall2_nth _ _ _ RE) as [LEN NTH]. rewrite written_write in LEN, NTH. rewrite map_length in LEN.
  split; [rewrite NB, <- LEN; exact (proj2 (bf_points_uniform b W))|].
  intros i p tm NP IT. destruct (NTH i (bf_layout b, p)) as (rec & NR & RO); [rewrite nth_error_map, NP; reflexivity|]. cbn [fst snd] in RO.
  destruct (VAL i rec NR) as (p' & NP' & V). exists p'. split; [exact NP'|]. specialize (V tm IT). rewrite (l0_not_raw n _ l0 raw file F L FO) in V.
  rewrite HF' in V. replace (h_tr (f_header file)) with default_transforms in V by (symmetry; exact HT).
  pose proof (file_raw file raw FO) as RO'. rewrite HF' in RO'.
  rewrite (value_back_from n _ default_transforms (bf_layout b) l0 raw p rec tm _ F L RO' DR M RO IT) in V. rewrite <- (extended_format n _ F). exact V.
Qed.

(* ---------- attributes with the datatype LAS has ---------- *)
Lemma las_value_member l m a p : good_layout l -> In m (l_attrs l) -> m_def m = a -> las_value l a p = Some (attr_value m p).
Proof. intros G I <-. exact (las_value_own l m p G I). Qed.
Lemma flag_small extended s first bits : flag_bits extended s = Some (first, bits) -> (0 < bits <= 4)%Z.
Proof.
  unfold flag_bits. destruct extended; cbn [find fst]; repeat match goal with |- context [String.eqb ?a s] => destruct (String.eqb a s) end; cbn [option_map snd]; intros [= <- <-]; lia.
Qed.
Lemma same_value e t l tm m p : good_layout l -> In m (l_attrs l) -> m_def m = m_def tm -> length p = l_size l -> is_bytes p ->
  m_name m <> "Position3D"%string -> (flag_bits e (m_name m) <> None -> m_size m = 1) -> flag_fits e (m_name m) (attr_value m p) ->
  came_back e t l tm p = Some (attr_value m p).
Proof.
  intros G I D LP B NP S1 FI. assert (N : m_name tm = m_name m) by (unfold m_name; now rewrite D). unfold came_back, flag_fits in *. rewrite N, (proj2 (String.eqb_neq _ _) NP), (las_value_member l m _ p G I D).
  destruct (flag_bits e (m_name m)) as [[first bits]|] eqn:FB; [|reflexivity]. cbn [option_map]. f_equal. rewrite Z.mod_small by exact FI.
  specialize (S1 ltac:(discriminate)). assert (LV : length (attr_value m p) = 1) by (rewrite <- S1; eapply length_attr_value; eauto).
  destruct (attr_value m p) as [|x [|y v]] eqn:E; try discriminate. rewrite one_byte in *. cbn [le_enc]. f_equal. apply Z.mod_small.
  pose proof (flag_small _ _ _ _ FB) as SB. pose proof (Z.pow_le_mono_r 2 bits 4 ltac:(lia) ltac:(lia)). lia.
Qed.
Lemma default_flag_size n f l0 tm e : format_new n = Ok f -> las_type_layout n = Ok l0 -> In tm (l_attrs l0) -> flag_bits e (m_name tm) <> None -> dt_size (m_type tm) = 1.
Proof.
  intros F L I.
  assert (H : match las_type_layout n with Ok l => forallb (fun tm => match flag_bits true (m_name tm), flag_bits false (m_name tm) with None, None => true | _, _ => Nat.eqb (dt_size (m_type tm)) 1 end) (l_attrs l) | _ => true end = true)
    by (clear - F; each_format F; vm_compute; reflexivity).
  rewrite L, forallb_forall in H. apply H in I. intros N. destruct e.
  - destruct (flag_bits true (m_name tm)) as [[? ?]|]; [|congruence]. now apply Nat.eqb_eq.
  - destruct (flag_bits true (m_name tm)) as [[? ?]|], (flag_bits false (m_name tm)) as [[? ?]|]; try congruence; now apply Nat.eqb_eq.
Qed.
Lemma write_read_same chunk chunk' laz k b n : 0 < chunk -> bf_wf b -> format_to_u8 (las_point_format_from_point_layout (bf_layout b)) = Ok n ->
  (laz = true -> n <> 9 /\ n <> 10) -> record_length n <= chunk' -> (forall p, In p (bf_points b) -> is_bytes p /\ representable n default_transforms (bf_layout b) p) ->
  exists f b', write_all chunk laz b = Ok f /\ read_all chunk' k f = Ok b' /\ mb_len b' = bf_len b
  /\ forall i p m tm, nth_error (bf_points b) i = Some p -> In m (l_attrs (bf_layout b)) -> In tm (l_attrs (mb_layout b')) -> m_def m = m_def tm ->
     m_name m <> "Position3D"%string -> flag_fits (Nat.ltb 5 n) (m_name m) (attr_value m p) ->
     exists p', nth_error (mb_points b') i = Some p' /\ attr_value tm p' = attr_value m p.
Proof.
  intros C W E LZ CH REP. pose proof (chosen_format _ _ E) as F. destruct (default_exists n _ F) as (l0 & L).
  destruct (write_read chunk chunk' laz k b n l0 C W E L LZ CH (fun p I => proj2 (REP p I))) as (f & b' & WA & RA & _ & LB & NB & V).
  exists f, b'. split; [exact WA|]. split; [exact RA|]. split; [exact NB|]. intros i p m tm NP IM IT D NN FI. rewrite LB in IT. destruct (V i p tm NP IT) as (p' & NP' & CB).
  exists p'. split; [exact NP'|]. destruct (bf_points_uniform b W) as [UP _]. assert (LP : length p = l_size (bf_layout b)) by (eapply uniform_nth; eauto).
  rewrite (same_value _ _ (bf_layout b) tm m p) in CB; [injection CB as CB; symmetry; exact CB| |exact IM|exact D|exact LP| |exact NN| |exact FI].
  - destruct (bf_wf_root b W) as (_ & _ & _ & G). exact G.
  - apply REP. eapply nth_error_In; eauto.
  - intros N. destruct (bf_wf_root b W) as (_ & _ & _ & G). rewrite (proj1 (proj2 (good_member _ _ G IM))), D. change (dt_size (ad_type (m_def tm))) with (dt_size (m_type tm)).
    apply (default_flag_size n _ l0 tm (Nat.ltb 5 n) F L IT). replace (m_name tm) with (m_name m) by (unfold m_name; now rewrite D). exact N.
Qed.
