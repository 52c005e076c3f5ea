(* Histories of a reader; reading all points; points written and read back. *)
From Coq Require Import String List ZArith Lia Bool Arith SpecFloat ZifyBool ZifyNat ZifyN.
From Verif Require Import Base LayoutModel LayoutSpec LayoutProofs BufferModel BufferSpec ListLemmas BufferProofs BufferSteps BufferFacts TraitModel TraitSpec TraitProofs2
  NumModel NumSpec NumProofs NumProofs2 NumProofs3 ConvModel ConvSpec ConvProofs ConvProofs5 MathModel LasModel LasSpec LasProofs LasProofs2 LasIoModel LasIoSpec
  LasIoProofs2 LasIoProofs4 LasIoProofs5 LasIoProofs6 LasIoProofs7 LasIoProofs8.
Import ListNotations.
Open Scope nat_scope.

Lemma open_reader_ok f raw exact r : file_ok f raw -> open_reader f exact = Ok r -> reader_at f raw r 0.
Proof.
  intros FO. pose proof FO as (_ & L & _). unfold open_reader. destruct (f_laz f && is_extended (h_format (f_header f)) && has_waveform (h_format (f_header f))); [discriminate|].
  destruct (point_layout_from_las_metadata _ _ exact) as [l| |]; try discriminate. cbn [bind]. rewrite L. cbn [bind]. intros E. injection E as <-.
  repeat split; cbn; lia.
Qed.
Lemma open_reader_total f raw : file_ok f raw -> exists r, open_reader f true = Ok r.
Proof.
  intros (_ & L & _ & _ & _ & _ & _ & _ & W). unfold open_reader. rewrite L. cbn [bind].
  destruct (f_laz f), (is_extended (h_format (f_header f))); cbn [andb]; try (eexists; reflexivity). rewrite W by reflexivity. eexists. reflexivity.
Qed.

Lemma run_cursor f raw chunk ops : file_ok f raw -> l_size raw <= chunk -> (Z.of_nat (length (records f)) < 2 ^ 63)%Z ->
  forall r i, reader_at f raw r i -> calls_ok f raw i ops ->
  exists r' es last, run_reader chunk r ops = Ok (r', es) /\ cursor_run f raw i ops es last /\ reader_at f raw r' last.
Proof.
  intros FO CH B. induction ops as [|[s|b count] ops IH]; intros r i RA C.
  - exists r, [], i. repeat split; auto; apply RA.
  - cbn [calls_ok] in C. destruct (seek_target (length (records f)) i s) as [j|] eqn:ST; [|contradiction].
    pose proof (seek_ok f raw FO r i s RA B) as SO. rewrite ST in SO.
    destruct SO as (r1 & E & RA1).
    { pose proof RA as (_ & _ & _ & R4 & _). unfold seek_target in ST. destruct s as [z|z|z]; destruct (_ || _) eqn:Q in ST; try discriminate; lia. }
    destruct (IH r1 j RA1 C) as (r' & es & last & E2 & CR & RA'). exists r', (At j :: es), last.
    split; [|split; [split; assumption|exact RA']]. cbn [run_reader read_step]. rewrite E. cbn [bind]. rewrite E2. reflexivity.
  - cbn [calls_ok] in C. destruct C as (W & LC & RD & C). 
    destruct (read_into_ok f raw FO chunk r b i count RA W RD LC CH) as (b' & r1 & E & RA1 & FL).
    destruct (IH r1 _ RA1 C) as (r' & es & last & E2 & CR & RA').
    exists r', (Got b' (Nat.min count (length (records f) - i)) :: es), last.
    split; [|split; [cbn [cursor_run]; auto|exact RA']]. cbn [run_reader read_step]. rewrite E. cbn [bind]. rewrite E2. reflexivity.
Qed.

(* ---------- layouts of metadata ---------- *)
Definition metadata_tail (f : format) (entries : option (list eb_entry)) : res (list attr_def) :=
  if Nat.eqb (extra_bytes f) 0 then Ok []
  else
    let* xs := mapM eb_attribute (match entries with Some es => es | None => [] end) in
    let d := fold_right Nat.add 0 (map (fun a => dt_size (ad_type a)) xs) in
    let* _ := assert (Nat.leb d (extra_bytes f)) in
    Ok (xs ++ if Nat.ltb 0 (extra_bytes f - d) then [mk_def "UndescribedExtraBytes" (ByteArray d)] else []).
Lemma metadata_split f es exact l : point_layout_from_las_metadata f es exact = Ok l ->
  exists base tail, point_layout_from_las_point_format f exact = Ok base /\ metadata_tail f es = Ok tail
  /\ foldM (fun l a => add_attribute l a (Packed 1)) tail base = Ok l.
Proof.
  unfold point_layout_from_las_metadata, metadata_tail. destruct (point_layout_from_las_point_format f exact) as [base| |]; try discriminate. cbn [bind].
  intros E. exists base. destruct (Nat.eqb (extra_bytes f) 0); [exists []; repeat split; exact E|].
  destruct (mapM eb_attribute _) as [xs| |]; try discriminate. cbn [bind] in *.
  destruct (foldM _ xs base) as [l1| |] eqn:X; try discriminate. cbn [bind] in E.
  destruct (Nat.leb _ (extra_bytes f)); [|discriminate]. cbn [assert bind] in *. eexists. split; [reflexivity|]. split; [reflexivity|].
  rewrite foldM_app', X. cbn [bind]. destruct (Nat.ltb 0 _); [|exact E]. cbn [foldM]. rewrite E. reflexivity.
Qed.
Lemma default_base f base : point_layout_from_las_point_format f false = Ok base ->
  base <> layout_default /\ foldM (fun l a => add_attribute l a (Packed 1)) (map m_def (l_attrs base)) layout_default = Ok base
  /\ (forall tm, In tm (l_attrs base) -> 0 < dt_size (m_type tm)).
Proof.
  unfold point_layout_from_las_point_format. destruct (format_to_u8 f) as [n| |] eqn:F; try discriminate. cbn [bind]. intros E.
  assert (N : n <= 10). { unfold las_type_layout in E. destruct (las_type_fields n) eqn:T in E; [|discriminate]. do 11 (destruct n as [|n]; [lia|]). discriminate. }
  clear F. pose proof (eleven n N) as L.
  repeat (destruct L as [->|L]); try subst n; vm_compute in E; injection E as <-; (split; [discriminate|]; split; [vm_compute; reflexivity|]);
    intros tm I; cbn [l_attrs In] in I; repeat (destruct I as [<-|I]; [cbn; lia|]); contradiction.
Qed.
Lemma adds_history attrs n : foldM (fun l a => add_attribute l a (Packed n)) attrs layout_default = add_history (map (fun a => (a, Packed n)) attrs).
Proof. rewrite <- from_packed_history. reflexivity. Qed.

Lemma exact_members f base : point_layout_from_las_point_format f true = Ok base -> map m_def (l_attrs base) = exact_attributes f.
Proof.
  unfold point_layout_from_las_point_format. destruct (format_to_u8 f); try discriminate. cbn [bind]. rewrite adds_history. intros H.
  destruct (grown_layout _ _ H) as [D _]. rewrite D, map_map. apply map_id.
Qed.
Lemma add_members attrs fa l l' : foldM (fun l a => add_attribute l a fa) attrs l = Ok l' -> map m_def (l_attrs l') = map m_def (l_attrs l) ++ attrs.
Proof.
  revert l. induction attrs as [|a attrs IH]; intros l E; cbn [foldM] in E; [injection E as <-; now rewrite app_nil_r|].
  destruct (add_attribute l a fa) as [l1| |] eqn:A; try discriminate. cbn [bind] in E. rewrite (IH _ E).
  destruct (add_attribute_inv _ _ _ _ A) as (o & _ & _ & L & _). rewrite L, map_app, <- app_assoc. reflexivity.
Qed.
(* the attributes of default layouts are packed ones or attributes of the records *)
Definition member_check (f : format) (a : attr_def) : bool :=
  existsb (attr_def_eqb a) (exact_attributes f) || attr_def_eqb a POSITION_3D
  || (match flag_bits (is_extended f) (ad_name a) with Some _ => true | None => false end && datatype_eqb (ad_type a) U8).
Lemma member_check_ok f a : member_check f a = true ->
  In a (exact_attributes f) \/ a = POSITION_3D \/ (flag_bits (is_extended f) (ad_name a) <> None /\ ad_type a = U8).
Proof.
  unfold member_check. intros H. apply orb_true_iff in H. destruct H as [H|H]; [apply orb_true_iff in H; destruct H as [H|H]|].
  - left. apply existsb_exists in H. destruct H as (b & I & E). apply attr_def_eqb_eq in E. now subst.
  - right. left. now apply attr_def_eqb_eq.
  - right. right. apply andb_true_iff in H. destruct H as [H1 H2]. split; [destruct (flag_bits _ _); [discriminate|discriminate]|now apply datatype_eqb_eq].
Qed.
Lemma default_members f base : point_layout_from_las_point_format f false = Ok base -> forall a, In a (map m_def (l_attrs base)) ->
  In a (exact_attributes f) \/ a = POSITION_3D \/ (flag_bits (is_extended f) (ad_name a) <> None /\ ad_type a = U8).
Proof.
  intros E a I. apply member_check_ok. revert a I. apply forallb_forall.
  assert (H : match point_layout_from_las_point_format f false with Ok base => forallb (member_check f) (map m_def (l_attrs base)) | _ => true end = true);
    [|rewrite E in H; exact H].
  clear E. destruct f as [gps color ext wave nir x]. destruct ext, gps, color, nir, wave; vm_compute; reflexivity.
Qed.

Lemma in_names_def l m m' : NoDup (map m_name (l_attrs l)) -> In m (l_attrs l) -> In m' (l_attrs l) -> m_name m = m_name m' -> m = m'.
Proof. intros ND. now apply NoDup_map_inj. Qed.
Lemma default_readable f raw l : file_ok f raw -> point_layout_from_las_metadata (h_format (f_header f)) (h_entries (f_header f)) false = Ok l ->
  good_layout l /\ readable (is_extended (h_format (f_header f))) raw l.
Proof.
  intros FO EL. pose proof FO as (_ & ER & _ & G & PN & _ & _ & _ & _).
  destruct (metadata_split _ _ _ _ EL) as (b1 & tl & B1 & T1 & A1). destruct (metadata_split _ _ _ _ ER) as (b2 & tl' & B2 & T2 & A2).
  assert (tl' = tl) by congruence. subst tl'. clear T2.
  pose proof (add_members _ _ _ _ A2) as M2. rewrite (exact_members _ _ B2) in M2. pose proof (add_members _ _ _ _ A1) as M1.
  destruct (default_base _ _ B1) as (ND & H1 & SZ).
  assert (IR : forall a, In a (exact_attributes (h_format (f_header f)) ++ tl) -> exists m, In m (l_attrs raw) /\ m_def m = a).
  { intros a I. rewrite <- M2 in I. apply in_map_iff in I. destruct I as (m & D & I). eauto. }
  split.
  - assert (H : add_history (map (fun a => (a, Packed 1)) (map m_def (l_attrs b1) ++ tl)) = Ok l).
    { rewrite <- adds_history, foldM_app', H1. exact A1. }
    apply (grown_good _ _ H).
    + intros E. apply map_eq_nil, app_eq_nil in E. destruct E as [E _]. apply map_eq_nil in E. apply ND.
      rewrite E in H1. cbn in H1. injection H1 as <-. reflexivity.
    + intros a fa I. apply in_map_iff in I. destruct I as (a' & [= <- _] & I). apply in_app_or in I. destruct I as [I|I].
      * apply in_map_iff in I. destruct I as (m & <- & I). exact (SZ m I).
      * destruct (IR a' (in_or_app _ _ _ (or_intror I))) as (m & IM & <-). destruct (good_member _ _ G IM) as (P & E & _). rewrite <- E. exact P.
  - intros tm I. assert (D : In (m_def tm) (map m_def (l_attrs b1) ++ tl)) by (rewrite <- M1; now apply in_map).
    assert (SAME : (exists m, In m (l_attrs raw) /\ m_def m = m_def tm) ->
      if String.eqb (m_name tm) "Position3D" then m_type tm = Vec3f64 \/ m_type tm = Vec3f32
      else match flag_bits (is_extended (h_format (f_header f))) (m_name tm) with
         | Some _ => convertible (if is_extended (h_format (f_header f)) then U16 else U8) (m_type tm)
         | None => forall m, In m (l_attrs raw) -> m_name m = m_name tm -> convertible (m_type m) (m_type tm)
         end).
    { intros (m & IM & DM). assert (NP : ~ In (m_name tm) packed_names).
      { intros Q. apply (PN _ Q). apply in_map_iff. exists m. split; [unfold m_name; now rewrite DM|exact IM]. }
      destruct (String.eqb_spec (m_name tm) "Position3D") as [Q|_]; [exfalso; apply NP; rewrite Q; now left|].
      destruct (flag_bits _ (m_name tm)) as [p|] eqn:FB.
      - exfalso. apply NP. unfold flag_bits in FB. destruct (find _ _) as [[s q]|] eqn:FE in FB; [|discriminate]. apply find_some in FE. destruct FE as [FE EQ].
        apply String.eqb_eq in EQ. cbn [fst] in EQ. subst s. clear FB NP.
        destruct (is_extended (h_format (f_header f))); cbn in FE; repeat (destruct FE as [FE|FE]; [injection FE as <- _; cbn; tauto|]); contradiction.
      - intros m' IM' NM. left. assert (m' = m). { apply (in_names_def raw); [apply G|assumption|assumption|]. rewrite NM. unfold m_name. now rewrite DM. }
        subst m'. unfold m_type. now rewrite DM. }
    apply in_app_or in D. destruct D as [D|D]; [|apply SAME, IR, in_or_app; now right].
    destruct (default_members _ _ B1 _ D) as [Q|[Q|[Q1 Q2]]].
    + apply SAME, IR, in_or_app. now left.
    + assert (N : m_name tm = "Position3D"%string) by (unfold m_name; now rewrite Q). rewrite N. cbn. left. unfold m_type. now rewrite Q.
    + change (ad_name (m_def tm)) with (m_name tm) in Q1. change (ad_type (m_def tm)) with (m_type tm) in Q2.
      destruct (String.eqb_spec (m_name tm) "Position3D") as [N|_]; [rewrite N in Q1; destruct (is_extended (h_format (f_header f))); contradiction|].
      destruct (flag_bits _ (m_name tm)); [|congruence]. rewrite Q2. right. left. destruct (is_extended (h_format (f_header f))); split; discriminate.
Qed.

(* ---------- reading all points ---------- *)
Lemma same_size l pts : resized l (length pts) pts = pts.
Proof. unfold resized. rewrite firstn_all, Nat.sub_diag. apply app_nil_r. Qed.
Lemma resize_same b n : mb_wf b -> mb_len b = n ->
  mb_wf (resize_buffer b n) /\ mb_layout (resize_buffer b n) = mb_layout b /\ mb_len (resize_buffer b n) = n /\ mb_points (resize_buffer b n) = mb_points b.
Proof.
  intros W L. destruct (wf_uniform b W) as [_ LP]. destruct b as [v|h| |]; cbn [resize_buffer]; 
    try (split; [exact W|split; [reflexivity|split; [exact L|reflexivity]]]).
  - destruct (vb_resize_points v n W) as (A & B & C & D). split; [exact A|]. split; [exact B|]. split; [exact C|].
    change (mb_points (VecB (vb_resize v n))) with (points_of (BV (vb_resize v n))). rewrite D. rewrite <- L, <- LP. apply same_size.
  - destruct (hb_resize_points h n W) as (A & B & C & D). split; [exact A|]. split; [exact B|]. split; [exact C|].
    change (mb_points (MapB (hb_resize h n))) with (points_of (BH (hb_resize h n))). rewrite D. rewrite <- L, <- LP. apply same_size.
Qed.

Lemma firstn_repeat {A} (x : A) n k : firstn k (repeat x n) = repeat x (Nat.min k n).
Proof. revert k. induction n as [|n IH]; intros [|k]; try reflexivity. cbn. now rewrite IH. Qed.
Lemma nth_repeat {A} (x : A) n k y : nth_error (repeat x n) k = Some y -> y = x.
Proof. intros E. apply nth_error_In, repeat_spec in E. exact E. Qed.
Lemma new_buffer_ok k l n : good_layout l -> mb_wf (new_buffer k l n) /\ mb_layout (new_buffer k l n) = l /\ mb_len (new_buffer k l n) = n
  /\ mb_points (new_buffer k l n) = repeat (repeat 0%Z (l_size l)) n.
Proof. intros G. destruct k; [apply (fresh_vec l n G)|apply (fresh_map l n G)]. Qed.
Lemma read_all_ok f raw l chunk k : file_ok f raw -> l_size raw <= chunk ->
  point_layout_from_las_metadata (h_format (f_header f)) (h_entries (f_header f)) false = Ok l ->
  exists b, read_all chunk k f = Ok b /\ mb_wf b /\ mb_layout b = l /\ mb_len b = length (records f)
  /\ forall i rec, nth_error (records f) i = Some rec -> exists p, nth_error (mb_points b) i = Some p
     /\ forall tm, In tm (l_attrs l) ->
          if layout_eqb l raw then attr_value tm p = attr_value tm rec
          else read_value (is_extended (h_format (f_header f))) raw (h_tr (f_header f)) tm rec (repeat 0%Z (m_size tm)) = Some (attr_value tm p).
Proof.
  intros FO CH EL. destruct (default_readable f raw l FO EL) as [GL RD]. pose proof FO as (_ & ER & _ & _ & _ & _ & _ & _ & LW).
  assert (EO : exists r, open_reader f false = Ok r /\ r_layout r = l).
  { unfold open_reader. rewrite EL, ER. cbn [bind]. destruct (f_laz f), (is_extended (h_format (f_header f))); cbn [andb]; try (eexists; split; reflexivity).
    rewrite LW by reflexivity. eexists. split; reflexivity. }
  destruct EO as (r & EO & EL'). pose proof (open_reader_ok f raw false r FO EO) as RA. pose proof RA as (R1 & R2 & _).
  unfold read_all. rewrite EO. cbn [bind]. unfold las_read. rewrite EL'. destruct (file_sizes f raw FO) as (_ & LR & _).
  assert (RC : r_count r = length (records f)) by (unfold r_count; rewrite R1; congruence). rewrite RC. set (n := length (records f)) in *.
  destruct (new_buffer_ok k l n GL) as (W & L & N & P). set (nb := new_buffer k l n) in *.
  destruct (read_into_ok f raw FO chunk r nb 0 n RA W) as (b' & r' & E & _ & FL); [right; rewrite L; exact RD|lia|exact CH|].
  fold n in E, FL. rewrite Nat.sub_0_r, Nat.min_id in E, FL. rewrite E. cbn [bind]. eexists. split; [reflexivity|].
  cbn [skipn] in FL. unfold n in FL at 1. rewrite firstn_all in FL. destruct FL as (W' & L1 & L2 & _ & _ & FP & _).
  destruct (resize_same b' n W' ltac:(congruence)) as (Q1 & Q2 & Q3 & Q4). split; [exact Q1|]. split; [congruence|]. split; [exact Q3|].
  intros i rec Er. pose proof (nth_error_lt _ _ _ Er) as I. fold n in I. rewrite Q4.
  destruct (nth_error_get (mb_points nb) i) as (p0 & P0); [rewrite P, repeat_length; exact I|].
  destruct (FP i rec p0 Er P0) as (p & EP & H). exists p. split; [exact EP|]. rewrite L in H. intros tm IT. destruct (layout_eqb l raw) eqn:LQ.
  - apply layout_eqb_eq in LQ. apply H. rewrite <- LQ. exact IT.
  - destruct H as [H _]. rewrite <- (H tm IT). f_equal. rewrite P in P0. apply nth_repeat in P0. subst p0. unfold attr_value, sub.
    destruct (good_member _ _ GL IT) as (_ & _ & LE). rewrite skipn_repeat, firstn_repeat. f_equal. lia.
Qed.
