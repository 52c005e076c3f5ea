(* Lemmas about single LAS records: the values taken from a point, and the bytes written for them. *)
From Coq Require Import String List ZArith Lia Bool Arith SpecFloat ZifyBool ZifyNat ZifyN.
From Verif Require Import Base LayoutModel LayoutSpec LayoutProofs BufferModel BufferSpec ListLemmas BufferProofs TraitModel TraitSpec
  NumModel NumProofs ConvModel ConvSpec ConvProofs2 ConvProofs4 ConvProofs5 MathModel LasModel LasSpec LasProofs LasProofs2 LasIoModel LasIoSpec.
Import ListNotations.
Open Scope nat_scope.

(* ---------- the attributes a writer reads ---------- *)
Definition getters (f : format) : list (bool * attr_def * (las_values -> list Z)) :=
  [(true, POSITION_3D, v_position); (true, INTENSITY, v_intensity); (true, RETURN_NUMBER, v_return_number);
   (true, NUMBER_OF_RETURNS, v_number_of_returns); (is_extended f, CLASSIFICATION_FLAGS, v_classification_flags);
   (is_extended f, SCANNER_CHANNEL, v_scanner_channel); (true, SCAN_DIRECTION_FLAG, v_scan_direction_flag);
   (true, EDGE_OF_FLIGHT_LINE, v_edge_of_flight_line); (true, CLASSIFICATION, v_classification); (true, USER_DATA, v_user_data);
   (true, if is_extended f then SCAN_ANGLE else SCAN_ANGLE_RANK, v_scan_angle); (true, POINT_SOURCE_ID, v_point_source_id);
   (has_gps_time f, GPS_TIME, v_gps_time); (has_color f, COLOR_RGB, v_color); (has_nir f, NIR, v_nir);
   (has_waveform f, WAVE_PACKET_DESCRIPTOR_INDEX, v_wave_descriptor); (has_waveform f, WAVEFORM_DATA_OFFSET, v_wave_offset);
   (has_waveform f, WAVEFORM_PACKET_SIZE, v_wave_size); (has_waveform f, RETURN_POINT_WAVEFORM_LOCATION, v_wave_location);
   (has_waveform f, WAVEFORM_PARAMETERS, v_wave_parameters)].
Definition values_are (f : format) (l : layout) (p : list Z) (v : las_values) : Prop :=
  Forall (fun g => fst (fst g) = true -> las_value l (snd (fst g)) p = Some (snd g v) /\ length (snd g v) = dt_size (ad_type (snd (fst g)))) (getters f).
Definition value_missing (f : format) (l : layout) (p : list Z) : Prop :=
  Exists (fun g => fst (fst g) = true /\ las_value l (snd (fst g)) p = None) (getters f).

Lemma value_as_length from to v w : value_as from to v = Some w -> length v = dt_size from -> length w = dt_size to.
Proof.
  unfold value_as. destruct (datatype_eqb from to) eqn:E.
  - apply datatype_eqb_eq in E. subst. intros [= <-]. auto.
  - intros H _. destruct (scalar_type from) as [f|] eqn:F, (scalar_type to) as [t|] eqn:T, (vector_type from) as [f'|] eqn:F', (vector_type to) as [t'|] eqn:T';
      try discriminate; injection H as <-; rewrite ?app_length, ?convert_scalar_length;
      destruct to; try discriminate; ((injection T as <-; reflexivity) || (injection T' as <-; reflexivity)).
Qed.

Lemma las_value_length l a p v : good_layout l -> length p = l_size l -> las_value l a p = Some v -> length v = dt_size (ad_type a).
Proof.
  intros G L. unfold las_value. destruct (find _ (l_attrs l)) as [m|] eqn:F.
  - apply find_some in F. destruct F as [I _]. intros H. apply (value_as_length _ _ _ _ H).
    rewrite (length_attr_value l m p G I L). now destruct (good_member _ _ G I) as (_ & ? & _).
  - intros [= <-]. apply repeat_length.
Qed.

(* ---------- custom layouts ---------- *)
Lemma read_attribute_spec l a chunk i p : good_layout l -> (i + 1) * l_size l <= length chunk -> p = sub chunk (i * l_size l) (l_size l) ->
  read_attribute l a chunk i = match las_value l a p with Some v => Ok v | None => Panic end.
Proof.
  intros G LE ->. unfold read_attribute, las_value, get_attribute_by_name.
  destruct (find _ (l_attrs l)) as [m|] eqn:F; [|reflexivity].
  apply find_some in F. destruct F as [I E]. apply String.eqb_eq in E. destruct (good_member _ _ G I) as (PS & SZ & IN). change (dt_size (ad_type (m_def m))) with (dt_size (m_type m)) in SZ.
  assert (AV : attr_value m (sub chunk (i * l_size l) (l_size l)) = sub chunk (i * l_size l + m_offset m) (m_size m)).
  { unfold attr_value. rewrite sub_sub by lia. reflexivity. }
  rewrite AV. unfold value_as at 1. destruct (datatype_eqb (m_type m) (ad_type a)) eqn:D.
  - apply datatype_eqb_eq in D. rewrite <- D. rewrite <- SZ. destruct (Nat.leb_spec (i * l_size l + m_offset m + m_size m) (length chunk)); [reflexivity|lia].
  - assert (ND : ad_type (m_def m) <> ad_type a).
    { intros Q. change (ad_type (m_def m)) with (m_type m) in Q. rewrite Q, datatype_eqb_refl in D. discriminate. }
    destruct (convertible_dec (ad_type (m_def m)) (ad_type a)) as [[C|C]|C]; [contradiction| |].
    + destruct (converter_spec (m_def m) a E ND C) as (c & -> & V). cbn [bind].
      rewrite slice_get_ok by lia. replace (i * l_size l + m_offset m + m_size m - (i * l_size l + m_offset m)) with (m_size m) by lia. cbn [bind].
      specialize (V (sub chunk (i * l_size l + m_offset m) (m_size m)) (repeat 0%Z (dt_size (ad_type a))) (repeat_length _ _)).
      unfold value_as in V. change (ad_type (m_def m)) with (m_type m) in V. rewrite D in V. rewrite V. reflexivity.
    + rewrite converter_panics; [cbn [bind]|right; split; [exact ND|intros S; apply C; right; exact S]].
      assert (NS : ~ supported (m_type m) (ad_type a)) by (intros S; apply C; right; exact S). unfold supported in NS.
      destruct (scalar_type (m_type m)), (scalar_type (ad_type a)), (vector_type (m_type m)), (vector_type (ad_type a)); try reflexivity;
        exfalso; apply NS; try (left; split; discriminate); right; split; discriminate.
Qed.

Lemma value_step {A} (o : option (list Z)) (k : list Z -> res A) (P : A -> Prop) (Q : Prop) :
  (forall w, o = Some w -> (exists v, k w = Ok v /\ P v) \/ (k w = Panic /\ Q)) -> (o = None -> Q) ->
  (exists v, bind (match o with Some v => Ok v | None => Panic end) k = Ok v /\ P v) \/ (bind (match o with Some v => Ok v | None => Panic end) k = Panic /\ Q).
Proof. intros H N. destruct o as [w|]; [exact (H w eq_refl)|]. right. split; [reflexivity|auto]. Qed.
Lemma no_value_step {A} (w : list Z) (k : list Z -> res A) (P : A -> Prop) (Q : Prop) :
  (exists v, k w = Ok v /\ P v) \/ (k w = Panic /\ Q) -> (exists v, bind (Ok w) k = Ok v /\ P v) \/ (bind (Ok w) k = Panic /\ Q).
Proof. exact (fun H => H). Qed.

Lemma custom_values f l chunk i p : good_layout l -> (i + 1) * l_size l <= length chunk -> p = sub chunk (i * l_size l) (l_size l) ->
  (exists v, read_custom_values f l chunk i = Ok v /\ values_are f l p v)
  \/ (read_custom_values f l chunk i = Panic /\ value_missing f l p).
Proof.
  intros G LE P. assert (LP : length p = l_size l) by (subst; apply length_sub; lia).
  unfold read_custom_values, read_attribute_if, values_are, value_missing, getters. cbv zeta.
  rewrite !(fun a => read_attribute_spec l a chunk i p G LE P).
  destruct (is_extended f), (has_gps_time f), (has_color f), (has_nir f), (has_waveform f); cbv iota;
  repeat (first [apply no_value_step; cbv beta
                |apply value_step;
                  [let w := fresh "w" in let E := fresh "E" in intros w E; pose proof (las_value_length _ _ _ _ G LP E); cbv beta
                  |let E := fresh "E" in intros E; repeat (first [apply Exists_cons_hd; split; [reflexivity|exact E]|apply Exists_cons_tl])]]);
  (left; eexists; split; [reflexivity|]; repeat (apply Forall_cons; [cbn [fst snd]; intros; first [discriminate|split; [assumption|assumption]]|]); apply Forall_nil).
Qed.

(* ---------- default layouts ---------- *)
Lemma rd_at p rest o k : o + k <= length p -> rd k (skipn o (p ++ rest)) = Ok (sub p o k, skipn (o + k) (p ++ rest)).
Proof.
  intros H. unfold rd. rewrite skipn_length, app_length. destruct (Nat.leb_spec k (length p + length rest - o)); [|lia].
  rewrite skipn_skipn. rewrite (Nat.add_comm k o). f_equal. f_equal.
  unfold sub. rewrite skipn_app. replace (o - length p) with 0 by lia. rewrite firstn_app, skipn_length.
  replace (k - (length p - o)) with 0 by lia. apply app_nil_r.
Qed.
Lemma rd_step {B} p rest o k (f : list Z * list Z -> res B) (r : res B) : o + k <= length p ->
  f (sub p o k, skipn (o + k) (p ++ rest)) = r -> bind (rd k (skipn o (p ++ rest))) f = r.
Proof. intros H E. rewrite rd_at by exact H. exact E. Qed.
Lemma skip_step {B} c (f : list Z * list Z -> res B) (r : res B) : f ([], c) = r -> bind (Ok ([], c)) f = r.
Proof. exact (fun H => H). Qed.

Lemma default_values n f l p rest : format_new n = Ok f -> las_type_layout n = Ok l -> length p = l_size l ->
  exists v, read_default_values f (p ++ rest) = Ok (v, rest) /\ values_are f l p v.
Proof.
  intros F D L. change (read_default_values f (p ++ rest)) with (read_default_values f (skipn 0 (p ++ rest))).
  unfold read_default_values, rd_if.
  each_format F; vm_compute in D; injection D as <-; cbn [l_size] in L; cbn [is_extended has_gps_time has_color has_nir has_waveform];
    cbn [Nat.eqb Nat.leb orb negb]; cbv iota;
  (eexists; split;
   [repeat (first [apply skip_step; cbv beta iota|apply rd_step; [rewrite L; apply Nat.leb_le; reflexivity|cbv beta iota; cbn [Nat.add]]]);
    rewrite <- L, skipn_app, skipn_all, Nat.sub_diag; reflexivity
   |unfold values_are, getters; cbn [is_extended has_gps_time has_color has_nir has_waveform Nat.eqb Nat.leb orb negb];
    repeat (apply Forall_cons; [cbn [fst snd]; intros; first [discriminate|cbn [v_user_data]; rewrite ?app_nil_r; split; [reflexivity|apply length_sub; rewrite L; apply Nat.leb_le; reflexivity]]|]);
    apply Forall_nil]).
Qed.
