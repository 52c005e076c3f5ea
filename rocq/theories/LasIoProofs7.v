(* Lemmas about the readers: the converter from records to other layouts. *)
From Coq Require Import String List ZArith Lia Bool Arith SpecFloat ZifyBool ZifyNat ZifyN.
From Verif Require Import Base LayoutModel LayoutSpec LayoutProofs BufferModel BufferSpec ListLemmas BufferProofs BufferSteps TraitModel TraitSpec TraitProofs2
  NumModel NumSpec NumProofs NumProofs2 NumProofs3 ConvModel ConvSpec ConvProofs ConvProofs5 MathModel LasModel LasSpec LasProofs LasProofs2 LasIoModel LasIoSpec LasIoProofs2.
Import ListNotations.
Open Scope nat_scope.

(* ---------- the calls made ---------- *)
Definition table_calls (target : layout) (table : list (string * (member -> call))) : list call :=
  flat_map (fun e => match get_attribute_by_name target (fst e) with Some m => [snd e m] | None => [] end) table.
Definition position_entry (t : transforms) : string * (member -> call) :=
  ("Position3D"%string, fun m => match m_type m with
                                 | Vec3f32 => Transformed Vec3f32 ATTRIBUTE_LOCAL_LAS_POSITION (m_def m) (to_world_f32 t) false
                                 | _ => Transformed Vec3f64 ATTRIBUTE_LOCAL_LAS_POSITION (m_def m) (to_world_f64 t) false
                                 end).
Definition flag_entry (d : datatype) (from : attr_def) (field : Z -> Z -> list Z -> list Z) (e : attr_def * Z * Z) : string * (member -> call) :=
  (ad_name (fst (fst e)), fun m => Transformed d from (m_def m) (field (snd (fst e)) (snd e)) true).
Definition flag_table (extended : bool) : list (string * (member -> call)) :=
  if extended
  then map (flag_entry U16 ATTRIBUTE_EXTENDED_FLAGS extended_field)
           [(RETURN_NUMBER, 0, 15); (NUMBER_OF_RETURNS, 4, 15); (CLASSIFICATION_FLAGS, 8, 15); (SCANNER_CHANNEL, 12, 3);
            (SCAN_DIRECTION_FLAG, 14, 1); (EDGE_OF_FLIGHT_LINE, 15, 1)]%Z
  else map (flag_entry U8 ATTRIBUTE_BASIC_FLAGS basic_field)
           [(RETURN_NUMBER, 0, 7); (NUMBER_OF_RETURNS, 3, 7); (SCAN_DIRECTION_FLAG, 6, 1); (EDGE_OF_FLIGHT_LINE, 7, 1)]%Z.
Definition las_table (extended : bool) (t : transforms) : list (string * (member -> call)) := position_entry t :: flag_table extended.

Lemma foldM_app' {A S} (f : S -> A -> res S) l1 l2 s : foldM f (l1 ++ l2) s = bind (foldM f l1 s) (foldM f l2).
Proof. revert s. induction l1 as [|a l1 IH]; intros s; [reflexivity|]. cbn [app foldM]. destruct (f s a); cbn [bind]; auto. Qed.
Lemma map_flags_calls target d from field es c :
  foldM (map_flags target d from field) es c = foldM apply_call (table_calls target (map (flag_entry d from field) es)) c.
Proof.
  revert c. induction es as [|[[a s] k] es IH]; intros c; [reflexivity|].
  cbn [map]. unfold table_calls. cbn [flat_map]. rewrite foldM_app'. cbn [foldM flag_entry fst snd map_flags].
  destruct (get_attribute_by_name target (ad_name a)) as [m|].
  - cbn [foldM]. change (apply_call c (Transformed d from (m_def m) (field s k) true)) with (set_custom_mapping_with_transformation c d from (m_def m) (field s k) true).
    destruct (set_custom_mapping_with_transformation c d from (m_def m) (field s k) true); cbn [bind]; auto.
  - cbn [foldM bind]. apply IH.
Qed.

Definition position_type_ok (target : layout) : Prop :=
  forall m, In m (l_attrs target) -> m_name m = "Position3D"%string -> m_type m = Vec3f64 \/ m_type m = Vec3f32.
Lemma converter_build ext raw target t : good_layout target -> has_attribute raw ATTRIBUTE_BASIC_FLAGS = negb ext -> position_type_ok target ->
  get_default_las_converter raw target t = build false raw target (table_calls target (las_table ext t)).
Proof.
  intros G HB PT. unfold get_default_las_converter, build. destruct (for_layouts_with_default raw target) as [c| |]; [cbn [bind]|reflexivity|reflexivity].
  unfold las_table, table_calls. cbn [flat_map]. rewrite foldM_app'. fold (table_calls target (flag_table ext)).
  assert (P : match get_attribute_by_name target (ad_name POSITION_3D) with
             | Some m =>
                 match m_type m with
                 | Vec3f64 => set_custom_mapping_with_transformation c Vec3f64 ATTRIBUTE_LOCAL_LAS_POSITION (m_def m) (to_world_f64 t) false
                 | Vec3f32 => set_custom_mapping_with_transformation c Vec3f32 ATTRIBUTE_LOCAL_LAS_POSITION (m_def m) (to_world_f32 t) false
                 | _ => Err
                 end
             | None => Ok c
             end = foldM apply_call (match get_attribute_by_name target (fst (position_entry t)) with Some m => [snd (position_entry t) m] | None => [] end) c).
  { change (fst (position_entry t)) with (ad_name POSITION_3D). destruct (get_attribute_by_name target (ad_name POSITION_3D)) as [m|] eqn:E; [|reflexivity].
    apply get_by_name_spec in E; [|apply G]. destruct E as [I N]. cbn [foldM]. unfold position_entry. cbn [snd].
    destruct (PT m I N) as [->| ->]; cbn [apply_call].
    - destruct (set_custom_mapping_with_transformation c Vec3f64 ATTRIBUTE_LOCAL_LAS_POSITION (m_def m) (to_world_f64 t) false); reflexivity.
    - destruct (set_custom_mapping_with_transformation c Vec3f32 ATTRIBUTE_LOCAL_LAS_POSITION (m_def m) (to_world_f32 t) false); reflexivity. }
  rewrite P. destruct (foldM apply_call (match get_attribute_by_name target (fst (position_entry t)) with Some m => [snd (position_entry t) m] | None => [] end) c) as [c1| |];
    cbn [bind]; [|reflexivity|reflexivity].
  rewrite HB. destruct ext; cbn [negb]; apply map_flags_calls.
Qed.

Lemma find_app' {A} (p : A -> bool) l1 l2 : find p (l1 ++ l2) = match find p l1 with Some x => Some x | None => find p l2 end.
Proof. induction l1 as [|a l1 IH]; [reflexivity|]. cbn [app find]. now destruct (p a). Qed.
Lemma find_calls target table tm : good_layout target -> In tm (l_attrs target) -> NoDup (map fst table) -> (forall e m, In e table -> call_to (snd e m) = m_def m) ->
  find (fun k => attr_def_eqb (call_to k) (m_def tm)) (rev (table_calls target table))
  = option_map (fun e => snd e tm) (find (fun e => String.eqb (fst e) (m_name tm)) table).
Proof.
  intros G I. induction table as [|e table IH]; intros ND CT; [reflexivity|].
  cbn [map] in ND. inversion ND as [|? ? NI ND']; subst. unfold table_calls. cbn [flat_map find]. rewrite rev_app_distr, find_app'.
  fold (table_calls target table). rewrite IH by (auto; intros; apply CT; now right). destruct (String.eqb_spec (fst e) (m_name tm)) as [E|E].
  - destruct (find (fun e0 => String.eqb (fst e0) (m_name tm)) table) as [e'|] eqn:F.
    { exfalso. apply find_some in F. destruct F as [F1 F2]. apply String.eqb_eq in F2. apply NI. rewrite E, <- F2. now apply in_map. }
    cbn [option_map]. rewrite (proj2 (get_by_name_spec target (fst e) tm ltac:(apply G))) by auto. cbn [rev app find].
    rewrite (CT e tm) by now left. rewrite attr_def_eqb_refl. reflexivity.
  - destruct (find (fun e0 => String.eqb (fst e0) (m_name tm)) table) as [e'|]; [reflexivity|]. cbn [option_map].
    destruct (get_attribute_by_name target (fst e)) as [m|] eqn:M; [|reflexivity]. cbn [rev app find]. rewrite (CT e m) by now left.
    destruct (attr_def_eqb (m_def m) (m_def tm)) eqn:D; [|reflexivity]. exfalso. apply attr_def_eqb_eq in D.
    apply get_by_name_spec in M; [|apply G]. destruct M as [_ M]. apply E. rewrite <- M. unfold m_name. now rewrite D.
Qed.
Lemma table_names ext t : NoDup (map fst (las_table ext t)).
Proof. destruct ext; cbn; repeat (constructor; [intros H; cbn in H; repeat (destruct H as [H|H]; [discriminate|]); exact H|]); constructor. Qed.
Lemma table_to ext t e m : In e (las_table ext t) -> call_to (snd e m) = m_def m.
Proof.
  intros I. destruct I as [<-|I]; [cbn; destruct (m_type m); reflexivity|].
  destruct ext; cbn in I; repeat (destruct I as [<-|I]; [reflexivity|]); contradiction.
Qed.

(* ---------- the values ---------- *)
Lemma signed32_wrap bs : wrap true 32 (le_dec bs) = signed32 bs.
Proof. reflexivity. Qed.
Lemma signed32_range bs : (- 2 ^ 31 <= signed32 bs < 2 ^ 31)%Z.
Proof. rewrite <- signed32_wrap. pose proof (wrap_range true 32 (le_dec bs) ltac:(lia)) as H. unfold int_min, int_max in H. change (32 - 1)%Z with 31%Z in H. lia. Qed.
Lemma i32_f64 bs : f64_of (convert_scalar_using_as PI32 PF64 bs) = f64_of_int (signed32 bs).
Proof.
  pose proof (signed32_range bs) as R. unfold convert_scalar_using_as, f64_of.
  change (as_cast PF64 (dec_num PI32 bs)) with (NFlt (f64_of_int (signed32 bs))). set (v := signed32 bs) in *. clearbody v.
  assert (V : valid_binary 53 1024 (f64_of_int v) = true /\ f64_of_int v <> S754_nan).
  { destruct (Z.eq_dec v 0) as [->|NZ]; [split; [reflexivity|discriminate]|].
    destruct (int_to_float 53 1024 v) as (m & e & E & B & _); [lia|lia|lia|exact NZ|lia|]. unfold f64_of_int. rewrite E. split; [exact B|discriminate]. }
  destruct V as [V N]. destruct (dec_enc_float PF64 53 1024 (f64_of_int v) eq_refl V N) as [E _]. rewrite E. reflexivity.
Qed.
Lemma sub_first (a b : list Z) n : length a = n -> sub (a ++ b) 0 n = a.
Proof. intros <-. unfold sub. cbn [skipn]. rewrite firstn_app, Nat.sub_diag, firstn_all. apply app_nil_r. Qed.
Lemma sub_second (a b c : list Z) n : length a = n -> length b = n -> sub (a ++ b ++ c) (1 * n) n = b.
Proof. intros A B. unfold sub. replace (1 * n) with (length a) by lia. rewrite skipn_app, skipn_all, Nat.sub_diag. cbn [app skipn]. apply (sub_first b c). exact B. Qed.
Lemma sub_third (a b c : list Z) n : length a = n -> length b = n -> length c = n -> sub (a ++ b ++ c) (2 * n) n = c.
Proof.
  intros A B C. unfold sub. replace (2 * n) with (length (a ++ b)) by (rewrite app_length; lia). rewrite app_assoc, skipn_app, skipn_all, Nat.sub_diag.
  cbn [app skipn]. rewrite <- C. apply firstn_all.
Qed.
Lemma position_f64 t v : option_map (to_world_f64 t) (value_as Vec3i32 Vec3f64 v) = Some (world_position t v).
Proof.
  change (value_as Vec3i32 Vec3f64 v) with (Some (convert_scalar_using_as PI32 PF64 (sub v (0 * 4) 4) ++ convert_scalar_using_as PI32 PF64 (sub v (1 * 4) 4)
    ++ convert_scalar_using_as PI32 PF64 (sub v (2 * 4) 4))). cbn [option_map]. apply (f_equal Some). unfold to_world_f64. cbv beta zeta. set (c0 := convert_scalar_using_as PI32 PF64 (sub v (0 * 4) 4)).
  set (c1 := convert_scalar_using_as PI32 PF64 (sub v (1 * 4) 4)). set (c2 := convert_scalar_using_as PI32 PF64 (sub v (2 * 4) 4)).
  assert (L0 : length c0 = 8) by apply convert_length. assert (L1 : length c1 = 8) by apply convert_length. assert (L2 : length c2 = 8) by apply convert_length.
  change (0 * 8) with 0. rewrite (sub_first c0 _ 8 L0), (sub_second c0 c1 c2 8 L0 L1), (sub_third c0 c1 c2 8 L0 L1 L2).
  unfold c0, c1, c2. rewrite !i32_f64. unfold world_position, world, f64_bytes. reflexivity.
Qed.
Lemma i32_f32 bs : f32_of (convert_scalar_using_as PI32 PF32 bs) = f32_number (f32_bytes (f32_of_int (signed32 bs))).
Proof.
  unfold f32_of, convert_scalar_using_as. change (dec_num PI32 bs) with (NInt (signed32 bs)). set (v := signed32 bs). clearbody v.
  change (as_cast PF32 (NInt v)) with (NFlt (f32_of_int v)). set (x := f32_of_int v). clearbody x.
  change (enc_num PF32 (NFlt x)) with (f32_bytes x). set (y := f32_bytes x). clearbody y. reflexivity.
Qed.
Lemma f32_to_f64_spec x : f32_to_f64 x = f64_round x.
Proof. destruct x; reflexivity. Qed.
Lemma enc_f32 x : enc_num PF32 (as_cast PF32 (NFlt x)) = f32_bytes (f32_round x).
Proof. change (as_cast PF32 (NFlt x)) with (NFlt (f32_round x)). reflexivity. Qed.
Lemma position_f32 t v : option_map (to_world_f32 t) (value_as Vec3i32 Vec3f32 v) = Some (world_position32 t v).
Proof.
  change (value_as Vec3i32 Vec3f32 v) with (Some (convert_scalar_using_as PI32 PF32 (sub v (0 * 4) 4) ++ convert_scalar_using_as PI32 PF32 (sub v (1 * 4) 4)
    ++ convert_scalar_using_as PI32 PF32 (sub v (2 * 4) 4))). cbn [option_map]. apply (f_equal Some). unfold to_world_f32. cbv beta zeta. set (c0 := convert_scalar_using_as PI32 PF32 (sub v (0 * 4) 4)).
  set (c1 := convert_scalar_using_as PI32 PF32 (sub v (1 * 4) 4)). set (c2 := convert_scalar_using_as PI32 PF32 (sub v (2 * 4) 4)).
  assert (L0 : length c0 = 4) by apply convert_length. assert (L1 : length c1 = 4) by apply convert_length. assert (L2 : length c2 = 4) by apply convert_length.
  change (0 * 4) with 0. rewrite (sub_first c0 _ 4 L0), (sub_second c0 c1 c2 4 L0 L1), (sub_third c0 c1 c2 4 L0 L1 L2).
  unfold c0, c1, c2. rewrite !i32_f32, !f32_to_f64_spec, !enc_f32. unfold world_position32, world32. change (0 * 4) with 0. change (1 * 4) with 4. change (2 * 4) with 8. reflexivity.
Qed.
Lemma flag_value k v shift bits mask : (0 <= shift)%Z -> (0 <= bits)%Z -> mask = Z.ones bits ->
  le_enc k (Z.land (Z.shiftr (le_dec v) shift) mask) = le_enc k ((le_dec v / 2 ^ shift) mod 2 ^ bits).
Proof. intros A B M. rewrite (land_ones_mod _ bits mask B M), Z.shiftr_div_pow2 by exact A. reflexivity. Qed.

(* ---------- what the converter does ---------- *)
Definition raw_ok (ext : bool) (raw : layout) : Prop :=
  good_layout raw
  /\ (exists m, In m (l_attrs raw) /\ m_def m = ATTRIBUTE_LOCAL_LAS_POSITION)
  /\ (exists m, In m (l_attrs raw) /\ m_def m = if ext then ATTRIBUTE_EXTENDED_FLAGS else ATTRIBUTE_BASIC_FLAGS)
  /\ (forall s, In s packed_names -> ~ In s (map m_name (l_attrs raw)))
  /\ (ext = true -> ~ In "LASBasicFlags"%string (map m_name (l_attrs raw))).

Lemma raw_flags ext raw : raw_ok ext raw -> has_attribute raw ATTRIBUTE_BASIC_FLAGS = negb ext.
Proof.
  intros (G & _ & (m & I & D) & _ & B). unfold has_attribute. destruct ext; cbn [negb].
  - apply not_true_iff_false. intros E. apply existsb_exists in E. destruct E as (m' & I' & E). apply attr_def_eqb_eq in E.
    apply (B eq_refl). apply in_map_iff. exists m'. split; [|exact I']. unfold m_name. rewrite E. reflexivity.
  - apply existsb_exists. exists m. split; [exact I|]. change (attr_def_eqb (m_def m) ATTRIBUTE_BASIC_FLAGS = true). rewrite D. apply attr_def_eqb_refl.
Qed.

Lemma find_named raw m : good_layout raw -> In m (l_attrs raw) -> find (fun m' => String.eqb (m_name m') (m_name m)) (l_attrs raw) = Some m.
Proof. intros G I. apply (get_by_name_spec raw (m_name m) m); [apply G|auto]. Qed.

Lemma converted_value ext raw target t tm rec old : raw_ok ext raw -> good_layout target -> In tm (l_attrs target) -> position_type_ok target ->
  converted raw (table_calls target (las_table ext t)) tm rec old = read_value ext raw t tm rec old.
Proof.
  intros (G & (pm & PI & PD) & (fm & FI & FD) & PN & _) GT I PT. unfold converted, mapped_from.
  rewrite (find_calls target (las_table ext t) tm GT I (table_names ext t) (table_to ext t)).
  unfold las_table. cbn [find]. unfold read_value. change (fst (position_entry t)) with "Position3D"%string.
  rewrite (String.eqb_sym (m_name tm) "Position3D"). destruct (String.eqb_spec "Position3D" (m_name tm)) as [E|NE].
  - cbn [option_map]. assert (PF : find (fun m => String.eqb (m_name m) "LASLocalPosition") (l_attrs raw) = Some pm).
    { rewrite <- (find_named raw pm G PI). unfold m_name at 3. rewrite PD. reflexivity. }
    assert (PM : member_of raw ATTRIBUTE_LOCAL_LAS_POSITION = Some pm) by (rewrite <- PD; now apply member_of_In).
    assert (PTy : m_type pm = Vec3i32) by (unfold m_type; rewrite PD; reflexivity). cbv zeta. rewrite PF. cbn [option_map].
    unfold position_entry. cbn [snd]. destruct (PT tm I (eq_sym E)) as [T|T]; rewrite T; cbn [call_from]; rewrite PM; cbn [option_map]; rewrite PTy.
    + apply position_f64.
    + apply position_f32.
  - cbv zeta. unfold flag_bits. cbv zeta.
    assert (FF : find (fun m => String.eqb (m_name m) (ad_name (m_def fm))) (l_attrs raw) = Some fm) by exact (find_named raw fm G FI).
    assert (FM : member_of raw (m_def fm) = Some fm) by now apply member_of_In.
    assert (FT : m_type fm = ad_type (m_def fm)) by reflexivity. rewrite FD in *.
    destruct ext; unfold flag_table, flag_entry;
      cbn [map find fst snd ad_name RETURN_NUMBER NUMBER_OF_RETURNS CLASSIFICATION_FLAGS SCANNER_CHANNEL SCAN_DIRECTION_FLAG EDGE_OF_FLIGHT_LINE];
      cbn [ad_name ad_type ATTRIBUTE_EXTENDED_FLAGS ATTRIBUTE_BASIC_FLAGS] in FF, FT;
      repeat match goal with
      | |- context [if ?b then _ else _] => destruct b;
          [cbn [option_map fst snd call_from]; rewrite FM, FF; cbn [option_map]; rewrite FT; apply f_equal; apply flag_value; [lia|lia|reflexivity]|]
      end; cbn [option_map];
      (destruct (find (fun sm => String.eqb (m_name sm) (m_name tm)) (l_attrs raw)); reflexivity).
Qed.
