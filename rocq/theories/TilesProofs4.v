(* Metadata of PNTS files: proofs. *)
From Coq Require Import String List ZArith Lia Bool Arith SpecFloat.
From Verif Require Import Base LayoutModel NumModel MathModel MathSpec PntsModel TilesModel TilesSpec TilesProofs TilesProofs2 TilesProofs3.
Import ListNotations.
Local Open Scope string_scope.
Open Scope nat_scope.

Lemma array_entry_spec {A} h k (f : list json -> res A) (g : option ft_value -> option A) :
  (forall l, f l <> Panic) -> g None = None -> (forall v, g (Some (SingleValue v)) = None) -> (forall o t, g (Some (DataReference o t)) = None) ->
  (forall l, g (Some (ArrayValue l)) = match f l with Ok a => Some a | _ => None end) ->
  match array_entry h k f with Ok o => absent_or g h k /\ o = g (assoc k h) | Err => ~ absent_or g h k | Panic => False end.
Proof.
  intros NP GN GS GD GA. unfold array_entry, absent_or. destruct (assoc k h) as [[v|l|o t]|].
  - rewrite GS. intros [E|E]; [discriminate E|now apply E].
  - rewrite GA. specialize (NP l). destruct (f l) as [a| |]; cbn [bind]; [split; [right; discriminate|reflexivity]| |now apply NP]. intros [E|E]; [discriminate E|now apply E].
  - rewrite GD. intros [E|E]; [discriminate E|now apply E].
  - split; [now left|now rewrite GN].
Qed.
Lemma number_entry_spec h k :
  match number_entry h k with Ok o => absent_or unsigned h k /\ o = unsigned (assoc k h) | Err => ~ absent_or unsigned h k | Panic => False end.
Proof.
  unfold number_entry, absent_or, unsigned. destruct (assoc k h) as [[v|l|o t]|]; try (intros [E|E]; [discriminate E|now apply E]); [|split; [now left|reflexivity]].
  destruct v as [|b|z|f|s|l|fs]; cbn [as_u64]; try (intros [E|E]; [discriminate E|now apply E]).
  destruct ((0 <=? z) && (z <? 2 ^ 64))%Z; [split; [right; discriminate|reflexivity]|intros [E|E]; [discriminate E|now apply E]].
Qed.
Lemma vec3_spec l : three_numbers (Some (ArrayValue l)) = match json_arr_to_vec3f64 l with Ok a => Some a | _ => None end.
Proof.
  unfold three_numbers, json_arr_to_vec3f64. destruct l as [|a [|b [|c [|d l]]]]; cbn [map]; try reflexivity.
  - now destruct (as_f64 a).
  - now destruct (as_f64 a), (as_f64 b).
  - now destruct (as_f64 a), (as_f64 b), (as_f64 c).
  - now destruct (as_f64 a), (as_f64 b), (as_f64 c).
Qed.
Lemma vec3_no_panic l : json_arr_to_vec3f64 l <> Panic.
Proof.
  unfold json_arr_to_vec3f64. destruct l as [|a [|b [|c [|d l]]]]; cbn [map]; try discriminate.
  - now destruct (as_f64 a).
  - now destruct (as_f64 a), (as_f64 b).
  - now destruct (as_f64 a), (as_f64 b), (as_f64 c).
  - now destruct (as_f64 a), (as_f64 b), (as_f64 c).
Qed.
Lemma byte_spec v : byte_number v = match as_u64 v with Some z => if (z <? 256)%Z then Some z else None | None => None end.
Proof.
  destruct v as [|b|z|f|s|l|fs]; try reflexivity. cbn [byte_number as_u64].
  destruct (Z.leb_spec 0 z); cbn [andb]; [|reflexivity]. destruct (Z.ltb_spec z 256) as [L|G]; destruct (Z.ltb_spec z (2 ^ 64)) as [L'|G']; try reflexivity.
  - destruct (Z.ltb_spec z 256); [reflexivity|lia].
  - exfalso. assert (256 < 2 ^ 64)%Z by reflexivity. lia.
  - destruct (Z.ltb_spec z 256); [lia|reflexivity].
Qed.
Lemma vec4_spec l : four_bytes (Some (ArrayValue l)) = match json_arr_to_vec4u8 l with Ok a => Some a | _ => None end.
Proof.
  unfold four_bytes, json_arr_to_vec4u8. destruct l as [|a [|b [|c [|d [|e l]]]]]; try reflexivity. cbn [List.length Nat.eqb andb forallb map].
  rewrite !byte_spec. destruct (as_u64 a) as [x|]; [|reflexivity]. destruct (as_u64 b) as [y|]; [|cbn; now destruct (x <? 256)%Z].
  destruct (as_u64 c) as [z|]; [|cbn; now destruct (x <? 256)%Z, (y <? 256)%Z]. destruct (as_u64 d) as [w|]; [|cbn; now destruct (x <? 256)%Z, (y <? 256)%Z, (z <? 256)%Z].
  now destruct (x <? 256)%Z, (y <? 256)%Z, (z <? 256)%Z, (w <? 256)%Z.
Qed.
Lemma vec4_no_panic l : json_arr_to_vec4u8 l <> Panic.
Proof. unfold json_arr_to_vec4u8. destruct (_ && _); discriminate. Qed.
Definition three_f32 (e : option ft_value) := option_map (map_point to_f32) (three_numbers e).
Lemma vec3f32_spec l : three_f32 (Some (ArrayValue l)) = match json_arr_to_vec3f32 l with Ok a => Some a | _ => None end.
Proof. unfold three_f32. rewrite vec3_spec. unfold json_arr_to_vec3f32. now destruct (json_arr_to_vec3f64 l). Qed.
Lemma vec3f32_no_panic l : json_arr_to_vec3f32 l <> Panic.
Proof. unfold json_arr_to_vec3f32. pose proof (vec3_no_panic l). now destruct (json_arr_to_vec3f64 l). Qed.
Lemma absent_f32 h k : absent_or three_f32 h k <-> absent_or three_numbers h k.
Proof. unfold absent_or, three_f32. destruct (three_numbers (assoc k h)); cbn [option_map]; split; intros [E|E]; auto; try (right; discriminate). Qed.

Definition good_metadata (h : ft_header) (m : pnts_metadata) : Prop :=
  Some (pm_points_length m) = unsigned (assoc "POINTS_LENGTH" h) /\ pm_rtc_center m = three_numbers (assoc "RTC_CENTER" h)
  /\ pm_volume_offset m = three_f32 (assoc "QUANTIZED_VOLUME_OFFSET" h) /\ pm_volume_scale m = three_f32 (assoc "QUANTIZED_VOLUME_SCALE" h)
  /\ pm_constant_rgba m = four_bytes (assoc "CONSTANT_RGBA" h) /\ pm_batch_length m = unsigned (assoc "BATCH_LENGTH" h).
Lemma metadata_spec h : match metadata_of_table h with Ok m => table_ok h /\ good_metadata h m | Err => ~ table_ok h | Panic => False end.
Proof.
  unfold metadata_of_table, table_ok, good_metadata.
  pose proof (number_entry_spec h "POINTS_LENGTH") as N. destruct (number_entry h "POINTS_LENGTH") as [n| |]; cbn [bind]; [| |destruct N].
  2: { intros (U & _). apply N. now right. }
  destruct N as [NA NE]. destruct n as [n|]; cbn [bind]; [|intros (U & _); now rewrite <- NE in U].
  pose proof (array_entry_spec h "RTC_CENTER" json_arr_to_vec3f64 three_numbers vec3_no_panic eq_refl (fun _ => eq_refl) (fun _ _ => eq_refl) vec3_spec) as R.
  destruct (array_entry h "RTC_CENTER" json_arr_to_vec3f64) as [c| |]; cbn [bind]; [|tauto|destruct R].
  pose proof (array_entry_spec h "QUANTIZED_VOLUME_OFFSET" json_arr_to_vec3f32 three_f32 vec3f32_no_panic eq_refl (fun _ => eq_refl) (fun _ _ => eq_refl) vec3f32_spec) as O. pose proof (absent_f32 h "QUANTIZED_VOLUME_OFFSET") as AO.
  destruct (array_entry h "QUANTIZED_VOLUME_OFFSET" json_arr_to_vec3f32) as [o| |]; cbn [bind]; [|tauto|destruct O].
  pose proof (array_entry_spec h "QUANTIZED_VOLUME_SCALE" json_arr_to_vec3f32 three_f32 vec3f32_no_panic eq_refl (fun _ => eq_refl) (fun _ _ => eq_refl) vec3f32_spec) as S. pose proof (absent_f32 h "QUANTIZED_VOLUME_SCALE") as AS.
  destruct (array_entry h "QUANTIZED_VOLUME_SCALE" json_arr_to_vec3f32) as [s| |]; cbn [bind]; [|tauto|destruct S].
  pose proof (array_entry_spec h "CONSTANT_RGBA" json_arr_to_vec4u8 four_bytes vec4_no_panic eq_refl (fun _ => eq_refl) (fun _ _ => eq_refl) vec4_spec) as A.
  destruct (array_entry h "CONSTANT_RGBA" json_arr_to_vec4u8) as [a| |]; cbn [bind]; [|tauto|destruct A].
  pose proof (number_entry_spec h "BATCH_LENGTH") as B. destruct (number_entry h "BATCH_LENGTH") as [b| |]; cbn [bind]; [|tauto|destruct B].
  cbn [pm_points_length pm_rtc_center pm_volume_offset pm_volume_scale pm_constant_rgba pm_batch_length].
  assert (U : unsigned (assoc "POINTS_LENGTH" h) <> None) by (rewrite <- NE; discriminate). destruct R, O, S, A, B. apply AO in H1. apply AS in H3. repeat split; assumption.
Qed.
Lemma metadata_fields h m : metadata_of_table h = Ok m ->
  pm_number_of_points m = unsigned (assoc "POINTS_LENGTH" h) /\ pm_bounds m = None
  /\ (forall name, name <> "BATCH_LENGTH" -> pm_named_field m name = stated_field h name)
  /\ pm_named_field m "BATCH_LENGTH" = Some (AnyOptionUsize (unsigned (assoc "BATCH_LENGTH" h))).
Proof.
  intros E. pose proof (metadata_spec h) as S. rewrite E in S. destruct S as (_ & N & R & O & C & A & B).
  split; [exact N|]. split; [reflexivity|]. split.
  - intros name NB. unfold pm_named_field, stated_field. destruct (String.eqb_spec name "RTC_CENTER") as [->|_]; [now rewrite R|].
    destruct (String.eqb_spec name "QUANTIZED_VOLUME_OFFSET") as [->|_]; cbn [orb]; [rewrite O; unfold three_f32; destruct (three_numbers (assoc "QUANTIZED_VOLUME_OFFSET" h)); reflexivity|].
    destruct (String.eqb_spec name "QUANTIZED_VOLUME_SCALE") as [->|_]; [rewrite C; unfold three_f32; destruct (three_numbers (assoc "QUANTIZED_VOLUME_SCALE" h)); reflexivity|].
    destruct (String.eqb_spec name "CONSTANT_RGBA") as [->|_]; [now rewrite A|]. now destruct (String.eqb_spec name "BATCH_LENGTH").
  - unfold pm_named_field. cbn [String.eqb Ascii.eqb Bool.eqb]. now rewrite B.
Qed.
Lemma metadata_iff h : (exists m, metadata_of_table h = Ok m) <-> table_ok h.
Proof.
  pose proof (metadata_spec h) as S. destruct (metadata_of_table h) as [m| |]; [|split; [intros [m E]; discriminate E|intros T; destruct (S T)]|destruct S].
  split; [now intros _|]. intros _. now exists m.
Qed.
Lemma metadata_agrees h : metadata_from_feature_table_header h = let* m := metadata_of_table h in Ok (pm_points_length m, pm_rtc_center m).
Proof.
  unfold metadata_from_feature_table_header, metadata_of_table. destruct (number_entry h "POINTS_LENGTH") as [[n|]| |]; cbn [bind]; try reflexivity.
  destruct (array_entry h "RTC_CENTER" json_arr_to_vec3f64); cbn [bind]; try reflexivity.
  assert (G : forall k, (exists a b, array_entry h k json_arr_to_vec3f64 = Ok a /\ array_entry h k json_arr_to_vec3f32 = Ok b)
    \/ (array_entry h k json_arr_to_vec3f64 = Err /\ array_entry h k json_arr_to_vec3f32 = Err)).
  { intros k. unfold array_entry, json_arr_to_vec3f32. destruct (assoc k h) as [[v|l|o t]|]; auto; [|left; eauto]. pose proof (vec3_no_panic l).
    destruct (json_arr_to_vec3f64 l); cbn [bind]; [left; eauto|auto|congruence]. }
  destruct (G "QUANTIZED_VOLUME_OFFSET") as [(x & y & -> & ->)|[-> ->]]; cbn [bind]; [|reflexivity].
  destruct (G "QUANTIZED_VOLUME_SCALE") as [(x' & y' & -> & ->)|[-> ->]]; cbn [bind]; [|reflexivity].
  destruct (array_entry h "CONSTANT_RGBA" json_arr_to_vec4u8); cbn [bind]; try reflexivity.
  now destruct (number_entry h "BATCH_LENGTH").
Qed.
Lemma reader_metadata c bytes r : from_read c bytes = Ok r -> exists size h m,
  deser_feature_table_header c (skipn HEADER_LENGTH bytes) size = Ok h /\ metadata_of_table h = Ok m
  /\ pm_number_of_points m = Some (pr_num r) /\ pm_named_field m "RTC_CENTER" = option_map AnyVec3f64 (pr_rtc r).
Proof.
  unfold from_read. destruct (read_header bytes) as [hd| |]; cbn [bind]; try discriminate.
  destruct (deser_feature_table_header c (skipn HEADER_LENGTH bytes) (Z.to_nat (ph_ft_json hd))) as [h| |] eqn:D; cbn [bind]; try discriminate.
  destruct (layout_from_feature_table_header h) as [l| |]; cbn [bind]; try discriminate. rewrite metadata_agrees.
  destruct (metadata_of_table h) as [m| |] eqn:M; cbn [bind]; try discriminate. destruct (mapM _ (snd l)); cbn [bind]; try discriminate. intros [= <-]. exists (Z.to_nat (ph_ft_json hd)), h, m. cbn [pr_num pr_rtc fst snd]. auto.
Qed.
