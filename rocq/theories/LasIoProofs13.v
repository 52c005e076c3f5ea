(* Positions written by write_all and read by read_all. *)
From Coq Require Import String List ZArith Reals Lia Lra Bool SpecFloat.
From Flocq Require Import Core BinarySingleNaN.
From Verif Require Import Base LayoutModel BufferModel BufferSpec TraitModel TraitSpec NumModel NumSpec MathModel MathSpec LasModel LasSpec LasIoModel LasIoSpec VoxSpec LasGridSpec LasFloat LasFloat2 LasGridExamples
  LasIoProofs12.
Import ListNotations.
Open Scope nat_scope.

Lemma thousandth_number : number f64_thousandth = (4611686018427388 / 4611686018427387904)%R.
Proof. unfold number, f64_thousandth. cbn [SF2R]. unfold F2R. cbn [Fnum Fexp cond_Zopp bpow]. change (Z.pow_pos radix2 62) with 4611686018427387904%Z. lra. Qed.
Lemma zero_moderate : moderate f64_zero.
Proof. split; [split; [exact I|exact I]|]. unfold number, f64_zero. cbn [SF2R]. rewrite Rabs_R0. apply bpow_ge_0. Qed.
Lemma in_range_reachable c : in_millimetre_range c -> reachable c f64_zero f64_thousandth.
Proof.
  intros (R & B). split; [split; [exact R|]|].
  - apply Rle_trans with (1 := B). apply Rle_trans with (bpow radix2 22); [change (bpow radix2 22) with 4194304%R; lra|apply bpow_le; lia].
  - split; [exact zero_moderate|]. split; [apply scale_number; lia|]. rewrite thousandth_number. unfold f64_zero, number at 2. cbn [SF2R]. rewrite Rminus_0_r.
    change (2 ^ 31 - 1)%Z with 2147483647%Z. lra.
Qed.
Lemma step_millimetre c c' : one_step c f64_zero f64_thousandth c' -> within_millimetre c c'.
Proof.
  unfold one_step, within_millimetre. rewrite thousandth_number. unfold f64_zero, number at 3. cbn [SF2R]. rewrite Rabs_R0. intros H.
  assert (E : bpow radix2 (-50) = (/ 1125899906842624)%R) by reflexivity. rewrite E in H. change (2 ^ 33)%Z with 8589934592%Z in H. lra.
Qed.
Lemma in_range_stored p : p3_all in_millimetre_range p -> exists bs, grid_position default_transforms p = Some bs
  /\ within_millimetre (px p) (px (vec3_f64 (world_position default_transforms bs)))
  /\ within_millimetre (py p) (py (vec3_f64 (world_position default_transforms bs)))
  /\ within_millimetre (pz p) (pz (vec3_f64 (world_position default_transforms bs))).
Proof.
  intros (A & B & C). destruct (positions_step default_transforms p) as (bs & E & S1 & S2 & S3); [split; [|split]; apply in_range_reachable; assumption|].
  exists bs. split; [exact E|]. split; [|split]; apply step_millimetre; assumption.
Qed.
Lemma default_position n f l0 tm : format_new n = Ok f -> las_type_layout n = Ok l0 -> In tm (l_attrs l0) -> m_name tm = "Position3D"%string -> m_def tm = POSITION_3D.
Proof. intros F L I N. destruct (LasIoProofs10.default_named n f l0 tm F L I) as (A & _). rewrite N in A. injection A as A. symmetry. exact A. Qed.
Lemma write_read_positions chunk chunk' laz k b n : 0 < chunk -> bf_wf b -> format_to_u8 (las_point_format_from_point_layout (bf_layout b)) = Ok n ->
  (laz = true -> n <> 9 /\ n <> 10) -> record_length n <= chunk' -> (forall p, In p (bf_points b) -> representable n default_transforms (bf_layout b) p) ->
  exists f b', write_all chunk laz b = Ok f /\ read_all chunk' k f = Ok b' /\ mb_len b' = bf_len b
  /\ forall i p v tm, nth_error (bf_points b) i = Some p -> las_value (bf_layout b) POSITION_3D p = Some v -> In tm (l_attrs (mb_layout b')) -> m_name tm = "Position3D"%string ->
     p3_all in_millimetre_range (vec3_f64 v) ->
     exists p', nth_error (mb_points b') i = Some p'
     /\ within_millimetre (px (vec3_f64 v)) (px (vec3_f64 (attr_value tm p'))) /\ within_millimetre (py (vec3_f64 v)) (py (vec3_f64 (attr_value tm p')))
     /\ within_millimetre (pz (vec3_f64 v)) (pz (vec3_f64 (attr_value tm p'))).
Proof.
  intros C W E LZ CH REP. pose proof (chosen_format _ _ E) as F. destruct (LasIoProofs4.default_exists n _ F) as (l0 & L).
  destruct (write_read chunk chunk' laz k b n l0 C W E L LZ CH REP) as (f & b' & WA & RA & _ & LB & NB & V).
  exists f, b'. split; [exact WA|]. split; [exact RA|]. split; [exact NB|]. intros i p v tm NP LV IT N R. rewrite LB in IT. destruct (V i p tm NP IT) as (p' & NP' & CB).
  exists p'. split; [exact NP'|]. unfold came_back in CB. rewrite N in CB. change (String.eqb "Position3D" "Position3D") with true in CB. cbv iota in CB.
  rewrite (default_position n _ l0 tm F L IT N), LV in CB. cbn [option_map] in CB. destruct (in_range_stored _ R) as (bs & G & S). rewrite G in CB. injection CB as <-. exact S.
Qed.
