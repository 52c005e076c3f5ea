(* Lemmas about LAS records: what write_record writes, and that a record determines its fields. *)
From Coq Require Import String List ZArith Lia Bool Arith SpecFloat ZifyBool ZifyNat ZifyN.
From Verif Require Import Base LayoutModel LayoutSpec BufferModel BufferSpec ListLemmas
  NumModel NumProofs ConvModel ConvSpec MathModel LasModel LasSpec LasProofs LasProofs2 LasIoModel LasIoSpec LasIoProofs.
Import ListNotations.
Open Scope nat_scope.

(* ---------- coordinates ---------- *)
Lemma quot_trunc (m : positive) d : (0 < d)%Z -> Z.quot (Zneg m) d = (- (Zpos m / d))%Z.
Proof. intros H. change (Zneg m) with (- Zpos m)%Z. rewrite Z.quot_opp_l by lia. f_equal. apply Z.quot_div_nonneg; lia. Qed.
Lemma trunc_toward_zero s m e : toward_zero (S754_finite s m e) = Some (trunc_float s m e).
Proof.
  unfold toward_zero, trunc_float. destruct (Z.leb_spec 0 e) as [H|H].
  - destruct s; [|reflexivity]. f_equal. change (Zneg m) with (- Zpos m)%Z. lia.
  - assert (P : (0 < 2 ^ (- e))%Z) by (apply Z.pow_pos_nonneg; lia).
    destruct s; f_equal; [apply quot_trunc; exact P|apply Z.quot_div_nonneg; lia].
Qed.
Lemma local_grid p offset scale : local_coordinate p offset scale = match grid p offset scale with Some v => Ok v | None => Panic end.
Proof.
  unfold local_coordinate, grid. generalize (f64_div (f64_sub p offset) scale). intros x.
  unfold as_cast. cbn [kind].
  change (int_min true (bits PI64)) with (- 2 ^ 63)%Z. change (int_max true (bits PI64)) with (2 ^ 63 - 1)%Z.
  destruct x as [s|s| |s m e].
  - reflexivity.
  - destruct s; reflexivity.
  - reflexivity.
  - rewrite trunc_toward_zero. generalize (trunc_float s m e). intros v.
    change (2 ^ 63)%Z with 9223372036854775808%Z. change (2 ^ 31)%Z with 2147483648%Z.
    set (w := Z.max _ _).
    assert (Q : (((- (2147483648) <=? w) && (w <? 2147483648)) = ((- (2147483648) <=? v) && (v <? 2147483648)))%Z) by (unfold w; lia).
    rewrite Q. destruct ((- (2147483648) <=? v) && (v <? 2147483648))%Z eqn:R; [|reflexivity]. f_equal. unfold w. lia.
Qed.
Lemma write_position_spec t p : write_position_as_las_position t p = match grid_position t p with Some bs => Ok bs | None => Panic end.
Proof.
  unfold write_position_as_las_position, grid_position. rewrite !local_grid.
  destruct (grid (px p) (px (t_offset t)) (px (t_scale t))) as [x|]; [|reflexivity].
  destruct (grid (py p) (py (t_offset t)) (py (t_scale t))) as [y|]; [|reflexivity].
  destruct (grid (pz p) (pz (t_offset t)) (pz (t_scale t))) as [z|]; reflexivity.
Qed.
Lemma length_le_enc n : forall v, length (le_enc n v) = n.
Proof. induction n; intros v; simpl; [reflexivity|]. rewrite IHn. reflexivity. Qed.
Lemma length_grid t p bs : grid_position t p = Some bs -> length bs = 12.
Proof.
  unfold grid_position. destruct (grid (px p) (px (t_offset t)) (px (t_scale t))); [|discriminate].
  destruct (grid (py p) (py (t_offset t)) (py (t_scale t))); [|discriminate].
  destruct (grid (pz p) (pz (t_offset t)) (pz (t_scale t))); [|discriminate]. intros [= <-].
  reflexivity.
Qed.

(* ---------- flag bytes as numbers ---------- *)
Lemma basic_sum_all :
  forallb (fun rn => forallb (fun nr => forallb (fun sd => forallb (fun eof =>
    same_bytes (write_las_bit_attributes (Regular rn nr sd eof)) [rn + 8 * nr + 64 * sd + 128 * eof]%Z) (zrange 2)) (zrange 2)) (zrange 8)) (zrange 8) = true.
Proof. vm_compute. reflexivity. Qed.
Lemma basic_sum rn nr sd eof :
  write_las_bit_attributes (Regular rn nr sd eof) = [rn mod 8 + 8 * (nr mod 8) + 64 * (sd mod 2) + 128 * (eof mod 2)]%Z.
Proof.
  rewrite write_bits_regular. apply same_bytes_eq.
  pose proof (for_all_range _ _ (for_all_range _ _ (for_all_range _ _ (for_all_range _ _ basic_sum_all _ (Z.mod_pos_bound rn 8 ltac:(lia)))
    _ (Z.mod_pos_bound nr 8 ltac:(lia))) _ (Z.mod_pos_bound sd 2 ltac:(lia))) _ (Z.mod_pos_bound eof 2 ltac:(lia))) as H. exact H.
Qed.
Lemma extended_sum rn nr cf sc sd eof :
  write_las_bit_attributes (Extended rn nr cf sc sd eof)
  = [rn mod 16 + 16 * (nr mod 16); cf mod 16 + 16 * (sc mod 4) + 64 * (sd mod 2) + 128 * (eof mod 2)]%Z.
Proof.
  rewrite write_bits_extended. unfold write_las_bit_attributes.
  pose proof (for_all_range _ _ (for_all_range _ _ low_all _ (Z.mod_pos_bound rn 16 ltac:(lia))) _ (Z.mod_pos_bound nr 16 ltac:(lia))) as L. cbv beta in L.
  pose proof (for_all_range _ _ (for_all_range _ _ (for_all_range _ _ (for_all_range _ _ high_all _ (Z.mod_pos_bound cf 16 ltac:(lia)))
    _ (Z.mod_pos_bound sc 4 ltac:(lia))) _ (Z.mod_pos_bound sd 2 ltac:(lia))) _ (Z.mod_pos_bound eof 2 ltac:(lia))) as G. cbv beta in G.
  apply Z.eqb_eq in L, G. rewrite L, G. reflexivity.
Qed.

(* ---------- records ---------- *)
Lemma getter_ok f l p v k b a g : values_are f l p v -> nth_error (getters f) k = Some (b, a, g) -> b = true ->
  las_value l a p = Some (g v) /\ length (g v) = dt_size (ad_type a).
Proof. unfold values_are. rewrite Forall_forall. intros H N B. exact (H _ (nth_error_In _ _ N) B). Qed.

Ltac known V k :=
  let E := fresh "E" in let N := fresh "N" in
  destruct (getter_ok _ _ _ _ k _ _ _ V eq_refl eq_refl) as [E N];
  match type of N with _ = ?d => let d' := eval vm_compute in d in change d with d' in N end.

Lemma write_record_ok n f x t l p v : format_new n = Ok f -> values_are f l p v ->
  match write_record (with_extra_bytes f x) t v with
  | Ok r => record_of n t l p r /\ grid_position t (vec3_f64 (v_position v)) = Some (sub r 0 12)
  | Err => False
  | Panic => grid_position t (vec3_f64 (v_position v)) = None
  end.
Proof.
  intros F V. unfold write_record. rewrite write_position_spec.
  destruct (grid_position t (vec3_f64 (v_position v))) as [pos|] eqn:GP; cbn [bind]; [|reflexivity].
  pose proof (length_grid _ _ _ GP) as LP.
  each_format F.
  all: unfold with_extra_bytes; cbn [is_extended has_gps_time has_color has_nir has_waveform Nat.eqb Nat.leb orb]; cbv iota; rewrite ?basic_sum, ?extended_sum.
  all: known V 0; known V 1; known V 2; known V 3; known V 6; known V 7; known V 8; known V 9; known V 10; known V 11.
  all: try (known V 4; known V 5).
  all: try known V 12.
  all: try known V 13.
  all: try known V 14.
  all: try (known V 15; known V 16; known V 17; known V 18; known V 19).
  all: cbn [is_extended Nat.leb] in *.
  all: clear V.
  all: match goal with
       | |- record_of _ ?t ?l ?p (?q ++ _ ++ [?a] ++ _) /\ _ =>
           assert (FB : field_bytes l t "LASBasicFlags" p = Some [a])
             by (unfold field_bytes; cbn [String.eqb Ascii.eqb Bool.eqb]; unfold small; repeat (match goal with H : las_value l _ p = Some _ |- _ => rewrite H end); reflexivity);
           set (fl := [a]) in *; assert (LF : length fl = 1) by reflexivity; clearbody fl
       | |- record_of _ ?t ?l ?p (?q ++ _ ++ [?a; ?b] ++ _) /\ _ =>
           assert (FB : field_bytes l t "LASExtendedFlags" p = Some [a; b])
             by (unfold field_bytes; cbn [String.eqb Ascii.eqb Bool.eqb]; unfold small; repeat (match goal with H : las_value l _ p = Some _ |- _ => rewrite H end); reflexivity);
           set (fl := [a; b]) in *; assert (LF : length fl = 2) by reflexivity; clearbody fl
       end.
  all: rewrite <- ?app_assoc, ?app_nil_l, ?app_nil_r.
  all: split; [split; [rewrite !app_length; unfold record_length; cbn [nth]; lia|]|f_equal; symmetry; find_field].
  all: intros field o s I; cbn [In las_record record_0 record_6 wave_record app] in I.
  all: repeat (destruct I as [I|I]; [injection I as <- <- <-|]); [..|destruct I].
  all: first [unfold field_bytes; cbn [String.eqb Ascii.eqb Bool.eqb]; rewrite E; etransitivity; [exact GP|f_equal; symmetry; find_field]
             |etransitivity; [exact FB|f_equal; symmetry; find_field]
             |match goal with |- context [field_bytes ?l ?t ?s ?p] =>
                let a := eval vm_compute in (las_attribute s) in
                match a with Some ?a => change (field_bytes l t s p) with (las_value l a p) end end;
              match goal with H : las_value _ _ _ = _ |- _ => etransitivity; [exact H|f_equal; symmetry; find_field] end].
Qed.

Lemma write_record_no_extra n f t l p v : format_new n = Ok f -> values_are f l p v ->
  match write_record f t v with
  | Ok r => record_of n t l p r /\ grid_position t (vec3_f64 (v_position v)) = Some (sub r 0 12)
  | Err => False
  | Panic => ~ representable n t l p
  end.
Proof.
  intros F V. pose proof (write_record_ok n f 0 t l p v F V) as H. rewrite (with_extra_0 _ _ F) in H.
  destruct (write_record f t v) as [r| |]; auto. intros R. destruct (getter_ok _ _ _ _ 0 _ _ _ V eq_refl eq_refl) as [E _].
  apply (R "LASLocalPosition"%string 0 12).
  - pose proof (eleven _ (format_new_iff _ _ F)) as L. repeat (destruct L as [->|L]); try subst n; left; reflexivity.
  - unfold field_bytes. cbn [String.eqb Ascii.eqb Bool.eqb]. rewrite E. exact H.
Qed.

(* every value that is read is needed for a field *)
Definition needed_for (n : nat) (a : attr_def) (field : string) : Prop :=
  forall l t p, las_value l a p = None -> field_bytes l t field p = None.
Lemma needed_position n : needed_for n POSITION_3D "LASLocalPosition".
Proof. intros l t p E. unfold field_bytes. cbn [String.eqb Ascii.eqb Bool.eqb]. rewrite E. reflexivity. Qed.
Lemma needed_basic n a : In a [RETURN_NUMBER; NUMBER_OF_RETURNS; SCAN_DIRECTION_FLAG; EDGE_OF_FLIGHT_LINE] -> needed_for n a "LASBasicFlags".
Proof.
  intros I l t p E. unfold field_bytes. cbn [String.eqb Ascii.eqb Bool.eqb]. unfold small.
  repeat (destruct I as [<-|I]; [rewrite E; cbn [option_map]; try reflexivity; repeat (match goal with |- context [option_map le_dec ?o] => destruct (option_map le_dec o) end; try reflexivity)|]).
  destruct I.
Qed.
Lemma needed_extended n a :
  In a [RETURN_NUMBER; NUMBER_OF_RETURNS; CLASSIFICATION_FLAGS; SCANNER_CHANNEL; SCAN_DIRECTION_FLAG; EDGE_OF_FLIGHT_LINE] -> needed_for n a "LASExtendedFlags".
Proof.
  intros I l t p E. unfold field_bytes. cbn [String.eqb Ascii.eqb Bool.eqb]. unfold small.
  repeat (destruct I as [<-|I]; [rewrite E; cbn [option_map]; try reflexivity; repeat (match goal with |- context [option_map le_dec ?o] => destruct (option_map le_dec o) end; try reflexivity)|]).
  destruct I.
Qed.
Ltac pick := first [left; reflexivity|right; pick].
Lemma missing_not_representable n f t l p : format_new n = Ok f -> value_missing f l p -> ~ representable n t l p.
Proof.
  intros F M R. unfold value_missing in M. rewrite Exists_exists in M. destruct M as (g & I & B & E).
  assert (X : exists field o s, In (field, o, s) (las_record n) /\ needed_for n (snd (fst g)) field).
  2:{ destruct X as (field & o & s & J & K). exact (R _ _ _ J (K l t p E)). }
  clear E R. unfold getters in I.
  each_format F; cbn [is_extended has_gps_time has_color has_nir has_waveform Nat.eqb Nat.leb orb] in I; cbn [In] in I;
  repeat (destruct I as [I|I]; [subst g; cbn [fst snd] in *; try discriminate B; clear B|]); try destruct I.
  all: first
    [exists "LASLocalPosition"%string; eexists; eexists; split; [left; reflexivity|exact (needed_position _)]
    |exists "LASBasicFlags"%string; eexists; eexists; split; [do 2 right; left; reflexivity|apply needed_basic; pick]
    |exists "LASExtendedFlags"%string; eexists; eexists; split; [do 2 right; left; reflexivity|apply needed_extended; pick]
    |match goal with |- context [needed_for _ ?a] => let s := eval vm_compute in (ad_name a) in exists s end; eexists; eexists;
     split; [pick|intros l' t' p' E; exact E]].
Qed.
