(* Positions on the grid of a LAS file, as the bytes of a record and of a Position3D attribute. *)
From Coq Require Import List ZArith Reals Lia Lra Bool SpecFloat.
From Flocq Require Import Core BinarySingleNaN.
From Verif Require LasIoProofs7.
From Verif Require Import Base NumModel NumSpec NumProofs NumProofs2 MathModel MathSpec LasModel LasIoModel LasIoSpec VoxModel VoxSpec FloatReal F64Real NormSpec NormFloat LasGridSpec LasFloat.
Import ListNotations.
Open Scope nat_scope.

Lemma in_skipn_firstn {A} (x : A) n m l : In x (firstn n (skipn m l)) -> In x l.
Proof. intros H. rewrite <- (firstn_skipn m l). apply in_or_app. right. rewrite <- (firstn_skipn n (skipn m l)). apply in_or_app. now left. Qed.
Lemma three_parts {A} (a b c : list A) n : length a = n -> length b = n -> length c = n ->
  sub (a ++ b ++ c) 0 n = a /\ sub (a ++ b ++ c) n n = b /\ sub (a ++ b ++ c) (n + n) n = c.
Proof.
  intros LA LB LC. unfold sub. split; [|split].
  - cbn [skipn]. rewrite firstn_app, LA, Nat.sub_diag, firstn_O, app_nil_r, <- LA. apply firstn_all.
  - rewrite skipn_app, LA, Nat.sub_diag. rewrite (skipn_all2 a) by lia. cbn [app skipn]. rewrite firstn_app, LB, Nat.sub_diag, firstn_O, app_nil_r, <- LB. apply firstn_all.
  - rewrite skipn_app, LA. rewrite (skipn_all2 a) by lia. cbn [app]. replace (n + n - n) with n by lia. rewrite skipn_app, LB, Nat.sub_diag, (skipn_all2 b) by lia. cbn [app skipn]. rewrite <- LC. apply firstn_all.
Qed.
Lemma signed32_le32 v : (- 2 ^ 31 <= v < 2 ^ 31)%Z -> signed32 (le32 v) = v.
Proof.
  intros R. unfold signed32, le32. rewrite le_dec_enc. change (256 ^ Z.of_nat 4)%Z with (2 ^ 32)%Z. rewrite !Z.mod_mod by lia.
  cbv zeta. destruct (Z_lt_le_dec v 0) as [N|N].
  - rewrite <- (Z_mod_plus_full v 1 (2 ^ 32)). rewrite Z.mod_small by lia. destruct (Z.leb_spec (2 ^ 31) (v + 1 * 2 ^ 32)); lia.
  - rewrite Z.mod_small by lia. destruct (Z.leb_spec (2 ^ 31) v); lia.
Qed.
Lemma le32_signed32 bs : is_bytes bs -> length bs = 4 -> le32 (signed32 bs) = bs.
Proof.
  intros B L. unfold le32, signed32. cbv zeta. assert (E : ((if 2 ^ 31 <=? le_dec bs mod 2 ^ 32 then le_dec bs mod 2 ^ 32 - 2 ^ 32 else le_dec bs mod 2 ^ 32) mod 2 ^ 32 = le_dec bs mod 2 ^ 32)%Z).
  { destruct (Z.leb_spec (2 ^ 31) (le_dec bs mod 2 ^ 32)); [|now rewrite Z.mod_mod by lia]. rewrite <- (Z_mod_plus_full _ 1 (2 ^ 32)). replace (le_dec bs mod 2 ^ 32 - 2 ^ 32 + 1 * 2 ^ 32)%Z with (le_dec bs mod 2 ^ 32)%Z by lia. now rewrite Z.mod_mod by lia. }
  rewrite E. pose proof (le_enc_dec bs B) as H. rewrite L in H. assert (D : (le_dec bs mod 2 ^ 32 = le_dec bs)%Z) by (rewrite <- H at 2; rewrite le_dec_enc; reflexivity). rewrite D. exact H.
Qed.
Lemma dec_f64_bytes x : real_f64 x -> dec_num PF64 (f64_bytes x) = NFlt x.
Proof.
  intros (F & V). apply f64_valid in V. destruct (dec_enc_float PF64 53 1024 x eq_refl V ltac:(intros ->; exact F)) as (E & _). exact E.
Qed.
Lemma length_f64_bytes x : length (f64_bytes x) = 8.
Proof. apply le_enc_length. Qed.
Lemma length_le32 v : length (le32 v) = 4.
Proof. apply le_enc_length. Qed.
Lemma vec3_of_bytes a b c : real_f64 a -> real_f64 b -> real_f64 c -> vec3_f64 (f64_bytes a ++ f64_bytes b ++ f64_bytes c) = mk_p3 a b c.
Proof.
  intros A B C. destruct (three_parts (f64_bytes a) (f64_bytes b) (f64_bytes c) 8 (length_f64_bytes a) (length_f64_bytes b) (length_f64_bytes c)) as (E1 & E2 & E3).
  unfold vec3_f64. change (0 * 8) with 0. change (1 * 8) with 8. change (2 * 8) with (8 + 8). rewrite E1, E2, E3, !dec_f64_bytes by assumption. reflexivity.
Qed.
Lemma world_of_three t x y z : (- 2 ^ 31 <= x < 2 ^ 31)%Z -> (- 2 ^ 31 <= y < 2 ^ 31)%Z -> (- 2 ^ 31 <= z < 2 ^ 31)%Z ->
  world_position t (le32 x ++ le32 y ++ le32 z)
  = f64_bytes (world x (px (t_scale t)) (px (t_offset t))) ++ f64_bytes (world y (py (t_scale t)) (py (t_offset t))) ++ f64_bytes (world z (pz (t_scale t)) (pz (t_offset t))).
Proof.
  intros X Y Z0. destruct (three_parts (le32 x) (le32 y) (le32 z) 4 (length_le32 x) (length_le32 y) (length_le32 z)) as (E1 & E2 & E3).
  unfold world_position. change 8 with (4 + 4). rewrite E1, E2, E3, !signed32_le32 by assumption. reflexivity.
Qed.
Lemma world_real k s o : (- 2 ^ 31 <= k < 2 ^ 31)%Z -> moderate_scale s -> moderate o -> real_f64 (world k s o).
Proof. intros K S O. exact (proj1 (proj1 (world_val k s o ltac:(lia) S O))). Qed.

(* what holds for the coordinates holds for the positions *)
Lemma by_axis (P : spec_float -> spec_float -> spec_float -> spec_float -> Prop) t p :
  (forall c o s, (c, o, s) = (px p, px (t_offset t), px (t_scale t)) \/ (c, o, s) = (py p, py (t_offset t), py (t_scale t)) \/ (c, o, s) = (pz p, pz (t_offset t), pz (t_scale t)) ->
    moderate o /\ moderate_scale s /\ exists v, grid c o s = Some v /\ (- 2 ^ 31 <= v < 2 ^ 31)%Z /\ P c o s (world v s o)) ->
  exists bs, grid_position t p = Some bs /\ for_axes P p t (vec3_f64 (world_position t bs)).
Proof.
  intros H. destruct (H _ _ _ (or_introl eq_refl)) as (O1 & S1 & x & G1 & R1 & P1). destruct (H _ _ _ (or_intror (or_introl eq_refl))) as (O2 & S2 & y & G2 & R2 & P2).
  destruct (H _ _ _ (or_intror (or_intror eq_refl))) as (O3 & S3 & z & G3 & R3 & P3).
  exists (le32 x ++ le32 y ++ le32 z). split; [unfold grid_position; rewrite G1, G2, G3; reflexivity|].
  rewrite (world_of_three t x y z R1 R2 R3), vec3_of_bytes by (apply world_real; assumption). split; [exact P1|split; [exact P2|exact P3]].
Qed.
Lemma positions_step t p : for_axes (fun c o s _ => reachable c o s) p t p -> exists bs, grid_position t p = Some bs /\ for_axes one_step p t (vec3_f64 (world_position t bs)).
Proof.
  intros (A1 & A2 & A3). apply by_axis. intros c o s E. assert (R : reachable c o s) by (destruct E as [E|[E|E]]; injection E as -> -> ->; assumption).
  destruct R as (C & O & S & D). split; [exact O|]. split; [exact S|]. exact (scale_step c o s C O S D).
Qed.
Lemma binary_moderate o s : binary_grid o s -> moderate o /\ moderate_scale s.
Proof. intros (RO & RS & e & m & E & M & VS & VO). split; [exact (bin_offset o e m RO E M VO)|exact (bin_band s e RS E VS)]. Qed.
Lemma positions_binary t p : for_axes (fun c o s _ => reachable c o s /\ binary_grid o s) p t p ->
  exists bs, grid_position t p = Some bs /\ for_axes (fun c o s c' => (Rabs (number c' - number c) <= number s)%R) p t (vec3_f64 (world_position t bs)).
Proof.
  intros (A1 & A2 & A3). apply (by_axis (fun c o s c' => (Rabs (number c' - number c) <= number s)%R)). intros c o s E. assert (R : reachable c o s /\ binary_grid o s) by (destruct E as [E|[E|E]]; injection E as -> -> ->; assumption).
  destruct R as ((C & O & S & D) & B). split; [exact O|]. split; [exact S|]. destruct B as (RO & RS & e & m & HE & M & VS & VO). exact (bin_step s o e m RS RO HE M VS VO c C D).
Qed.
Lemma records_binary t bs : is_bytes bs -> length bs = 12 -> binary_grid (px (t_offset t)) (px (t_scale t)) -> binary_grid (py (t_offset t)) (py (t_scale t)) -> binary_grid (pz (t_offset t)) (pz (t_scale t)) ->
  grid_position t (vec3_f64 (world_position t bs)) = Some bs.
Proof.
  intros B L B1 B2 B3. assert (P : forall k, is_bytes (sub bs k 4)) by (intros k; unfold sub; apply Forall_forall; intros y I; apply (proj1 (Forall_forall _ _) B); eapply (in_skipn_firstn); exact I).
  destruct (binary_moderate _ _ B1) as (O1 & S1). destruct (binary_moderate _ _ B2) as (O2 & S2). destruct (binary_moderate _ _ B3) as (O3 & S3).
  unfold world_position. pose proof (LasIoProofs7.signed32_range (sub bs 0 4)) as R1. pose proof (LasIoProofs7.signed32_range (sub bs 4 4)) as R2. pose proof (LasIoProofs7.signed32_range (sub bs 8 4)) as R3.
  rewrite vec3_of_bytes by (apply world_real; assumption). unfold grid_position. cbn [px py pz].
  destruct B1 as (RO1 & RS1 & e1 & m1 & E1 & M1 & VS1 & VO1). destruct B2 as (RO2 & RS2 & e2 & m2 & E2 & M2 & VS2 & VO2). destruct B3 as (RO3 & RS3 & e3 & m3 & E3 & M3 & VS3 & VO3).
  rewrite (bin_grid _ _ e1 m1 RS1 RO1 E1 M1 VS1 VO1 _ R1), (bin_grid _ _ e2 m2 RS2 RO2 E2 M2 VS2 VO2 _ R2), (bin_grid _ _ e3 m3 RS3 RO3 E3 M3 VS3 VO3 _ R3).
  rewrite !le32_signed32 by (auto; unfold sub; rewrite firstn_length, skipn_length, L; reflexivity).
  f_equal. do 13 (destruct bs as [|? bs]; [try discriminate; try reflexivity|]). discriminate.
Qed.
