(* Planes and lines of RANSAC in f64 arithmetic: coordinates of any kind. *)
From Coq Require Import List ZArith Reals Lia Lra SpecFloat Psatz Arith Sorted.
From Flocq Require Import Core.
From Verif Require Import Base LayoutModel BufferModel BufferSpec TraitModel TraitSpec MathModel MathSpec SegModel SegSpec SegProofs SegProofs2 SegReal LasGridSpec VoxSpec FloatReal F64Real NormSpec NormFloat LasFloat
  TilesBoxSpec HullSpec HullModel HullFloatSpec HullFloat HullFloat2 SegFloatSpec SegFloat SegFloat2 SegFloat3.
Import ListNotations.
Open Scope R_scope.

Lemma quot_abs x y L d a b B : real_f64 x -> real_f64 y -> 0 < L -> 0 <= a <= bpow radix2 700 -> 0 <= b <= / 50 -> 0 <= d <= B -> B <= bpow radix2 700 ->
  Rabs (val x - d * L) <= a * L -> Rabs (val y - L) <= b * L ->
  real_f64 (f64_div x y) /\ Rabs (val (f64_div x y) - d) <= 1.03 * (a + B * b) + e53 * (B + 1.03 * (a + B * b)) + tiny.
Proof.
  intros RX RY PL PA PB PD UB HX HY. assert (Y : 0.98 * L <= val y) by (apply Rabs_le_inv in HY; assert (b * L <= / 50 * L) by (apply Rmult_le_compat_r; lra); lra). assert (PY : 0 < val y) by lra.
  assert (Q : Rabs (val x / val y - d) <= 1.03 * (a + B * b)).
  { replace (val x / val y - d) with (((val x - d * L) - d * (val y - L)) / val y) by (field; lra). unfold Rdiv. rewrite Rabs_mult, Rabs_inv, (Rabs_pos_eq (val y)) by lra.
    apply (Rmult_le_reg_r (val y)); [exact PY|]. rewrite Rmult_assoc, Rinv_l, Rmult_1_r by lra.
    apply Rle_trans with ((a + B * b) * L).
    - unfold Rminus at 1. apply Rle_trans with (1 := Rabs_triang _ _). rewrite Rabs_Ropp, Rabs_mult, (Rabs_pos_eq d) by lra.
      assert (d * Rabs (val y - L) <= B * (b * L)) by (apply Rmult_le_compat; auto using Rabs_pos; lra). lra.
    - assert (0 <= B * b) by (apply Rmult_le_pos; lra). replace (1.03 * (a + B * b) * val y) with ((a + B * b) * (1.03 * val y)) by ring. apply Rmult_le_compat_l; lra. }
  assert (S : Rabs (val x / val y) <= B + 1.03 * (a + B * b)).
  { replace (val x / val y) with ((val x / val y - d) + d) by ring. apply Rle_trans with (1 := Rabs_triang _ _). rewrite (Rabs_pos_eq d) by lra. lra. }
  pose proof (rnd_err (val x / val y)) as X. assert (e53 * Rabs (val x / val y) <= e53 * (B + 1.03 * (a + B * b))) by (apply Rmult_le_compat_l; [apply bpow_ge_0|exact S]).
  destruct (div_val x y (bpow radix2 800) RX RY ltac:(lra) (top_bound 800 ltac:(lia))) as (R & V).
  { apply rnd_bound1; [lia|]. apply Rle_trans with (1 := S). assert (B * b <= B * / 50) by (apply Rmult_le_compat_l; lra). apply Rle_trans with (4 * bpow radix2 700); [lra|]. change 4 with (bpow radix2 2). rewrite <- bpow_plus. apply bpow_le. lia. }
  split; [exact R|]. rewrite V. replace (rnd64 (val x / val y) - d) with ((rnd64 (val x / val y) - val x / val y) + (val x / val y - d)) by ring. apply Rle_trans with (1 := Rabs_triang _ _). lra.
Qed.
Lemma ap_abs c k A x r : ap c k A x r -> ap c k A (SFabs x) (Rabs r).
Proof.
  intros (RX & E & B). split; [|split; [|now rewrite Rabs_Rabsolu]].
  - destruct RX as (F & W). split; [destruct x; cbn in *; auto|destruct x; cbn in *; auto].
  - replace (val (SFabs x)) with (Rabs (val x)); [apply Rle_trans with (1 := Rabs_triang_inv2 _ _); exact E|]. destruct RX as (F & _). clear E B.
    assert (val (SFabs x) = val x /\ 0 <= val x \/ val (SFabs x) = - val x /\ val x <= 0) as [(-> & P)|(-> & P)]; [|now apply Rabs_pos_eq|now apply Rabs_left1].
    destruct x as [s|s| |[] m q]; try contradiction.
    + left. split; [reflexivity|]. unfold val, value. cbn. lra.
    + right. assert (V : val (S754_finite true m q) = - val (S754_finite false m q)) by (rewrite <- val_opp; reflexivity).
      assert (P : 0 <= val (S754_finite false m q)) by (apply (F2R_ge_0 radix2 (Float radix2 (Z.pos m) q)); cbn; lia). cbn [SFabs]. rewrite V. split; lra.
    + left. split; [reflexivity|]. apply (F2R_ge_0 radix2 (Float radix2 (Z.pos m) q)). cbn. lia.
Qed.
Lemma lagrange (u v : p3 R) : dotr (v_cross r_ops u v) (v_cross r_ops u v) <= dotr u u * dotr v v.
Proof.
  pose proof (Rle_0_sqr (dotr u v)) as Q. unfold Rsqr in Q. rewrite !dotr_eq in *. unfold v_cross, r_ops in *. cbn [px py pz o_mul o_sub] in *. lra.
Qed.
Lemma cross_norm (u v : p3 R) : sqrt (dotr (v_cross r_ops u v) (v_cross r_ops u v)) <= sqrt (dotr u u) * sqrt (dotr v v).
Proof. rewrite <- sqrt_mult by apply dot_nonneg. apply sqrt_le_1_alt, lagrange. Qed.

(* a float vector near a real one *)
Lemma norm_ap c k A fn n : sized A -> 0 <= c <= 100 -> 0 <= k <= 10 -> A <= bpow radix2 460 -> bpow radix2 (-330) <= A -> ap3 c k A fn n -> sqrt (dotr n n) <= 10 * A ->
  real_f64 (v_norm f64_ops fn) /\ Rabs (val (v_norm f64_ops fn) - sqrt (dotr n n)) <= 6 * (e53 * sqrt (dotr n n)) + (2 * c + 2) * (e53 * A).
Proof.
  intros S C K UA LA (X & Y & Z) UN. pose proof (sized_pos A S) as PA. pose proof (bpow_ge_0 radix2 (-53)) as PE.
  assert (UB : forall x r, ap c k A x r -> Rabs (val x) <= bpow radix2 490).
  { intros x r H. apply Rle_trans with (1 := ap_size c k A x r PA H). apply Rle_trans with (16 * bpow radix2 460); [|change 16 with (bpow radix2 4); rewrite <- bpow_plus; apply bpow_le; lia].
    apply Rmult_le_compat; auto; pose proof e53_eq; nra. }
  destruct (norm_any fn) as (R & E); [split; [apply X|split; [apply Y|apply Z]]|split; [apply (UB _ _ X)|split; [apply (UB _ _ Y)|apply (UB _ _ Z)]]|].
  split; [exact R|]. set (g := point_of fn) in *. pose proof (norm_dist g n) as ND.
  assert (T : sqrt (dotr (minus3 g n) (minus3 g n)) <= 2 * (c * (e53 * A))).
  { apply norm_le; [apply Rmult_le_pos; [lra|apply Rmult_le_pos; lra]|apply X|apply Y|apply Z]. }
  assert (P : 0 <= e53 * A) by (apply Rmult_le_pos; lra).
  assert (TN : bpow radix2 (-390) <= / 8 * (e53 * A)).
  { apply Rle_trans with (bpow radix2 (-3) * (bpow radix2 (-53) * bpow radix2 (-330))); [rewrite <- !bpow_plus; apply bpow_le; lia|]. change (bpow radix2 (-3)) with (/ 8). apply Rmult_le_compat_l; [lra|]. now apply Rmult_le_compat_l. }
  assert (GN : sqrt (dotr g g) <= sqrt (dotr n n) + 2 * (c * (e53 * A))) by (apply Rabs_le_inv in ND; lra).
  assert (H1 : e53 * sqrt (dotr g g) <= e53 * sqrt (dotr n n) + e53 * (2 * (c * (e53 * A)))) by (rewrite <- Rmult_plus_distr_l; apply Rmult_le_compat_l; lra).
  assert (H2 : e53 * (2 * (c * (e53 * A))) <= / 100 * (e53 * A)).
  { replace (e53 * (2 * (c * (e53 * A)))) with (2 * c * e53 * (e53 * A)) by ring. apply Rmult_le_compat_r; [exact P|]. rewrite e53_eq. lra. }
  replace (val (v_norm f64_ops fn) - sqrt (dotr n n)) with ((val (v_norm f64_ops fn) - sqrt (dotr g g)) + (sqrt (dotr g g) - sqrt (dotr n n))) by ring.
  apply Rle_trans with (1 := Rabs_triang _ _). lra.
Qed.

Section Any.
Variable M : R.
Hypothesis HM : bpow radix2 (-150) <= M <= bpow radix2 150.
Lemma PM : 0 < M.
Proof. apply Rlt_le_trans with (2 := proj1 HM), bpow_gt_0. Qed.
Lemma below_diff p q : below M p -> below M q -> Rabs (px (v_sub r_ops (real_point p) (real_point q))) <= 2 * M /\ Rabs (py (v_sub r_ops (real_point p) (real_point q))) <= 2 * M /\ Rabs (pz (v_sub r_ops (real_point p) (real_point q))) <= 2 * M.
Proof.
  intros ((_ & A) & (_ & B) & (_ & C)) ((_ & D) & (_ & E) & (_ & F)).
  assert (X : forall x y, Rabs x <= M -> Rabs y <= M -> Rabs (x - y) <= 2 * M) by (intros x y H1 H2; unfold Rminus; apply Rle_trans with (1 := Rabs_triang _ _); rewrite Rabs_Ropp; lra).
  split; [|split]; apply X; assumption.
Qed.
Lemma below_far p q : below M p -> below M q -> sqrt (dotr (v_sub r_ops (real_point p) (real_point q)) (v_sub r_ops (real_point p) (real_point q))) <= 4 * M.
Proof. intros P Q. destruct (below_diff p q P Q) as (A & B & C). pose proof PM. apply Rle_trans with (2 * (2 * M)); [apply norm_le; auto; lra|lra]. Qed.
Lemma below_sub p q A : sized A -> below M p -> below M q -> Rabs (px (v_sub r_ops (real_point p) (real_point q))) <= A -> Rabs (py (v_sub r_ops (real_point p) (real_point q))) <= A -> Rabs (pz (v_sub r_ops (real_point p) (real_point q))) <= A ->
  ap3 2 1 A (v_sub f64_ops p q) (v_sub r_ops (real_point p) (real_point q)).
Proof.
  intros S ((A1 & _) & (B1 & _) & (C1 & _)) ((D1 & _) & (E1 & _) & (F1 & _)) X Y Z.
  split; [|split]; [apply (ap_diff _ _ A S A1 D1 X)|apply (ap_diff _ _ A S B1 E1 Y)|apply (ap_diff _ _ A S C1 F1 Z)].
Qed.
Lemma below_ap p : below M p -> ap3 0 1 M p (real_point p).
Proof.
  assert (X : forall x, real_f64 x -> Rabs (number x) <= M -> ap 0 1 M x (number x)).
  { intros x R B. split; [exact R|]. change (number x) with (val x) in *. rewrite Rminus_eq_0, Rabs_R0. pose proof PM. lra. }
  intros ((A1 & A) & (B1 & B) & (C1 & C)). split; [|split]; apply X; assumption.
Qed.
Lemma euclid_dot p q : euclid p q = sqrt (dotr (v_sub r_ops p q) (v_sub r_ops p q)).
Proof. reflexivity. Qed.
Lemma pow_between A lo hi : bpow radix2 lo <= A <= bpow radix2 hi -> (-700 <= lo)%Z -> (hi <= 700)%Z -> sized A.
Proof. intros (L & U) X Y. split; [apply Rle_trans with (2 := L)|apply Rle_trans with (1 := U)]; apply bpow_le; assumption. Qed.
Lemma pow_mult A B lo hi lo' hi' : bpow radix2 lo <= A <= bpow radix2 hi -> bpow radix2 lo' <= B <= bpow radix2 hi' -> bpow radix2 (lo + lo') <= A * B <= bpow radix2 (hi + hi').
Proof.
  intros (L & U) (L' & U'). pose proof (bpow_ge_0 radix2 lo). pose proof (bpow_ge_0 radix2 lo'). rewrite !bpow_plus. split; apply Rmult_le_compat; auto; lra.
Qed.
Lemma band_D D : bpow radix2 (-300) <= D * D -> 0 <= D -> D <= 4 * M -> bpow radix2 (-150) <= D <= bpow radix2 152.
Proof.
  intros L P U. split.
  - apply Rsqr_incr_0_var; [unfold Rsqr; rewrite <- bpow_plus; exact L|exact P].
  - apply Rle_trans with (1 := U). change 152%Z with (2 + 150)%Z. rewrite bpow_plus. change (bpow radix2 2) with 4. lra.
Qed.

Lemma plane_any K fa fb fc fp : K <= bpow radix2 40 -> below M fa -> below M fb -> below M fc -> below M fp ->
  well_shaped K (real_point fa) (real_point fb) (real_point fc) ->
  exists d, is_distance (real_point fp) (plane_through (real_point fa) (real_point fb) (real_point fc)) d
    /\ error_at_most (bpow radix2 (-44) * K * M) (distance_point_plane f64_ops fp (plane_of f64_ops fa fb fc)) d.
Proof.
  intros UK A B C P (W1 & W2 & W3). pose proof PM as PM.
  set (a := real_point fa) in *. set (b := real_point fb) in *. set (c := real_point fc) in *. set (p := real_point fp) in *.
  change (minus3 b a) with (v_sub r_ops b a) in *. change (minus3 c a) with (v_sub r_ops c a) in *. set (u := v_sub r_ops b a) in *. set (v := v_sub r_ops c a) in *.
  change (cross3 u v) with (v_cross r_ops u v) in *. change (dot3 ?x ?y) with (dotr x y) in W1, W2, W3. set (n := v_cross r_ops u v) in *. set (L := sqrt (dotr n n)) in *.
  set (D := Rmax (sqrt (dotr u u)) (sqrt (dotr v v))).
  assert (DU : sqrt (dotr u u) <= D) by apply Rmax_l. assert (DV : sqrt (dotr v v) <= D) by apply Rmax_r. pose proof (sqrt_pos (dotr u u)) as PU. pose proof (sqrt_pos (dotr v v)) as PV. assert (PD : 0 <= D) by lra.
  assert (DK : D * D <= K * L). { unfold D. apply (Rmax_case (sqrt (dotr u u)) (sqrt (dotr v v)) (fun x => x * x <= K * L)); rewrite sqrt_sqrt by apply dot_nonneg; assumption. }
  assert (D3 : bpow radix2 (-300) <= D * D). { apply Rle_trans with (1 := W3). rewrite <- (sqrt_sqrt (dotr u u)) by apply dot_nonneg. apply Rmult_le_compat; auto. }
  assert (D4 : D <= 4 * M). { unfold D. apply Rmax_lub; apply below_far; assumption. }
  pose proof (band_D D D3 PD D4) as BD. pose proof (pow_mult _ _ _ _ _ _ BD BD) as BDD. pose proof (pow_mult _ _ _ _ _ _ BDD HM) as BDM. cbn [Z.add Z.pos_sub] in BDD, BDM.
  assert (SD : sized D) by (apply (pow_between D _ _ BD); lia). assert (SDD : sized (D * D)) by (apply (pow_between _ _ _ BDD); lia). assert (SM : sized M) by (apply (pow_between _ _ _ HM); lia). assert (SDM : sized (D * D * M)) by (apply (pow_between _ _ _ BDM); lia).
  pose proof (sized_pos _ SDD) as PDD. pose proof (bpow_ge_0 radix2 (-53)) as PE.
  assert (LD : L <= D * D). { apply Rle_trans with (1 := cross_norm u v). apply Rmult_le_compat; auto. }
  assert (PL : 0 < L). { destruct (Rle_lt_or_eq_dec 0 L (sqrt_pos _)) as [|Z]; [assumption|]. rewrite <- Z in DK. lra. }
  assert (K1 : 1 <= K). { apply (Rmult_le_reg_r L); [exact PL|]. lra. }
  destruct (comp_le u) as (U1 & U2 & U3). destruct (comp_le v) as (V1 & V2 & V3).
  assert (AU : ap3 2 1 D (v_sub f64_ops fb fa) u) by (apply below_sub; auto; fold a b u; lra). assert (AV : ap3 2 1 D (v_sub f64_ops fc fa) v) by (apply below_sub; auto; fold a c v; lra).
  pose proof (ap3_cross D D _ _ _ _ SD SD SDD AU AV) as AN. fold n in AN. set (fn := v_cross f64_ops (v_sub f64_ops fb fa) (v_sub f64_ops fc fa)) in *.
  pose proof (ap3_dot _ _ _ _ _ _ SDD SM SDM AN (below_ap fp P)) as DP. pose proof (ap3_dot _ _ _ _ _ _ SDD SM SDM AN (below_ap fa A)) as DA. apply ap_neg in DA.
  pose proof (ap_add _ _ _ _ 75 75 6 6 _ SDM ltac:(lra) ltac:(lra) ltac:(lra) ltac:(lra) DP DA) as NUM. apply ap_abs in NUM. fold a p in NUM.
  destruct (norm_ap 17 2 (D * D) fn n SDD ltac:(lra) ltac:(lra)) as (RN & EN); auto; [apply Rle_trans with (1 := proj2 BDD), bpow_le; lia|apply Rle_trans with (2 := proj1 BDD), bpow_le; lia|fold L; lra|]. fold L in EN.
  assert (NZ : ~ (pl_a (plane_of r_ops a b c) = 0 /\ pl_b (plane_of r_ops a b c) = 0 /\ pl_c (plane_of r_ops a b c) = 0)).
  { intros (N1 & N2 & N3). change (px n = 0) in N1. change (py n = 0) in N2. change (pz n = 0) in N3. unfold L in PL. rewrite dotr_eq, N1, N2, N3, Rmult_0_l, !Rplus_0_l, sqrt_0 in PL. lra. }
  pose proof (plane_distance (plane_of r_ops a b c) p NZ) as SDI. set (d := distance_point_plane r_ops p (plane_of r_ops a b c)) in *.
  assert (EQ : forall q, on_plane (plane_of r_ops a b c) q <-> plane_through a b c q).
  { intros x. unfold on_plane, plane_through, plane_of, volume, v_cross, v_dot, v_sub, r_ops. cbn [o_add o_mul o_sub o_neg px py pz pl_a pl_b pl_c pl_d]. split; intros H; rewrite <- H; ring. }
  assert (D0 : 0 <= d <= 4 * M).
  { destruct SDI as (S1 & q & _ & S3). split; [rewrite S3; apply sqrt_pos|]. apply Rle_trans with (euclid p a); [apply S1, EQ; unfold plane_through, volume; ring|rewrite euclid_dot; now apply below_far]. }
  exists d. split.
  { destruct SDI as (S1 & q & S2 & S3). split; [intros x X; apply S1, EQ, X|exists q; split; [apply EQ, S2|exact S3]]. }
  assert (DE : d * L = Rabs (v_dot r_ops n p + - v_dot r_ops n a)).
  { change d with (Rabs (v_dot r_ops n p + - v_dot r_ops n a) / L). field. lra. }
  destruct NUM as (RX & EX & _). rewrite <- DE in EX.
  change (distance_point_plane f64_ops fp (plane_of f64_ops fa fb fc)) with (f64_div (SFabs (f64_add (v_dot f64_ops fn fp) (SFopp (v_dot f64_ops fn fa)))) (v_norm f64_ops fn)).
  set (x := SFabs _) in *. set (y := v_norm f64_ops fn) in *. set (e := e53 * K). assert (PK : 0 <= e53 * K) by (apply Rmult_le_pos; lra).
  assert (EK : e <= / 8192). { unfold e. apply Rle_trans with (e53 * bpow radix2 40); [apply Rmult_le_compat_l; lra|]. rewrite <- bpow_plus. apply Rle_refl. }
  assert (H1 : Rabs (val x - d * L) <= 163 * e * M * L).
  { apply Rle_trans with (1 := EX). replace (163 * e * M * L) with (163 * (e53 * (K * L * M))) by (unfold e; ring). replace ((75 + 75 + 6 + 6 + 1) * (e53 * (D * D * M))) with (163 * (e53 * (D * D * M))) by ring.
    apply Rmult_le_compat_l; [lra|]. apply Rmult_le_compat_l; [lra|]. apply Rmult_le_compat_r; lra. }
  assert (H2 : Rabs (val y - L) <= 42 * e * L).
  { apply Rle_trans with (1 := EN). assert (e53 * L <= e53 * (D * D)) by (apply Rmult_le_compat_l; lra). assert (e53 * (D * D) <= e * L) by (unfold e; rewrite Rmult_assoc; apply Rmult_le_compat_l; lra). lra. }
  fold e in PK. assert (EM : 0 <= e * M) by (apply Rmult_le_pos; lra). assert (EM2 : e * M <= / 8192 * M) by (apply Rmult_le_compat_r; lra).
  assert (UM : M <= bpow radix2 690) by (apply Rle_trans with (1 := proj2 HM), bpow_le; lia). assert (U10 : 16 * bpow radix2 690 <= bpow radix2 700) by (change 16 with (bpow radix2 4); rewrite <- bpow_plus; apply bpow_le; lia).
  destruct (quot_abs x y L d (163 * e * M) (42 * e) (4 * M) RX RN PL) as (R & E); auto; try lra.
  split; [exact R|]. change (number ?z) with (val z). apply Rle_trans with (1 := E).
  assert (TM : tiny <= / 8 * (e53 * M)) by now apply sized_tiny. assert (EE : e53 * M <= e * M) by (apply Rmult_le_compat_r; [lra|]; unfold e; rewrite <- (Rmult_1_r e53) at 1; apply Rmult_le_compat_l; lra).
  replace (bpow radix2 (-44) * K * M) with (512 * (e * M)) by (unfold e; change (-44)%Z with (9 + -53)%Z; rewrite bpow_plus; change (bpow radix2 9) with 512; ring).
  assert (X1 : 163 * e * M + 4 * M * (42 * e) = 331 * (e * M)) by ring. rewrite X1.
  assert (X2 : e53 * (4 * M + 1.03 * (331 * (e * M))) <= e53 * (5 * M)) by (apply Rmult_le_compat_l; lra). lra.
Qed.

Lemma line_any fa fb fp : below M fa -> below M fb -> below M fp -> apart (real_point fa) (real_point fb) ->
  exists d, is_distance (real_point fp) (line_through (real_point fa) (real_point fb)) d
    /\ error_at_most (bpow radix2 (-45) * M) (distance_point_line f64_ops fp (mk_line fa fb)) d.
Proof.
  intros A B P W. pose proof PM as PM. unfold apart in W.
  set (a := real_point fa) in *. set (b := real_point fb) in *. set (p := real_point fp) in *.
  change (minus3 b a) with (v_sub r_ops b a) in *. set (u := v_sub r_ops b a) in *. change (dot3 u u) with (dotr u u) in W. set (D := sqrt (dotr u u)) in *. set (w := v_sub r_ops a p) in *. set (n := v_cross r_ops u w) in *.
  assert (PD : 0 <= D) by apply sqrt_pos. assert (D3 : bpow radix2 (-300) <= D * D) by (unfold D; rewrite sqrt_sqrt by apply dot_nonneg; exact W). assert (D4 : D <= 4 * M) by now apply below_far.
  pose proof (band_D D D3 PD D4) as BD. assert (BM : bpow radix2 (-149) <= 2 * M <= bpow radix2 151).
  { change (-149)%Z with (1 + -150)%Z. change 151%Z with (1 + 150)%Z. rewrite !(bpow_plus radix2 1). change (bpow radix2 1) with 2. lra. }
  pose proof (pow_mult _ _ _ _ _ _ BD BM) as BDM. cbn [Z.add Z.pos_sub] in BDM.
  assert (SD : sized D) by (apply (pow_between D _ _ BD); lia). assert (SM : sized M) by (apply (pow_between _ _ _ HM); lia). assert (SM2 : sized (2 * M)) by (apply (pow_between _ _ _ BM); lia). assert (SDM : sized (D * (2 * M))) by (apply (pow_between _ _ _ BDM); lia).
  pose proof (sized_pos _ SD) as PD0. pose proof (bpow_ge_0 radix2 (-53)) as PE.
  destruct (comp_le u) as (U1 & U2 & U3). destruct (below_diff fa fp A P) as (V1 & V2 & V3).
  assert (AU : ap3 2 1 D (v_sub f64_ops fb fa) u) by (apply below_sub; auto). assert (AV : ap3 2 1 (2 * M) (v_sub f64_ops fa fp) w) by (apply below_sub; auto).
  pose proof (ap3_cross D (2 * M) _ _ _ _ SD SM2 SDM AU AV) as AN. fold n in AN. set (fu := v_sub f64_ops fb fa) in *. set (fn := v_cross f64_ops fu (v_sub f64_ops fa fp)) in *.
  assert (NW : sqrt (dotr n n) <= D * (4 * M)). { apply Rle_trans with (1 := cross_norm u w). apply Rmult_le_compat_l; [exact PD|]. now apply below_far. }
  assert (PDM : 0 <= D * M) by (apply Rmult_le_pos; lra). assert (LO : bpow radix2 (-330) <= bpow radix2 (-299)) by (apply bpow_le; lia).
  destruct (norm_ap 17 2 (D * (2 * M)) fn n SDM ltac:(lra) ltac:(lra)) as (RX & EX); auto; [apply Rle_trans with (1 := proj2 BDM), bpow_le; lia|apply Rle_trans with (2 := proj1 BDM); exact LO|lra|].
  destruct (norm_ap 2 1 D fu u SD ltac:(lra) ltac:(lra)) as (RY & EY); auto; [apply Rle_trans with (1 := proj2 BD), bpow_le; lia|apply Rle_trans with (2 := proj1 BD), bpow_le; lia|fold D; lra|]. fold D in EY.
  assert (NE : ln_first (mk_line a b) <> ln_second (mk_line a b)).
  { cbn [ln_first ln_second]. intros E. assert (Z : dotr u u = 0) by (unfold u; rewrite E, dotr_eq; unfold v_sub, r_ops; cbn [px py pz o_sub]; ring). rewrite Z in W. pose proof (bpow_gt_0 radix2 (-300)). lra. }
  pose proof (line_distance (mk_line a b) p NE) as SDI. set (d := distance_point_line r_ops p (mk_line a b)) in *.
  assert (D0 : 0 <= d <= 4 * M).
  { destruct SDI as (S1 & q & _ & S3). split; [rewrite S3; apply sqrt_pos|]. apply Rle_trans with (euclid p a); [apply S1, (first_on_line (mk_line a b))|rewrite euclid_dot; now apply below_far]. }
  exists d. split; [exact SDI|].
  assert (DE : d * D = sqrt (dotr n n)). { change d with (sqrt (dotr n n) / D). field. lra. }
  change (distance_point_line f64_ops fp (mk_line fa fb)) with (f64_div (v_norm f64_ops fn) (v_norm f64_ops fu)). set (x := v_norm f64_ops fn) in *. set (y := v_norm f64_ops fu) in *.
  assert (H1 : Rabs (val x - d * D) <= 96 * e53 * M * D).
  { rewrite DE. apply Rle_trans with (1 := EX). assert (e53 * sqrt (dotr n n) <= e53 * (D * (4 * M))) by (apply Rmult_le_compat_l; lra). lra. }
  assert (H2 : Rabs (val y - D) <= 12 * e53 * D) by lra.
  assert (UM : M <= bpow radix2 690) by (apply Rle_trans with (1 := proj2 HM), bpow_le; lia). assert (U10 : 16 * bpow radix2 690 <= bpow radix2 700) by (change 16 with (bpow radix2 4); rewrite <- bpow_plus; apply bpow_le; lia).
  assert (EM : 0 <= e53 * M) by (apply Rmult_le_pos; lra). assert (EM2 : e53 * M <= / 8192 * M) by (apply Rmult_le_compat_r; [lra|]; rewrite e53_eq; lra).
  destruct (quot_abs x y D d (96 * e53 * M) (12 * e53) (4 * M) RX RY PD0) as (R & E); auto; try lra; [rewrite e53_eq; lra|].
  split; [exact R|]. change (number ?z) with (val z). apply Rle_trans with (1 := E).
  assert (TM : tiny <= / 8 * (e53 * M)) by now apply sized_tiny.
  replace (bpow radix2 (-45) * M) with (256 * (e53 * M)) by (change (-45)%Z with (8 + -53)%Z; rewrite bpow_plus; change (bpow radix2 8) with 256; ring).
  assert (X1 : 96 * e53 * M + 4 * M * (12 * e53) = 144 * (e53 * M)) by ring. rewrite X1.
  assert (X2 : e53 * (4 * M + 1.03 * (144 * (e53 * M))) <= e53 * (5 * M)) by (apply Rmult_le_compat_l; lra). lra.
Qed.
End Any.

Section Fit.
Variables (H A : Type) (pts : list (p3 spec_float)) (thr : spec_float) (eta : R) (dist : p3 spec_float -> H -> spec_float).
Variables (members : A -> list nat) (spanned : A -> p3 R -> Prop) (model_of : A -> H -> Prop) (samples : list A).
Hypothesis TR : real_f64 thr.
Hypothesis near : forall s x p, In s samples -> model_of s x -> In p pts -> exists d, is_distance (real_point p) (spanned s) d /\ error_at_most eta (dist p x) d.
Hypothesis mine : forall s i, In s samples -> In i (members s) -> exists p, nth_error pts i = Some p /\ spanned s (real_point p).
Hypothesis TP : eta < number thr.

Lemma close_inliers_within s x l : In s samples -> model_of s x -> inliers pts dist thr x l -> close_points_within eta pts (spanned s) thr l.
Proof.
  intros IS MO (_ & I) i p d E D. destruct (near s x p IS MO (nth_error_In _ _ E)) as (d' & D' & RX & N). rewrite (distance_unique _ _ _ _ D' D) in N.
  change (number (dist p x)) with (val (dist p x)) in N. change (number thr) with (val thr). apply Rabs_le_inv in N. split; intros X.
  - apply I. exists p. split; [exact E|]. apply real_ltb; auto. lra.
  - apply I in X. destruct X as (p' & E' & L). rewrite E in E'. injection E' as <-. apply real_ltb in L; auto. lra.
Qed.
Lemma best_fits_within models h : Forall2 model_of samples models -> best_of pts dist thr models h -> fits_within eta pts thr members spanned samples h.
Proof.
  intros F (I & R & k & EK & BEST).
  assert (P : forall ms ss, Forall2 model_of ss ms -> forall k x, nth_error ms k = Some x -> exists s, In s ss /\ model_of s x).
  { induction 1 as [|s x ss ms MO F' IH]; intros [|j] y Y; try discriminate; cbn in Y; [injection Y as <-; exists s; split; [now left|auto]|]. destruct (IH j y Y) as (s' & A1 & A2). exists s'. split; [now right|auto]. }
  destruct (P _ _ F k _ EK) as (s & IS & MO). exists s. pose proof (close_inliers_within s _ _ IS MO I) as CI.
  split; [exact IS|]. split; [|split; [exact R|split; [exact CI|]]].
  - intros i HI. destruct (mine s i IS HI) as (p & E & SP). apply (CI i p 0 E (zero_distance _ _ SP)). lra.
  - intros s' l IS' (ND & SC). assert (Q : forall ss ms, Forall2 model_of ss ms -> In s' ss -> exists k x, nth_error ms k = Some x /\ model_of s' x).
    { induction 1 as [|t x ss ms MO' F' IH]; [intros []|intros [<-|X]; [exists O, x; auto|destruct (IH X) as (j & y & Y1 & Y2); exists (S j), y; auto]]. }
    destruct (Q _ _ F IS') as (k' & x' & EK' & MO'). pose proof (chosen_inliers _ dist thr pts x') as I'. destruct (BEST k' x' _ EK' I') as (LE & _). apply Nat.le_trans with (2 := LE).
    apply NoDup_incl_length; [exact ND|]. intros i HI. destruct (SC i HI) as (p & d & E & D & L). apply (close_inliers_within s' x' _ IS' MO' I' i p d E D). exact L.
Qed.
End Fit.

Section Whole.
Variables (b : buffer) (m : member) (M : R) (thr : spec_float).
Hypothesis HP : has_positions b m.
Hypothesis HM : bpow radix2 (-150) <= M <= bpow radix2 150.
Hypothesis G : Forall (below M) (points3 b m).
Hypothesis TR : real_f64 thr.
Let ps := map real_point (points3 b m).
Let is_in i := (i < bf_len b)%nat.

Lemma at_any i : is_in i -> exists p, nth_error (points3 b m) i = Some p /\ point ps i = real_point p.
Proof.
  intros H. unfold is_in in H. rewrite <- (points3_length b m HP) in H. destruct (nth_error (points3 b m) i) as [p|] eqn:X; [|apply nth_error_None in X; lia].
  exists p. split; [reflexivity|]. now apply point_nth.
Qed.
Lemma plane_any_fits K samples planes h : K <= bpow radix2 40 -> bpow radix2 (-44) * K * M < number thr -> Forall (shaped3 K ps) samples -> (forall t, In t samples -> Forall is_in (three t)) ->
  Forall2 (is_plane_of (points3 b m)) samples planes -> best_of (points3 b m) (distance_point_plane f64_ops) thr planes h ->
  fits_within (bpow radix2 (-44) * K * M) (points3 b m) thr three (spanned_plane ps) samples h.
Proof.
  intros UK TP PR IN F B. refine (best_fits_within _ _ _ thr _ _ three (spanned_plane ps) (is_plane_of (points3 b m)) samples TR _ _ TP planes h F B).
  - intros ((i, j), k) x q IS (pa & pb & pc & EA & EB & EC & ->) IQ. cbn [spanned_plane]. unfold ps. rewrite (point_nth _ _ _ EA), (point_nth _ _ _ EB), (point_nth _ _ _ EC).
    pose proof (proj1 (Forall_forall _ _) G) as GG. apply (plane_any M HM); try (apply GG; eauto using nth_error_In); auto.
    pose proof (proj1 (Forall_forall _ _) PR _ IS) as X. cbn in X. unfold ps in X. now rewrite (point_nth _ _ _ EA), (point_nth _ _ _ EB), (point_nth _ _ _ EC) in X.
  - intros ((i, j), k) x IS HX. specialize (IN _ IS). cbn [three] in *. assert (IX : is_in x) by (apply (proj1 (Forall_forall _ _) IN), HX). destruct (at_any x IX) as (p & EP & VP).
    exists p. split; [exact EP|]. rewrite <- VP. cbn [spanned_plane]. unfold plane_through, volume. destruct HX as [<-|[<-|[<-|[]]]]; ring.
Qed.
Lemma line_any_fits samples lines h : bpow radix2 (-45) * M < number thr -> Forall (apart2 ps) samples -> (forall t, In t samples -> Forall is_in (two t)) ->
  Forall2 (is_line_of (points3 b m)) samples lines -> best_of (points3 b m) (distance_point_line f64_ops) thr lines h ->
  fits_within (bpow radix2 (-45) * M) (points3 b m) thr two (spanned_line ps) samples h.
Proof.
  intros TP PR IN F B. refine (best_fits_within _ _ _ thr _ _ two (spanned_line ps) (is_line_of (points3 b m)) samples TR _ _ TP lines h F B).
  - intros (i, j) x q IS (pa & pb & EA & EB & ->) IQ. cbn [spanned_line]. unfold ps. rewrite (point_nth _ _ _ EA), (point_nth _ _ _ EB).
    pose proof (proj1 (Forall_forall _ _) G) as GG. apply (line_any M HM); try (apply GG; eauto using nth_error_In).
    pose proof (proj1 (Forall_forall _ _) PR _ IS) as X. cbn in X. unfold ps in X. now rewrite (point_nth _ _ _ EA), (point_nth _ _ _ EB) in X.
  - intros (i, j) x IS HX. specialize (IN _ IS). cbn [two] in *. assert (IX : is_in x) by (apply (proj1 (Forall_forall _ _) IN), HX). destruct (at_any x IX) as (p & EP & VP).
    exists p. split; [exact EP|]. rewrite <- VP. cbn [spanned_line]. unfold line_through. destruct HX as [<-|[<-|[]]]; [exists 0|exists 1]; repeat split; ring.
Qed.
Lemma plane_serial_any K runs samples rest : K <= bpow radix2 40 -> bpow radix2 (-44) * K * M < number thr -> (3 <= bf_len b)%nat -> runs <> [] -> Forall2 (sample3 (bf_len b)) runs samples -> Forall (shaped3 K ps) samples ->
  exists h, ransac_plane_serial b thr (length runs) (concat runs ++ rest) = Some (Ok h) /\ fits_within (bpow radix2 (-44) * K * M) (points3 b m) thr three (spanned_plane ps) samples h.
Proof.
  intros UK TP L NE F PR. destruct (plane_serial b m thr runs samples rest HP L NE F) as (h & planes & EQ & FP & B). exists h. split; [exact EQ|]. apply (plane_any_fits K samples planes h UK TP PR (sample3_in b _ _ F) FP B).
Qed.
Lemma line_serial_any runs samples rest : bpow radix2 (-45) * M < number thr -> (2 <= bf_len b)%nat -> runs <> [] -> Forall2 (sample2 (bf_len b)) runs samples -> Forall (apart2 ps) samples ->
  exists h, ransac_line_serial b thr (length runs) (concat runs ++ rest) = Some (Ok h) /\ fits_within (bpow radix2 (-45) * M) (points3 b m) thr two (spanned_line ps) samples h.
Proof.
  intros TP L NE F PR. destruct (line_serial b m thr runs samples rest HP L NE F) as (h & lines & EQ & FP & B). exists h. split; [exact EQ|]. apply (line_any_fits samples lines h TP PR (sample2_in b _ _ F) FP B).
Qed.
Lemma plane_par_any K s samples : K <= bpow radix2 40 -> bpow radix2 (-44) * K * M < number thr -> (3 <= bf_len b)%nat -> Forall2 (fun d t => exists run rest, d = run ++ rest /\ sample3 (bf_len b) run t) (iterations s) samples -> Forall (shaped3 K ps) samples ->
  exists h, ransac_plane_par b thr (Some s) = Some (Ok h) /\ fits_within (bpow radix2 (-44) * K * M) (points3 b m) thr three (spanned_plane ps) samples h.
Proof.
  intros UK TP L F PR. destruct (plane_par b m thr s samples HP L F) as (h & planes & EQ & FP & B & _). exists h. split; [exact EQ|]. apply (plane_any_fits K samples planes h UK TP PR); auto.
  refine (sampled _ _ _ _ _ F). intros r ((i, j), k) (run & rest & _ & a1 & a2 & _ & _ & _ & _ & _ & _ & X & Y & Z). repeat constructor; assumption.
Qed.
Lemma line_par_any s samples : bpow radix2 (-45) * M < number thr -> (2 <= bf_len b)%nat -> Forall2 (fun d t => exists run rest, d = run ++ rest /\ sample2 (bf_len b) run t) (iterations s) samples -> Forall (apart2 ps) samples ->
  exists h, ransac_line_par b thr (Some s) = Some (Ok h) /\ fits_within (bpow radix2 (-45) * M) (points3 b m) thr two (spanned_line ps) samples h.
Proof.
  intros TP L F PR. destruct (line_par b m thr s samples HP L F) as (h & lines & EQ & FP & B & _). exists h. split; [exact EQ|]. apply (line_any_fits samples lines h TP PR); auto.
  refine (sampled _ _ _ _ _ F). intros r (i, j) (run & rest & _ & a1 & _ & _ & _ & X & Y). repeat constructor; assumption.
Qed.
End Whole.
