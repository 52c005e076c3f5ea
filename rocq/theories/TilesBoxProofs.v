(* The bounding box of a tile covers the AABB it is made of. *)
From Coq Require Import List ZArith Reals Lia Lra SpecFloat Psatz.
From Flocq Require Import Core BinarySingleNaN.
From Verif Require Import MathModel MathSpec TilesModel LasGridSpec TilesBoxSpec VoxSpec FloatReal F64Real NormSpec NormFloat LasFloat.
Open Scope R_scope.

(* one axis: the points c + s h *)
Lemma axis_iff c h p : 0 <= h -> ((exists s, -1 <= s <= 1 /\ p = c + s * h) <-> c - h <= p <= c + h).
Proof.
  intros H. split.
  - intros (s & S & ->). nra.
  - intros P. destruct (Req_dec h 0) as [->|N]; [exists 0; split; [lra|lra]|]. exists ((p - c) / h). split; [|field; exact N].
    assert (0 < h) by lra. split; apply (Rmult_le_reg_r h); try lra; unfold Rdiv; rewrite Rmult_assoc, Rinv_l, Rmult_1_r by exact N; lra.
Qed.
Lemma oriented_iff c hx hy hz p : 0 <= hx -> 0 <= hy -> 0 <= hz ->
  (in_oriented_box c (mk_p3 hx 0 0) (mk_p3 0 hy 0) (mk_p3 0 0 hz) p
   <-> px c - hx <= px p <= px c + hx /\ py c - hy <= py p <= py c + hy /\ pz c - hz <= pz p <= pz c + hz).
Proof.
  intros HX HY HZ. unfold in_oriented_box. cbn [px py pz]. split.
  - intros (s & t & u & S & T & U & X & Y & Z). rewrite X, Y, Z. repeat apply conj; nra.
  - intros (X & Y & Z). apply axis_iff in X; [|exact HX]. apply axis_iff in Y; [|exact HY]. apply axis_iff in Z; [|exact HZ].
    destruct X as (s & S & X), Y as (t & T & Y), Z as (u & U & Z). exists s, t, u. rewrite X, Y, Z. repeat split; try lra.
Qed.
Lemma exact_box b p : upright b ->
  (in_oriented_box (box_center 0 (r_box_of_aabb b)) (box_x 0 (r_box_of_aabb b)) (box_y 0 (r_box_of_aabb b)) (box_z 0 (r_box_of_aabb b)) p <-> in_box b p).
Proof.
  intros (UX & UY & UZ). unfold box_center, box_x, box_y, box_z, r_box_of_aabb, box_of_aabb, box_new, center, extent. cbn [nth px py pz].
  rewrite oriented_iff by lra. cbn [px py pz]. unfold in_box. split; intros (X & Y & Z); repeat split; lra.
Qed.

(* ---- in f64 arithmetic ---- *)
Lemma two_real : real_f64 f64_two /\ val f64_two = 2.
Proof.
  split; [split; [exact I|right; cbn; lia]|]. unfold val, value, f64_two. cbn [SF2R F2R cond_Zopp]. unfold F2R. cbn [Fnum Fexp]. cbn [cond_Zopp].
  change (IZR (Zpos (2 ^ 52))) with (IZR (2 ^ 52)). change (2 ^ 52)%Z with (Zpower radix2 52). rewrite IZR_Zpower by lia. rewrite <- bpow_plus. reflexivity.
Qed.
Lemma one_half_real : real_f64 f64_one_half /\ val f64_one_half = / 2.
Proof.
  split; [split; [exact I|right; cbn; lia]|]. unfold val, value, f64_one_half. cbn [SF2R F2R cond_Zopp]. unfold F2R. cbn [Fnum Fexp]. cbn [cond_Zopp].
  change (IZR (Zpos (2 ^ 52))) with (IZR (2 ^ 52)). change (2 ^ 52)%Z with (Zpower radix2 52). rewrite IZR_Zpower by lia. rewrite <- bpow_plus. reflexivity.
Qed.
Lemma tiny_lt : 0 < tiny.
Proof. apply bpow_gt_0. Qed.
Lemma rounded_half x m : Rabs x <= 2 * m -> 0 <= m -> Rabs (rnd64 (rnd64 x / 2) - x / 2) <= 3 * (e53 * m) + 3 * tiny.
Proof.
  intros X M. pose proof tiny_lt as T. pose proof (bpow_gt_0 radix2 (-53)) as E.
  pose proof (err_bound x (2 * m) tiny X (Rle_refl _)) as E1. set (s := rnd64 x) in *.
  assert (S1 : Rabs (s / 2) <= 2 * m + tiny).
  { unfold Rdiv. rewrite Rabs_mult, (Rabs_pos_eq (/ 2)) by lra. replace s with ((s - x) + x) by ring. pose proof (Rabs_triang (s - x) x). rewrite e53_eq in E1. lra. }
  assert (T1 : tiny <= tiny) by lra. pose proof (rnd_err (s / 2)) as E2.
  replace (rnd64 (s / 2) - x / 2) with ((rnd64 (s / 2) - s / 2) + (s - x) / 2) by lra.
  eapply Rle_trans; [apply Rabs_triang|]. unfold Rdiv at 3. rewrite (Rabs_mult (s - x)), (Rabs_pos_eq (/ 2)) by lra.
  rewrite e53_eq in *. lra.
Qed.
Lemma W_number x : moderate x -> W 900 x.
Proof. intros (R & B). split; [exact R|exact B]. Qed.
Lemma axis_f64 a b : moderate a -> moderate b -> number a <= number b ->
  let c := number (f64_half (f64_add a b)) in
  let h := number (f64_mul (f64_sub b a) f64_one_half) in
  0 <= h /\ Rabs (c - h - number a) <= slack (number a) (number b) /\ Rabs (c + h - number b) <= slack (number a) (number b).
Proof.
  intros A B L c h. apply W_number in A, B. pose proof two_real as (R2 & V2). pose proof one_half_real as (RH & VH).
  assert (BA : Rabs (val a) <= bpow radix2 900) by apply A. assert (BB : Rabs (val b) <= bpow radix2 900) by apply B.
  assert (P901 : bpow radix2 901 = 2 * bpow radix2 900) by (change (bpow radix2 901) with (bpow radix2 (1 + 900)); rewrite bpow_plus; reflexivity).
  pose proof (Rabs_triang (val a) (val b)) as TA. pose proof (Rabs_triang (val b) (- val a)) as TB. rewrite Rabs_Ropp in TB.
  destruct (add_val a b (bpow radix2 901) (proj1 A) (proj1 B) (top_bound 901 ltac:(lia))) as (RA & VA); [apply rnd_bound1; [lia|lra]|].
  destruct (sub_val b a (bpow radix2 901) (proj1 B) (proj1 A) (top_bound 901 ltac:(lia))) as (RS & VS); [apply rnd_bound1; [lia|unfold Rminus; lra]|].
  assert (BAd : Rabs (val (f64_add a b)) <= bpow radix2 901) by (rewrite VA; apply rnd_bound1; [lia|lra]).
  assert (BSu : Rabs (val (f64_sub b a)) <= bpow radix2 901) by (rewrite VS; apply rnd_bound1; [lia|unfold Rminus; lra]).
  pose proof (bpow_gt_0 radix2 900) as P900.
  destruct (div_val (f64_add a b) f64_two (bpow radix2 901) RA R2 ltac:(rewrite V2; lra) (top_bound 901 ltac:(lia))) as (RC & VC).
  { apply rnd_bound1; [lia|]. rewrite V2. unfold Rdiv. rewrite Rabs_mult, (Rabs_pos_eq (/ 2)) by lra. lra. }
  destruct (mul_val (f64_sub b a) f64_one_half (bpow radix2 901) RS RH (top_bound 901 ltac:(lia))) as (RHh & VHh).
  { apply rnd_bound1; [lia|]. rewrite VH. rewrite Rabs_mult, (Rabs_pos_eq (/ 2)) by lra. lra. }
  assert (EC : c = rnd64 (rnd64 (val a + val b) / 2)) by (unfold c; change (number (f64_half (f64_add a b))) with (val (f64_div (f64_add a b) f64_two)); now rewrite VC, VA, V2).
  assert (EH : h = rnd64 (rnd64 (val b - val a) / 2)) by (unfold h; change (number (f64_mul (f64_sub b a) f64_one_half)) with (val (f64_mul (f64_sub b a) f64_one_half)); rewrite VHh, VS, VH; f_equal; lra).
  change (number a) with (val a) in *. change (number b) with (val b) in *. clearbody c h. clear - L EC EH TA TB. set (x := val a) in *. set (y := val b) in *.
  set (m := Rmax (Rabs x) (Rabs y)). assert (MX : Rabs x <= m) by apply Rmax_l. assert (MY : Rabs y <= m) by apply Rmax_r. pose proof (Rabs_pos x) as PX.
  assert (H1 : Rabs (c - (x + y) / 2) <= 3 * (e53 * m) + 3 * tiny) by (rewrite EC; apply rounded_half; lra).
  assert (H2 : Rabs (h - (y - x) / 2) <= 3 * (e53 * m) + 3 * tiny) by (rewrite EH; apply rounded_half; [unfold Rminus; lra|lra]).
  assert (SL : 6 * (e53 * m) + 6 * tiny <= slack x y).
  { unfold slack. fold m. assert (E1 : bpow radix2 (-50) = 8 * e53) by (change (bpow radix2 (-50)) with (bpow radix2 (3 + -53)); rewrite bpow_plus; reflexivity).
    assert (E2 : bpow radix2 (-1072) = 8 * tiny) by (change (bpow radix2 (-1072)) with (bpow radix2 (3 + -1075)); rewrite bpow_plus; reflexivity).
    rewrite E1, E2. pose proof tiny_lt. pose proof (bpow_gt_0 radix2 (-53)). assert (0 <= e53 * m) by (apply Rmult_le_pos; lra). lra. }
  repeat split.
  - rewrite EH. apply (rnd_ge_0 53 1024 H53). assert (0 <= rnd64 (y - x)) by (apply (rnd_ge_0 53 1024 H53); lra). lra.
  - replace (c - h - x) with ((c - (x + y) / 2) - (h - (y - x) / 2)) by lra. unfold Rminus at 1. eapply Rle_trans; [apply Rabs_triang|]. rewrite Rabs_Ropp. lra.
  - replace (c + h - y) with ((c - (x + y) / 2) + (h - (y - x) / 2)) by lra. eapply Rle_trans; [apply Rabs_triang|]. lra.
Qed.
(* a point of one interval is near a point of another whose ends are near *)
Lemma interval_near lo hi lo' hi' d : lo <= hi -> lo' <= hi' -> Rabs (lo' - lo) <= d -> Rabs (hi' - hi) <= d -> forall p, lo <= p <= hi -> exists q, lo' <= q <= hi' /\ Rabs (p - q) <= d.
Proof.
  intros L L' D1 D2 p P. apply Rabs_le_inv in D1, D2. destruct (Rle_dec p lo') as [A|A].
  - exists lo'. split; [lra|]. apply Rabs_le. lra.
  - destruct (Rle_dec hi' p) as [B|B]; [exists hi'; split; [lra|apply Rabs_le; lra]|]. exists p. split; [lra|]. rewrite Rminus_diag_eq by reflexivity. rewrite Rabs_R0. lra.
Qed.
Lemma number_zero : number f64_zero = 0.
Proof. reflexivity. Qed.
Lemma f64_box b : moderate_point (b_min b) -> moderate_point (b_max b) -> upright (real_box b) ->
  let bx := f64_box_of_aabb b in
  let in_tile := in_oriented_box (real_point (box_center f64_zero bx)) (real_point (box_x f64_zero bx)) (real_point (box_y f64_zero bx)) (real_point (box_z f64_zero bx)) in
  (forall p, in_box (real_box b) p -> exists q, in_tile q /\ close (real_box b) p q)
  /\ (forall q, in_tile q -> exists p, in_box (real_box b) p /\ close (real_box b) p q).
Proof.
  destruct b as [[x0 y0 z0] [x1 y1 z1]]. intros (MX & MY & MZ) (NX & NY & NZ) (UX & UY & UZ) bx in_tile. cbn [b_min b_max px py pz real_box real_point] in MX, MY, MZ, NX, NY, NZ, UX, UY, UZ.
  unfold in_tile, bx, f64_box_of_aabb, box_of_aabb, box_center, box_x, box_y, box_z, box_new, center, extent, real_point, real_box, in_box, close. cbn [nth px py pz b_min b_max]. rewrite !number_zero.
  destruct (axis_f64 x0 x1 MX NX UX) as (HX & LX & RX). destruct (axis_f64 y0 y1 MY NY UY) as (HY & LY & RY). destruct (axis_f64 z0 z1 MZ NZ UZ) as (HZ & LZ & RZ).
  set (cx := number (f64_half (f64_add x0 x1))) in *. set (hx := number (f64_mul (f64_sub x1 x0) f64_one_half)) in *.
  set (cy := number (f64_half (f64_add y0 y1))) in *. set (hy := number (f64_mul (f64_sub y1 y0) f64_one_half)) in *.
  set (cz := number (f64_half (f64_add z0 z1))) in *. set (hz := number (f64_mul (f64_sub z1 z0) f64_one_half)) in *.
  split.
  - intros [p1 p2 p3] (PX & PY & PZ). cbn [px py pz] in *.
    destruct (interval_near _ _ (cx - hx) (cx + hx) _ UX ltac:(lra) LX RX p1 PX) as (q1 & Q1 & D1).
    destruct (interval_near _ _ (cy - hy) (cy + hy) _ UY ltac:(lra) LY RY p2 PY) as (q2 & Q2 & D2).
    destruct (interval_near _ _ (cz - hz) (cz + hz) _ UZ ltac:(lra) LZ RZ p3 PZ) as (q3 & Q3 & D3).
    exists (mk_p3 q1 q2 q3). rewrite oriented_iff by assumption. cbn [px py pz]. auto.
  - intros [q1 q2 q3] Q. rewrite oriented_iff in Q by assumption. destruct Q as (Q1 & Q2 & Q3). cbn [px py pz] in *.
    rewrite Rabs_minus_sym in LX, RX, LY, RY, LZ, RZ.
    destruct (interval_near (cx - hx) (cx + hx) _ _ _ ltac:(lra) UX LX RX q1 Q1) as (p1 & P1 & D1).
    destruct (interval_near (cy - hy) (cy + hy) _ _ _ ltac:(lra) UY LY RY q2 Q2) as (p2 & P2 & D2).
    destruct (interval_near (cz - hz) (cz + hz) _ _ _ ltac:(lra) UZ LZ RZ q3 Q3) as (p3 & P3 & D3).
    exists (mk_p3 p1 p2 p3). cbn [px py pz]. rewrite (Rabs_minus_sym p1), (Rabs_minus_sym p2), (Rabs_minus_sym p3). auto.
Qed.

(* [-1, 2^-60] has the centre -1/2 and the half extent 1/2 *)
Definition lost_box : aabb spec_float :=
  mk_aabb (mk_p3 (S754_finite true 4503599627370496 (-52)) f64_zero f64_zero) (mk_p3 (S754_finite false 4503599627370496 (-112)) f64_zero f64_zero).
Lemma lost_box_values : f64_box_of_aabb lost_box
  = cons (S754_finite true 4503599627370496 (-53)) (cons f64_zero (cons f64_zero (cons (S754_finite false 4503599627370496 (-53)) (cons f64_zero (cons f64_zero (cons f64_zero (cons f64_zero (cons f64_zero (cons f64_zero (cons f64_zero (cons f64_zero nil))))))))))).
Proof. vm_compute. reflexivity. Qed.
Lemma number_pow s e : number (S754_finite s 4503599627370496 e) = (if s then -1 else 1) * bpow radix2 (52 + e).
Proof.
  unfold number. cbn [SF2R]. unfold F2R. cbn [Fnum Fexp]. rewrite bpow_plus. assert (E : IZR 4503599627370496 = bpow radix2 52) by reflexivity.
  destruct s; cbn [cond_Zopp]; [change (Z.opp 4503599627370496) with (Z.opp 4503599627370496); rewrite opp_IZR|]; rewrite E; ring.
Qed.
Lemma lost_point : let bx := f64_box_of_aabb lost_box in
  moderate_point (b_min lost_box) /\ moderate_point (b_max lost_box) /\ upright (real_box lost_box) /\ in_box (real_box lost_box) (real_point (b_max lost_box))
  /\ ~ in_oriented_box (real_point (box_center f64_zero bx)) (real_point (box_x f64_zero bx)) (real_point (box_y f64_zero bx)) (real_point (box_z f64_zero bx)) (real_point (b_max lost_box)).
Proof.
  assert (N1 : number (S754_finite true 4503599627370496 (-52)) = -1) by (rewrite number_pow; change (bpow radix2 (52 + -52)) with 1; lra).
  assert (N2 : number (S754_finite false 4503599627370496 (-112)) = bpow radix2 (-60)) by (rewrite number_pow; change (52 + -112)%Z with (-60)%Z; lra).
  assert (N3 : number (S754_finite true 4503599627370496 (-53)) = - / 2) by (rewrite number_pow; change (bpow radix2 (52 + -53)) with (/ 2); lra).
  assert (N4 : number (S754_finite false 4503599627370496 (-53)) = / 2) by (rewrite number_pow; change (bpow radix2 (52 + -53)) with (/ 2); lra).
  pose proof (bpow_gt_0 radix2 (-60)) as P. assert (P2 : bpow radix2 (-60) <= 1) by (change 1 with (bpow radix2 0); apply bpow_le; lia).
  assert (P9 : 1 <= bpow radix2 900) by (change 1 with (bpow radix2 0); apply bpow_le; lia).
  assert (MZ : moderate f64_zero) by (split; [now split|rewrite number_zero, Rabs_R0; lra]).
  assert (M1 : moderate (S754_finite true 4503599627370496 (-52))) by (split; [split; [exact I|right; lia]|rewrite N1, Rabs_left by lra; lra]).
  assert (M2 : moderate (S754_finite false 4503599627370496 (-112))) by (split; [split; [exact I|right; lia]|rewrite N2, Rabs_pos_eq by lra; lra]).
  intros bx. unfold bx. rewrite lost_box_values.
  split; [repeat split; apply M1 || apply MZ|]. split; [repeat split; apply M2 || apply MZ|].
  unfold lost_box, box_center, box_x, box_y, box_z, real_box, real_point, upright, in_box, in_oriented_box. cbn [nth b_min b_max px py pz].
  cbn [b_min b_max px py pz]. rewrite ?N1, ?N2, ?N3, ?N4, ?number_zero. repeat apply conj; try lra.
  intros (s & t & u & S & T & U & X & _). lra.
Qed.
