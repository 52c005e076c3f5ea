(* AABB::as_cubic in f64 arithmetic. *)
From Coq Require Import List ZArith Reals Lia Lra SpecFloat Psatz.
From Flocq Require Import Core BinarySingleNaN.
From Verif Require Import MathModel MathSpec LasGridSpec TilesBoxSpec VoxSpec FloatReal F64Real NormSpec NormFloat LasFloat TilesBoxProofs CubicSpec.
Import ListNotations.
Open Scope R_scope.

Lemma max_val x y : real_f64 x -> real_f64 y -> real_f64 (f64_float_ord_max x y) /\ val (f64_float_ord_max x y) = Rmax (val x) (val y).
Proof.
  intros X Y. assert (E : f64_float_ord_max x y = if gt f64_cmp x y then x else y).
  { destruct X as (X & _), Y as (Y & _). destruct x, y; try contradiction; reflexivity. }
  rewrite E. unfold gt, f64_cmp. rewrite (compare_correct 53 1024 x y (proj1 (f64_valid x) (proj2 X)) (proj1 (f64_valid y) (proj2 Y)) (proj1 (finite_SF x) (proj1 X)) (proj1 (finite_SF y) (proj1 Y))).
  fold (val x) (val y). destruct (Rcompare_spec (val x) (val y)) as [L|L|L].
  - split; [exact Y|]. now rewrite Rmax_right by lra.
  - split; [exact Y|]. now rewrite Rmax_right by lra.
  - split; [exact X|]. now rewrite Rmax_left by lra.
Qed.
Lemma pow_succ k : bpow radix2 (k + 1) = 2 * bpow radix2 k.
Proof. rewrite Z.add_comm, bpow_plus. reflexivity. Qed.
Lemma half_val x k : (-900 <= k <= 950)%Z -> W k x -> W k (f64_half x) /\ val (f64_half x) = rnd64 (val x / 2).
Proof.
  intros K (X & B). pose proof two_real as (R2 & V2). pose proof (bpow_gt_0 radix2 k) as P.
  assert (Q : Rabs (val x / 2) <= bpow radix2 k) by (unfold Rdiv; rewrite Rabs_mult, (Rabs_pos_eq (/ 2)) by lra; unfold val, value; lra).
  destruct (div_val x f64_two (bpow radix2 k) X R2 ltac:(rewrite V2; lra) (top_bound k ltac:(lia))) as (R & V).
  { rewrite V2. apply rnd_bound1; [lia|exact Q]. }
  rewrite V2 in V. split; [|exact V]. split; [exact R|]. change (Rabs (val (f64_half x)) <= bpow radix2 k). change (f64_half x) with (f64_div x f64_two). rewrite V. apply rnd_bound1; [lia|exact Q].
Qed.
Lemma plus_val x y k : (-900 <= k <= 950)%Z -> W k x -> W k y -> W (k + 1) (f64_add x y) /\ val (f64_add x y) = rnd64 (val x + val y).
Proof.
  intros K (X & BX) (Y & BY). change (Rabs (val x) <= bpow radix2 k) in BX. change (Rabs (val y) <= bpow radix2 k) in BY.
  assert (Q : Rabs (val x + val y) <= bpow radix2 (k + 1)) by (rewrite pow_succ; eapply Rle_trans; [apply Rabs_triang|lra]).
  destruct (add_val x y (bpow radix2 (k + 1)) X Y (top_bound (k + 1) ltac:(lia))) as (R & V); [apply rnd_bound1; [lia|exact Q]|].
  split; [|exact V]. split; [exact R|]. change (Rabs (val (f64_add x y)) <= bpow radix2 (k + 1)). rewrite V. apply rnd_bound1; [lia|exact Q].
Qed.
Lemma minus_val x y k : (-900 <= k <= 950)%Z -> W k x -> W k y -> W (k + 1) (f64_sub x y) /\ val (f64_sub x y) = rnd64 (val x - val y).
Proof.
  intros K (X & BX) (Y & BY). change (Rabs (val x) <= bpow radix2 k) in BX. change (Rabs (val y) <= bpow radix2 k) in BY.
  assert (Q : Rabs (val x - val y) <= bpow radix2 (k + 1)) by (rewrite pow_succ; eapply Rle_trans; [apply Rabs_triang|rewrite Rabs_Ropp; lra]).
  destruct (sub_val x y (bpow radix2 (k + 1)) X Y (top_bound (k + 1) ltac:(lia))) as (R & V); [apply rnd_bound1; [lia|exact Q]|].
  split; [|exact V]. split; [exact R|]. change (Rabs (val (f64_sub x y)) <= bpow radix2 (k + 1)). rewrite V. apply rnd_bound1; [lia|exact Q].
Qed.
Lemma rnd_max x y : Rmax (rnd64 x) (rnd64 y) = rnd64 (Rmax x y).
Proof.
  destruct (Rle_dec x y) as [L|L].
  - rewrite (Rmax_right x y L), Rmax_right; [reflexivity|]. now apply (rnd_le 53 1024 H53).
  - rewrite (Rmax_left x y) by lra. rewrite Rmax_left; [reflexivity|]. apply (rnd_le 53 1024 H53). lra.
Qed.

(* the ends of an axis of the cube *)
Definition low (x y e : R) : R := rnd64 (rnd64 (rnd64 (x + y) / 2) - rnd64 (rnd64 e / 2)).
Definition high (x y e : R) : R := rnd64 (rnd64 (rnd64 (x + y) / 2) + rnd64 (rnd64 e / 2)).
Definition longest (b : aabb R) : R := Rmax (px (b_max b) - px (b_min b)) (Rmax (py (b_max b) - py (b_min b)) (pz (b_max b) - pz (b_min b))).
Lemma cubic_values b : moderate_point (b_min b) -> moderate_point (b_max b) ->
  let r := real_box b in let e := longest r in let c := f64_as_cubic b in
  real_box c = mk_aabb (mk_p3 (low (px (b_min r)) (px (b_max r)) e) (low (py (b_min r)) (py (b_max r)) e) (low (pz (b_min r)) (pz (b_max r)) e))
                       (mk_p3 (high (px (b_min r)) (px (b_max r)) e) (high (py (b_min r)) (py (b_max r)) e) (high (pz (b_min r)) (pz (b_max r)) e))
  /\ p3_all real_f64 (b_min c) /\ p3_all real_f64 (b_max c).
Proof.
  destruct b as [[x0 y0 z0] [x1 y1 z1]]. intros (MX & MY & MZ) (NX & NY & NZ). cbn [b_min b_max px py pz] in MX, MY, MZ, NX, NY, NZ.
  apply W_number in MX, MY, MZ, NX, NY, NZ. intros r e c.
  destruct (minus_val x1 x0 900 ltac:(lia) NX MX) as (WX & VX). destruct (minus_val y1 y0 900 ltac:(lia) NY MY) as (WY & VY). destruct (minus_val z1 z0 900 ltac:(lia) NZ MZ) as (WZ & VZ).
  destruct (max_val (f64_sub y1 y0) (f64_sub z1 z0) (proj1 WY) (proj1 WZ)) as (R1 & V1).
  destruct (max_val (f64_sub x1 x0) _ (proj1 WX) R1) as (R2 & V2). set (ma := f64_float_ord_max (f64_sub x1 x0) (f64_float_ord_max (f64_sub y1 y0) (f64_sub z1 z0))) in *.
  assert (WM : W 901 ma).
  { split; [exact R2|]. change (Rabs (val ma) <= bpow radix2 901). rewrite V2, V1.
    destruct WX as (_ & WX), WY as (_ & WY), WZ as (_ & WZ). change (SF2R radix2) with val in *. change (900 + 1)%Z with 901%Z in *.
    apply Rmax_case; [exact WX|]. apply Rmax_case; assumption. }
  assert (VM : val ma = rnd64 e).
  { rewrite V2, V1, VX, VY, VZ, !rnd_max. reflexivity. }
  destruct (half_val ma 901 ltac:(lia) WM) as (WH & VH). set (h := f64_half ma) in *. rewrite VM in VH.
  assert (AX : forall a z, W 900 a -> W 900 z ->
    number (f64_sub (f64_half (f64_add a z)) h) = low (number a) (number z) e /\ number (f64_add (f64_half (f64_add a z)) h) = high (number a) (number z) e
    /\ real_f64 (f64_sub (f64_half (f64_add a z)) h) /\ real_f64 (f64_add (f64_half (f64_add a z)) h)).
  { intros a z A Z. destruct (plus_val a z 900 ltac:(lia) A Z) as (WS & VS). destruct (half_val _ 901 ltac:(lia) WS) as (WC & VC). rewrite VS in VC.
    destruct (minus_val _ h 901 ltac:(lia) WC WH) as (WL & VL). destruct (plus_val _ h 901 ltac:(lia) WC WH) as (WU & VU).
    change number with val. rewrite VL, VU, VC, VH. repeat split; try reflexivity; try apply WL; try apply WU. }
  destruct (AX x0 x1 MX NX) as (X1 & X2 & X3 & X4). destruct (AX y0 y1 MY NY) as (Y1 & Y2 & Y3 & Y4). destruct (AX z0 z1 MZ NZ) as (Z1 & Z2 & Z3 & Z4).
  split; [|split; repeat split; (apply X3 || apply Y3 || apply Z3 || apply X4 || apply Y4 || apply Z4)].
  unfold c, f64_as_cubic, as_cubic, extent, center, real_box, real_point. cbn [b_min b_max px py pz]. fold ma. fold h.
  rewrite X1, X2, Y1, Y2, Z1, Z2. reflexivity.
Qed.

Lemma ends_near x y e m : Rabs x <= m -> Rabs y <= m -> 0 <= e <= 2 * m ->
  let d := bpow radix2 (-49) * m + bpow radix2 (-1071) in
  Rabs (low x y e - ((x + y) / 2 - e / 2)) <= d /\ Rabs (high x y e - ((x + y) / 2 + e / 2)) <= d /\ low x y e <= high x y e.
Proof.
  intros X Y E d. pose proof tiny_lt as T. pose proof (Rabs_pos x) as PX. assert (M : 0 <= m) by lra.
  pose proof (Rabs_triang x y) as TR.
  pose proof (rounded_half (x + y) m ltac:(lra) M) as C. pose proof (rounded_half e m ltac:(rewrite Rabs_pos_eq; lra) M) as H.
  unfold low, high. set (c := rnd64 (rnd64 (x + y) / 2)) in *. set (h := rnd64 (rnd64 e / 2)) in *.
  assert (HP : 0 <= h). { unfold h. apply (rnd_ge_0 53 1024 H53). assert (0 <= rnd64 e) by (apply (rnd_ge_0 53 1024 H53); lra). lra. }
  assert (SM : Rabs (x + y) <= 2 * m) by lra. apply Rabs_le_inv in SM, C, H. pose proof (bpow_gt_0 radix2 (-53)) as P53.
  assert (DE : d = 16 * (e53 * m) + 16 * tiny).
  { unfold d. assert (E1 : bpow radix2 (-49) = 16 * e53) by (change (bpow radix2 (-49)) with (bpow radix2 (4 + -53)); rewrite bpow_plus; reflexivity).
    assert (E2 : bpow radix2 (-1071) = 16 * tiny) by (change (bpow radix2 (-1071)) with (bpow radix2 (4 + -1075)); rewrite bpow_plus; reflexivity). rewrite E1, E2. ring. }
  assert (EM : 0 <= e53 * m) by (apply Rmult_le_pos; lra). rewrite DE. clear DE d.
  assert (B1 : Rabs (c - h) <= 3 * m + 6 * tiny) by (apply Rabs_le; rewrite e53_eq in *; lra).
  assert (B2 : Rabs (c + h) <= 3 * m + 6 * tiny) by (apply Rabs_le; rewrite e53_eq in *; lra).
  pose proof (err_bound _ _ tiny B1 (Rle_refl _)) as F1. pose proof (err_bound _ _ tiny B2 (Rle_refl _)) as F2. apply Rabs_le_inv in F1, F2.
  repeat split; try (apply Rabs_le; rewrite e53_eq in *; lra). apply (rnd_le 53 1024 H53). lra.
Qed.
Lemma longest_edge b : upright b -> In (longest b) (edges b) /\ (forall x, In x (edges b) -> x <= longest b) /\ 0 <= longest b <= 2 * largest b.
Proof.
  intros (X & Y & Z). unfold longest, edges, largest. cbn [In].
  set (a1 := px (b_min b)) in *. set (a2 := px (b_max b)) in *. set (b1 := py (b_min b)) in *. set (b2 := py (b_max b)) in *. set (c1 := pz (b_min b)) in *. set (c2 := pz (b_max b)) in *.
  assert (L : forall x, a2 - a1 = x \/ b2 - b1 = x \/ c2 - c1 = x \/ False -> x <= Rmax (a2 - a1) (Rmax (b2 - b1) (c2 - c1))).
  { pose proof (Rmax_l (a2 - a1) (Rmax (b2 - b1) (c2 - c1))). pose proof (Rmax_r (a2 - a1) (Rmax (b2 - b1) (c2 - c1))).
    pose proof (Rmax_l (b2 - b1) (c2 - c1)). pose proof (Rmax_r (b2 - b1) (c2 - c1)). intros x [<-|[<-|[<-|[]]]]; lra. }
  split; [apply Rmax_case; [auto|]; apply Rmax_case; auto|]. split; [exact L|].
  split; [specialize (L (a2 - a1) (or_introl eq_refl)); lra|].
  set (m1 := Rmax (Rabs a1) (Rabs a2)). set (m2 := Rmax (Rabs b1) (Rabs b2)). set (m3 := Rmax (Rabs c1) (Rabs c2)).
  pose proof (Rmax_l (Rmax m1 m2) m3). pose proof (Rmax_r (Rmax m1 m2) m3). pose proof (Rmax_l m1 m2). pose proof (Rmax_r m1 m2).
  assert (D : forall u v, v - u <= 2 * Rmax (Rabs u) (Rabs v)).
  { intros u v. pose proof (Rmax_l (Rabs u) (Rabs v)). pose proof (Rmax_r (Rabs u) (Rabs v)). pose proof (Rle_abs v). pose proof (Rle_abs (- u)). rewrite Rabs_Ropp in *. lra. }
  pose proof (D a1 a2). pose proof (D b1 b2). pose proof (D c1 c2). fold m1 in H3. fold m2 in H4. fold m3 in H5.
  apply Rmax_lub; [lra|]. apply Rmax_lub; lra.
Qed.
Lemma largest_bounds b : let m := largest b in Rabs (px (b_min b)) <= m /\ Rabs (px (b_max b)) <= m /\ Rabs (py (b_min b)) <= m /\ Rabs (py (b_max b)) <= m
  /\ Rabs (pz (b_min b)) <= m /\ Rabs (pz (b_max b)) <= m.
Proof.
  unfold largest. repeat split.
  1: eapply Rle_trans; [apply Rmax_l|]; eapply Rle_trans; [apply Rmax_l|]; apply Rmax_l.
  1: eapply Rle_trans; [apply Rmax_r|]; eapply Rle_trans; [apply Rmax_l|]; apply Rmax_l.
  1: eapply Rle_trans; [apply Rmax_l|]; eapply Rle_trans; [apply Rmax_r|]; apply Rmax_l.
  1: eapply Rle_trans; [apply Rmax_r|]; eapply Rle_trans; [apply Rmax_r|]; apply Rmax_l.
  1: eapply Rle_trans; [apply Rmax_l|]; apply Rmax_r.
  eapply Rle_trans; [apply Rmax_r|]; apply Rmax_r.
Qed.
(* a point of the axis is near a point of the axis of the cube *)
Lemma axis_near x y e lo hi d : x <= y -> y - x <= e -> Rabs (lo - ((x + y) / 2 - e / 2)) <= d -> Rabs (hi - ((x + y) / 2 + e / 2)) <= d -> lo <= hi ->
  forall p, x <= p <= y -> exists q, lo <= q <= hi /\ Rabs (p - q) <= d.
Proof. intros XY E L H O p P. apply (interval_near ((x + y) / 2 - e / 2) ((x + y) / 2 + e / 2) lo hi d); auto; lra. Qed.

Lemma f64_cube b : moderate_point (b_min b) -> moderate_point (b_max b) -> upright (real_box b) ->
  let c := real_box (f64_as_cubic b) in let d := rounding (real_box b) in
  p3_all real_f64 (b_min (f64_as_cubic b)) /\ p3_all real_f64 (b_max (f64_as_cubic b))
  /\ (forall p, in_box (real_box b) p -> exists q, in_box c q /\ within d p q)
  /\ (exists e, In e (edges (real_box b)) /\ (forall x, In x (edges (real_box b)) -> x <= e) /\ forall x, In x (edges c) -> Rabs (x - e) <= 2 * d)
  /\ within d (middle c) (middle (real_box b)).
Proof.
  intros M N U c d. destruct (cubic_values b M N) as (V & R1 & R2). fold c in V. split; [exact R1|]. split; [exact R2|]. clear R1 R2.
  set (r := real_box b) in *. destruct (longest_edge r U) as (IN & LE & E0). set (e := longest r) in *. pose proof (largest_bounds r) as LB. set (m := largest r) in *.
  destruct LB as (B1 & B2 & B3 & B4 & B5 & B6).
  destruct (ends_near _ _ e m B1 B2 E0) as (X1 & X2 & X3). destruct (ends_near _ _ e m B3 B4 E0) as (Y1 & Y2 & Y3). destruct (ends_near _ _ e m B5 B6 E0) as (Z1 & Z2 & Z3).
  change (bpow radix2 (-49) * m + bpow radix2 (-1071)) with d in *.
  assert (EX : px (b_max r) - px (b_min r) <= e) by (apply LE; cbn; auto). assert (EY : py (b_max r) - py (b_min r) <= e) by (apply LE; cbn; auto).
  assert (EZ : pz (b_max r) - pz (b_min r) <= e) by (apply LE; cbn; auto). destruct U as (UX & UY & UZ).
  split; [|split].
  - intros p (PX & PY & PZ).
    destruct (axis_near _ _ e _ _ d UX EX X1 X2 X3 _ PX) as (q1 & Q1 & D1). destruct (axis_near _ _ e _ _ d UY EY Y1 Y2 Y3 _ PY) as (q2 & Q2 & D2).
    destruct (axis_near _ _ e _ _ d UZ EZ Z1 Z2 Z3 _ PZ) as (q3 & Q3 & D3). exists (mk_p3 q1 q2 q3). rewrite V. split; repeat split; cbn [px py pz b_min b_max]; lra.
  - exists e. split; [exact IN|]. split; [exact LE|]. rewrite V. unfold edges. cbn [px py pz b_min b_max In]. apply Rabs_le_inv in X1, X2, Y1, Y2, Z1, Z2.
    intros x [<-|[<-|[<-|[]]]]; apply Rabs_le; lra.
  - rewrite V. unfold middle. cbn [px py pz b_min b_max]. apply Rabs_le_inv in X1, X2, Y1, Y2, Z1, Z2. split; [|split]; cbn [px py pz]; apply Rabs_le; lra.
Qed.

(* ---- whole numbers ---- *)
Lemma rnd_half_int z : (Z.abs z <= 2 ^ 53)%Z -> rnd64 (IZR z / 2) = IZR z / 2.
Proof. intros H. exact (rnd_multiple z (-1) H ltac:(lia)). Qed.
Lemma rnd_whole z : (Z.abs z <= 2 ^ 53)%Z -> rnd64 (IZR z) = IZR z.
Proof. intros H. pose proof (rnd_multiple z 0 H ltac:(lia)) as E. change (bpow radix2 0) with 1 in E. now rewrite Rmult_1_r in E. Qed.
Lemma ends_exact x y e : (Z.abs x <= 2 ^ 50)%Z -> (Z.abs y <= 2 ^ 50)%Z -> (Z.abs e <= 2 ^ 51)%Z ->
  low (IZR x) (IZR y) (IZR e) = (IZR x + IZR y) / 2 - IZR e / 2 /\ high (IZR x) (IZR y) (IZR e) = (IZR x + IZR y) / 2 + IZR e / 2.
Proof.
  intros X Y E. unfold low, high. rewrite <- !plus_IZR. change (2 ^ 50)%Z with 1125899906842624%Z in *. change (2 ^ 51)%Z with 2251799813685248%Z in *.
  assert (H53 : (2 ^ 53)%Z = 9007199254740992%Z) by reflexivity.
  rewrite (rnd_whole (x + y)), (rnd_whole e), (rnd_half_int (x + y)), (rnd_half_int e) by lia.
  replace (IZR (x + y) / 2 - IZR e / 2) with (IZR (x + y - e) / 2) by (rewrite minus_IZR; lra).
  replace (IZR (x + y) / 2 + IZR e / 2) with (IZR (x + y + e) / 2) by (rewrite (plus_IZR (x + y)); lra).
  rewrite !rnd_half_int by lia. split; reflexivity.
Qed.
Lemma whole_moderate x : whole x -> moderate x.
Proof.
  intros (R & k & V & K). split; [exact R|]. rewrite V, <- abs_IZR. apply Rle_trans with (bpow radix2 50); [change (bpow radix2 50) with (IZR (2 ^ 50)); now apply IZR_le|].
  apply bpow_le. lia.
Qed.
Lemma IZR_max a b : Rmax (IZR a) (IZR b) = IZR (Z.max a b).
Proof.
  destruct (Z.le_ge_cases a b) as [L|L].
  - rewrite Z.max_r by exact L. apply Rmax_right. now apply IZR_le.
  - rewrite Z.max_l by exact L. apply Rmax_left. now apply IZR_le.
Qed.
Lemma whole_cube b : whole_point (b_min b) -> whole_point (b_max b) -> upright (real_box b) ->
  let c := real_box (f64_as_cubic b) in
  (forall p, in_box (real_box b) p -> in_box c p)
  /\ (exists e, In e (edges (real_box b)) /\ (forall x, In x (edges (real_box b)) -> x <= e) /\ forall x, In x (edges c) -> x = e)
  /\ middle c = middle (real_box b).
Proof.
  destruct b as [[x0 y0 z0] [x1 y1 z1]]. intros M N U c. cbn [b_min b_max] in M, N.
  assert (M' : moderate_point (mk_p3 x0 y0 z0)) by (destruct M as (A & B & C); repeat split; apply whole_moderate; assumption).
  assert (N' : moderate_point (mk_p3 x1 y1 z1)) by (destruct N as (A & B & C); repeat split; apply whole_moderate; assumption).
  destruct (cubic_values (mk_aabb (mk_p3 x0 y0 z0) (mk_p3 x1 y1 z1)) M' N') as (V & _ & _). fold c in V.
  destruct (longest_edge _ U) as (IN & LE & _). set (r := real_box (mk_aabb (mk_p3 x0 y0 z0) (mk_p3 x1 y1 z1))) in *.
  destruct M as ((_ & a1 & A1 & LA1) & (_ & b1 & B1 & LB1) & (_ & c1 & C1 & LC1)). destruct N as ((_ & a2 & A2 & LA2) & (_ & b2 & B2 & LB2) & (_ & c2 & C2 & LC2)).
  cbn [px py pz] in A1, B1, C1, A2, B2, C2.
  assert (RE : r = mk_aabb (mk_p3 (IZR a1) (IZR b1) (IZR c1)) (mk_p3 (IZR a2) (IZR b2) (IZR c2))).
  { unfold r, real_box, real_point. cbn [px py pz b_min b_max]. now rewrite A1, B1, C1, A2, B2, C2. }
  assert (EE : longest r = IZR (Z.max (a2 - a1) (Z.max (b2 - b1) (c2 - c1)))).
  { rewrite RE. unfold longest. cbn [px py pz b_min b_max]. rewrite <- !minus_IZR, !IZR_max. reflexivity. }
  set (e := Z.max (a2 - a1) (Z.max (b2 - b1) (c2 - c1))) in *.
  assert (BE : (Z.abs e <= 2 ^ 51)%Z) by (change (2 ^ 51)%Z with (2 * 2 ^ 50)%Z; generalize dependent (2 ^ 50)%Z; intros; lia).
  assert (EX : px (b_max r) - px (b_min r) <= longest r) by (apply LE; cbn; auto). assert (EY : py (b_max r) - py (b_min r) <= longest r) by (apply LE; cbn; auto).
  assert (EZ : pz (b_max r) - pz (b_min r) <= longest r) by (apply LE; cbn; auto).
  clearbody r c. rewrite EE, RE in *. cbn [px py pz b_min b_max] in V, EX, EY, EZ. clearbody e.
  destruct (ends_exact a1 a2 e LA1 LA2 BE) as (X1 & X2). destruct (ends_exact b1 b2 e LB1 LB2 BE) as (Y1 & Y2). destruct (ends_exact c1 c2 e LC1 LC2 BE) as (Z1 & Z2).
  rewrite X1, X2, Y1, Y2, Z1, Z2 in V. rewrite V.
  split; [|split].
  - intros [p1 p2 p3] (PX & PY & PZ). cbn [px py pz b_min b_max] in PX, PY, PZ. split; [|split]; cbn [px py pz b_min b_max]; lra.
  - exists (IZR e). split; [exact IN|]. split; [exact LE|]. unfold edges. cbn [px py pz b_min b_max In]. intros x [<-|[<-|[<-|[]]]]; lra.
  - unfold middle. cbn [px py pz b_min b_max]. f_equal; lra.
Qed.
