(* The normal estimation in f64: no overflow and no NaN for coordinates of moderate size. *)
From Coq Require Import String List ZArith Reals Lia Lra Bool Arith SpecFloat.
From Flocq Require Import Core BinarySingleNaN.
From Verif Require Import Base MathModel MathSpec SegModel SegSpec VoxModel VoxSpec FloatReal F64Real NormModel NormSpec.
Import ListNotations.
Open Scope R_scope.

(* ------------------------------------------------------------------ bounds *)

Definition W (k : Z) (x : spec_float) : Prop := within (bpow radix2 k) x.
Definition small (k : Z) : bool := ((-1000 <=? k) && (k <=? 1000))%Z.
Lemma small_ok k : small k = true -> (-1000 <= k <= 1000)%Z.
Proof. unfold small. rewrite andb_true_iff, !Z.leb_le. auto. Qed.
Lemma W_mono j k x : W j x -> (j <=? k)%Z = true -> W k x.
Proof. intros (V & B) L. split; auto. apply Z.leb_le in L. eapply Rle_trans; [exact B|]. now apply bpow_le. Qed.
#[local] Instance f53 : Valid_exp (SpecFloat.fexp 53 1024) := fexp_ok 53 1024 H53.
(* m * 2^k is a float *)
Lemma rnd_bound m k x : (0 <= m <= 2 ^ 53)%Z -> (-1000 <= k)%Z -> Rabs x <= IZR m * bpow radix2 k -> Rabs (rnd64 x) <= IZR m * bpow radix2 k.
Proof.
  intros M K B. unfold rnd64, rnd. apply abs_round_le_generic; auto with typeclass_instances.
  apply (generic_format_FLT radix2 (SpecFloat.emin 53 1024) 53). change (SpecFloat.emin 53 1024) with (-1074)%Z. destruct (Z.eq_dec m (2 ^ 53)) as [-> |N].
  - exists (Float radix2 1 (53 + k)); cbn [Fnum Fexp]; [|reflexivity|lia]. unfold F2R. cbn [Fnum Fexp]. change (2 ^ 53)%Z with (Zpower radix2 53). rewrite IZR_Zpower by lia. rewrite <- bpow_plus. ring.
  - exists (Float radix2 m k); cbn [Fnum Fexp]; [reflexivity|change (Zpower radix2 53) with (2 ^ 53)%Z; lia|lia].
Qed.
Lemma rnd_bound1 k x : (-1000 <= k)%Z -> Rabs x <= bpow radix2 k -> Rabs (rnd64 x) <= bpow radix2 k.
Proof. intros K B. pose proof (rnd_bound 1 k x ltac:(lia) K ltac:(lra)). lra. Qed.
Lemma range_bound b x : b < bpow radix2 1024 -> Rabs x <= b -> in_range 1024 x.
Proof. unfold in_range. lra. Qed.
Lemma top_bound k : (k <= 1000)%Z -> bpow radix2 k < bpow radix2 1024.
Proof. intros. apply bpow_lt. lia. Qed.

Lemma add_val x y b : real_f64 x -> real_f64 y -> b < bpow radix2 1024 -> Rabs (rnd64 (val x + val y)) <= b ->
  real_f64 (f64_add x y) /\ val (f64_add x y) = rnd64 (val x + val y).
Proof.
  intros (Fx & Vx) (Fy & Vy) B L. pose proof Vx as Ux. pose proof Vy as Uy. apply f64_valid in Vx, Vy. apply finite_SF in Fx, Fy.
  destruct (proj1 (add_correct 53 1024 H53 H1024 x y Vx Vy Fx Fy) (range_bound _ _ B L)) as (F & E). split; [split; [now apply finite_SF|now apply add_f64]|exact E].
Qed.
Lemma sub_val x y b : real_f64 x -> real_f64 y -> b < bpow radix2 1024 -> Rabs (rnd64 (val x - val y)) <= b ->
  real_f64 (f64_sub x y) /\ val (f64_sub x y) = rnd64 (val x - val y).
Proof.
  intros (Fx & Vx) (Fy & Vy) B L. pose proof Vx as Ux. pose proof Vy as Uy. apply f64_valid in Vx, Vy. apply finite_SF in Fx, Fy.
  destruct (proj1 (sub_correct 53 1024 H53 H1024 x y Vx Vy Fx Fy) (range_bound _ _ B L)) as (F & E). split; [split; [now apply finite_SF|now apply sub_f64]|exact E].
Qed.
Lemma mul_val x y b : real_f64 x -> real_f64 y -> b < bpow radix2 1024 -> Rabs (rnd64 (val x * val y)) <= b ->
  real_f64 (f64_mul x y) /\ val (f64_mul x y) = rnd64 (val x * val y).
Proof.
  intros (Fx & Vx) (Fy & Vy) B L. apply f64_valid in Vx, Vy. apply finite_SF in Fx, Fy.
  destruct (proj1 (mul_correct 53 1024 H53 H1024 x y Vx Vy Fx Fy) (range_bound _ _ B L)) as (F & E). split; [split; [now apply finite_SF|apply f64_valid; now apply (mul_valid 53 1024 H53 H1024)]|exact E].
Qed.
Lemma div_val x y b : real_f64 x -> real_f64 y -> val y <> 0 -> b < bpow radix2 1024 -> Rabs (rnd64 (val x / val y)) <= b ->
  real_f64 (f64_div x y) /\ val (f64_div x y) = rnd64 (val x / val y).
Proof.
  intros (Fx & Vx) (Fy & Vy) N B L. apply f64_valid in Vx, Vy. apply finite_SF in Fx, Fy.
  destruct (proj1 (div_correct 53 1024 H53 H1024 x y Vx Vy Fx N) (range_bound _ _ B L)) as (F & E). split; [split; [now apply finite_SF|apply f64_valid; now apply (div_valid 53 1024 H53 H1024)]|exact E].
Qed.
Lemma sqrt_equiv x (V : SpecFloat.valid_binary 53 1024 x = true) : SpecFloat.SFsqrt 53 1024 x = B2SF (Bsqrt (prec_gt_0_ := H53) (prec_lt_emax_ := H1024) mode_NE (SF2B x V)).
Proof.
  destruct x as [s|s| |s m e]; try reflexivity; destruct s; try reflexivity. cbn [SpecFloat.SFsqrt SF2B Bsqrt]. rewrite B2SF_SF2B.
  set (q := SpecFloat.SFsqrt_core_binary _ _ _ _). destruct q as ((mz, ez), lz). apply binary_round_aux_equiv.
Qed.
Lemma sqrt_val x : real_f64 x -> 0 <= val x -> real_f64 (SpecFloat.SFsqrt 53 1024 x) /\ val (SpecFloat.SFsqrt 53 1024 x) = rnd64 (sqrt (val x)).
Proof.
  intros (Fx & Vx) P. pose proof Vx as V. apply f64_valid in V. pose proof (Bsqrt_correct 53 1024 H53 H1024 mode_NE (SF2B x V)) as (C & F & _).
  assert (FF : BinarySingleNaN.is_finite (Bsqrt (prec_gt_0_ := H53) (prec_lt_emax_ := H1024) mode_NE (SF2B x V)) = true).
  { rewrite F. destruct x as [s|s| |s m e]; cbn; auto; try (now elim Fx). destruct s; auto. exfalso. unfold val, value, SF2R in P. cbn in P. pose proof (F2R_lt_0 radix2 (Float radix2 (Zneg m) e) ltac:(reflexivity)). change (cond_Zopp true (Z.pos m)) with (Zneg m) in P. lra. }
  rewrite <- finite_back, <- sqrt_equiv in FF. rewrite value_B, <- value_back, <- sqrt_equiv in C. split; [split|exact C].
  - now apply finite_SF.
  - apply f64_valid. rewrite (sqrt_equiv x V). apply valid_binary_B2SF.
Qed.

Lemma W_add j k x y : W j x -> W k y -> small (Z.max j k + 1) = true -> W (Z.max j k + 1) (f64_add x y).
Proof.
  intros (Vx & Bx) (Vy & By) S. apply small_ok in S. change (SF2R radix2 x) with (val x) in Bx. change (SF2R radix2 y) with (val y) in By.
  assert (L : Rabs (val x + val y) <= bpow radix2 (Z.max j k + 1)).
  { eapply Rle_trans; [apply Rabs_triang|]. rewrite bpow_plus. change (bpow radix2 1) with 2. pose proof (bpow_le radix2 j (Z.max j k) ltac:(lia)). pose proof (bpow_le radix2 k (Z.max j k) ltac:(lia)). lra. }
  apply rnd_bound1 in L; [|lia]. destruct (add_val x y _ Vx Vy (top_bound _ (proj2 S)) L) as (R & E). split; auto. change (SF2R radix2 (f64_add x y)) with (val (f64_add x y)). now rewrite E.
Qed.
Lemma W_sub j k x y : W j x -> W k y -> small (Z.max j k + 1) = true -> W (Z.max j k + 1) (f64_sub x y).
Proof.
  intros (Vx & Bx) (Vy & By) S. apply small_ok in S. change (SF2R radix2 x) with (val x) in Bx. change (SF2R radix2 y) with (val y) in By.
  assert (L : Rabs (val x - val y) <= bpow radix2 (Z.max j k + 1)).
  { unfold Rminus. eapply Rle_trans; [apply Rabs_triang|]. rewrite Rabs_Ropp. rewrite bpow_plus. change (bpow radix2 1) with 2. pose proof (bpow_le radix2 j (Z.max j k) ltac:(lia)). pose proof (bpow_le radix2 k (Z.max j k) ltac:(lia)). lra. }
  apply rnd_bound1 in L; [|lia]. destruct (sub_val x y _ Vx Vy (top_bound _ (proj2 S)) L) as (R & E). split; auto. change (SF2R radix2 (f64_sub x y)) with (val (f64_sub x y)). now rewrite E.
Qed.
Lemma W_mul j k x y : W j x -> W k y -> small (j + k) = true -> W (j + k) (f64_mul x y).
Proof.
  intros (Vx & Bx) (Vy & By) S. apply small_ok in S. change (SF2R radix2 x) with (val x) in Bx. change (SF2R radix2 y) with (val y) in By.
  assert (L : Rabs (val x * val y) <= bpow radix2 (j + k)).
  { rewrite Rabs_mult, bpow_plus. apply Rmult_le_compat; auto using Rabs_pos. }
  apply rnd_bound1 in L; [|lia]. destruct (mul_val x y _ Vx Vy (top_bound _ (proj2 S)) L) as (R & E). split; auto. change (SF2R radix2 (f64_mul x y)) with (val (f64_mul x y)). now rewrite E.
Qed.
Lemma W_sqrt k x : W (2 * k) x -> 0 <= val x -> small k = true -> W k (SpecFloat.SFsqrt 53 1024 x).
Proof.
  intros (Vx & Bx) P S. apply small_ok in S. change (SF2R radix2 x) with (val x) in Bx. destruct (sqrt_val x Vx P) as (R & E). split; auto. change (SF2R radix2 (SpecFloat.SFsqrt 53 1024 x)) with (val (SpecFloat.SFsqrt 53 1024 x)). rewrite E.
  apply rnd_bound1; [lia|]. rewrite Rabs_right by (apply Rle_ge, sqrt_pos). rewrite Rabs_right in Bx by lra. rewrite <- (sqrt_square (bpow radix2 k)) by apply bpow_ge_0. apply sqrt_le_1_alt. rewrite <- bpow_plus. now replace (k + k)%Z with (2 * k)%Z by lia.
Qed.
Lemma val_opp x : val (SFopp x) = - val x.
Proof. unfold val, value. destruct x as [s|s| |s m e]; cbn; try lra. destruct s; cbn; rewrite <- F2R_Zopp; reflexivity. Qed.
Lemma W_opp k x : W k x -> W k (SFopp x).
Proof.
  intros ((F & V) & B). split; [split; destruct x; auto|]. change (SF2R radix2 (SFopp x)) with (val (SFopp x)). rewrite val_opp, Rabs_Ropp. exact B.
Qed.
Lemma real_val k x : real_f64 x -> Rabs (val x) <= bpow radix2 k -> W k x.
Proof. intros. split; auto. Qed.
Lemma W_real k x : W k x -> real_f64 x.
Proof. intros H. apply H. Qed.
Lemma W_ltb j k x y : W j x -> W k y -> (SFltb x y = true <-> val x < val y).
Proof.
  intros Hx Hy. apply W_real in Hx, Hy. rewrite ltb_rank; try apply Hx; try apply Hy; auto using real_not_nan. now rewrite !rank_real.
Qed.
Lemma W_nat n : (Z.of_nat n <= 2 ^ 53)%Z -> real_f64 (SpecFloat.binary_normalize 53 1024 (Z.of_nat n) 0 false) /\ val (SpecFloat.binary_normalize 53 1024 (Z.of_nat n) 0 false) = INR n.
Proof. intros H. rewrite INR_IZR_INZ. apply of_int. lia. Qed.

(* a proof of W k t for some k, from proofs for the variables in t *)
Ltac bound t :=
  match t with
  | f64_add ?x ?y => let p := bound x in let q := bound y in constr:(W_add _ _ _ _ p q eq_refl)
  | f64_sub ?x ?y => let p := bound x in let q := bound y in constr:(W_sub _ _ _ _ p q eq_refl)
  | f64_mul ?x ?y => let p := bound x in let q := bound y in constr:(W_mul _ _ _ _ p q eq_refl)
  | SFopp ?x => let p := bound x in constr:(W_opp _ _ p)
  | _ => match goal with H : W _ t |- _ => constr:(H) end
  end.
Ltac bounded := match goal with |- W ?k ?t => let p := bound t in let T := type of p in match T with W ?j _ => exact (W_mono j k t p (eq_refl true)) end end.

(* ------------------------------------------------------------------ the estimation *)

Section Estimation.
Variables (atan2 : spec_float -> spec_float -> spec_float) (cos sin : spec_float -> spec_float).
Hypothesis LIBM : libm_ok atan2 cos sin.
Let e := f64_nops atan2 cos sin.
Ltac norm := change (o_add (n_ops e)) with f64_add in *; change (o_sub (n_ops e)) with f64_sub in *; change (o_mul (n_ops e)) with f64_mul in *; change (o_div (n_ops e)) with f64_div in *;
  change (o_neg (n_ops e)) with SFopp in *; change (o_abs (n_ops e)) with SFabs in *; change (o_sqrt (n_ops e)) with (SpecFloat.SFsqrt 53 1024) in *; change (o_lt (n_ops e)) with SFltb in *;
  change (n_atan2 e) with atan2 in *; change (n_cos e) with cos in *; change (n_sin e) with sin in *; change (n_le e) with SFleb in *; change (n_eq e) with SFeqb in *.
Lemma nat_bound n k : (0 <= k <= 53)%Z -> (Z.of_nat n <= 2 ^ k)%Z -> W k (n_nat e n).
Proof.
  intros K N. assert (Z.of_nat n <= 2 ^ 53)%Z by (eapply Z.le_trans; [exact N|apply Z.pow_le_mono_r; lia]). destruct (W_nat n ltac:(auto)) as (R & E). apply real_val; auto. change (n_nat e n) with (SpecFloat.binary_normalize 53 1024 (Z.of_nat n) 0 false).
  rewrite E, Rabs_right by (apply Rle_ge, pos_INR). rewrite INR_IZR_INZ, <- (IZR_Zpower radix2 k) by lia. apply IZR_le. exact N.
Qed.

(* sums of n numbers *)
Definition S_ok (k : Z) (n : nat) (x : spec_float) : Prop := real_f64 x /\ Rabs (val x) <= INR n * bpow radix2 k.
Lemma S_step k n x y : (-1000 <= k <= 900)%Z -> (Z.of_nat n < 2 ^ 32)%Z -> S_ok k n x -> W k y -> S_ok k (S n) (f64_add x y) /\ val (f64_add x y) = rnd64 (val x + val y).
Proof.
  intros K N (Vx & Bx) (Vy & By). change (SF2R radix2 y) with (val y) in By.
  assert (L : Rabs (val x + val y) <= IZR (Z.of_nat (S n)) * bpow radix2 k). { eapply Rle_trans; [apply Rabs_triang|]. rewrite <- INR_IZR_INZ, S_INR. lra. }
  apply rnd_bound in L; [|lia|lia]. assert (T : IZR (Z.of_nat (S n)) * bpow radix2 k < bpow radix2 1024).
  { apply Rle_lt_trans with (bpow radix2 32 * bpow radix2 k); [|rewrite <- bpow_plus; apply bpow_lt; lia]. apply Rmult_le_compat_r; [apply bpow_ge_0|]. rewrite <- (IZR_Zpower radix2 32) by lia. apply IZR_le. change (Zpower radix2 32) with (2 ^ 32)%Z. lia. }
  destruct (add_val x y _ Vx Vy T L) as (R & E). split; auto. split; auto. rewrite E, INR_IZR_INZ. exact L.
Qed.
Lemma S_W k n x : (-1000 <= k <= 900)%Z -> (Z.of_nat n <= 2 ^ 32)%Z -> S_ok k n x -> W (32 + k) x.
Proof.
  intros K N (V & B). apply real_val; auto. eapply Rle_trans; [exact B|]. rewrite bpow_plus. apply Rmult_le_compat_r; [apply bpow_ge_0|]. rewrite INR_IZR_INZ, <- (IZR_Zpower radix2 32) by lia. apply IZR_le. exact N.
Qed.
Lemma S_zero k : S_ok k 0 (n_nat e 0).
Proof. split; [split; cbn; auto|]. change (val (n_nat e 0)) with 0. rewrite Rabs_R0. cbn [INR]. lra. Qed.

Definition PW (k : Z) (p : p3 spec_float) : Prop := W k (px p) /\ W k (py p) /\ W k (pz p).
Lemma used_finite ps : Forall (PW 64) ps -> used e ps = ps.
Proof.
  intros F. unfold used. replace (is_dense e ps) with true; auto. symmetry. apply forallb_forall. intros p Hp. rewrite Forall_forall in F. destruct (F p Hp) as (X & Y & Z).
  change (n_is_nan e) with (fun x => match x with S754_nan => true | _ => false end). apply W_real in X, Y, Z. destruct X as (X & _), Y as (Y & _), Z as (Z & _).
  destruct (px p), (py p), (pz p); try reflexivity; try (now elim X); try (now elim Y); try (now elim Z).
Qed.
Lemma centroid_fold ps : Forall (PW 64) ps -> forall n c, S_ok 64 n (px c) -> S_ok 64 n (py c) -> S_ok 64 n (pz c) -> (Z.of_nat (n + length ps) <= 2 ^ 32)%Z ->
  let r := fold_left (fun c p => mk_p3 (f64_add (px c) (px p)) (f64_add (py c) (py p)) (f64_add (pz c) (pz p))) ps c in
  S_ok 64 (n + length ps) (px r) /\ S_ok 64 (n + length ps) (py r) /\ S_ok 64 (n + length ps) (pz r).
Proof.
  induction 1 as [|p ps (X & Y & Z) F IH]; intros n c Sx Sy Sz N; cbn [fold_left length] in *.
  - rewrite Nat.add_0_r. auto.
  - rewrite <- Nat.add_succ_comm. apply IH; cbn [px py pz]; try (apply S_step; auto; lia). lia.
Qed.
Lemma mean_bound k n x : (n <> 0)%nat -> (-1000 <= k <= 900)%Z -> (Z.of_nat n <= 2 ^ 32)%Z -> S_ok k n x -> W k (f64_div x (n_nat e n)).
Proof.
  intros N0 K N (V & B). destruct (W_nat n ltac:(lia)) as (R & E). change (SpecFloat.binary_normalize 53 1024 (Z.of_nat n) 0 false) with (n_nat e n) in *.
  assert (P : 0 < INR n) by (apply lt_0_INR; lia).
  assert (L : Rabs (val x / val (n_nat e n)) <= bpow radix2 k).
  { rewrite E. unfold Rdiv. rewrite Rabs_mult, Rabs_inv. rewrite (Rabs_right (INR n)) by lra. apply (Rmult_le_reg_r (INR n)); auto. replace (Rabs (val x) * / INR n * INR n) with (Rabs (val x)) by (field; lra). lra. }
  apply rnd_bound1 in L; [|lia]. destruct (div_val x (n_nat e n) (bpow radix2 k) V R ltac:(rewrite E; lra) ltac:(apply top_bound; lia) L) as (R' & E'). apply real_val; auto. now rewrite E'.
Qed.
Lemma centroid_bound ps : Forall (PW 64) ps -> ps <> [] -> (Z.of_nat (length ps) <= 2 ^ 32)%Z -> exists c, compute_centroid e ps = Ok c /\ PW 64 c.
Proof.
  intros F N L. unfold compute_centroid. destruct ps as [|p ps]; [now elim N|]. set (qs := p :: ps) in *. rewrite (used_finite qs F). cbv zeta. norm.
  pose proof (centroid_fold qs F 0 (mk_p3 (n_nat e 0) (n_nat e 0) (n_nat e 0)) (S_zero 64) (S_zero 64) (S_zero 64) L) as (X & Y & Z). cbn [Nat.add] in X, Y, Z.
  eexists. split; [reflexivity|]. assert (length qs <> 0)%nat by discriminate. split; [|split]; cbn [px py pz]; apply mean_bound; auto; lia.
Qed.

Lemma step_bound c p : PW 64 c -> PW 64 p -> PW 65 (mk_p3 (f64_sub (px p) (px c)) (f64_sub (py p) (py c)) (f64_sub (pz p) (pz c))).
Proof. intros (A & B & C) (X & Y & Z). split; [|split]; cbn [px py pz]; bounded. Qed.
Lemma square_val k x : W k x -> small (k + k) = true -> W (k + k) (f64_mul x x) /\ val (f64_mul x x) = rnd64 (val x * val x) /\ 0 <= val (f64_mul x x).
Proof.
  intros H S. pose proof (W_mul k k x x H H S) as M. split; auto. pose proof S as S'. apply small_ok in S'. destruct H as (V & B). change (SF2R radix2 x) with (val x) in B.
  assert (L : Rabs (val x * val x) <= bpow radix2 (k + k)). { rewrite Rabs_mult, bpow_plus. apply Rmult_le_compat; auto using Rabs_pos. }
  apply rnd_bound1 in L; [|lia]. destruct (mul_val x x _ V V (top_bound _ (proj2 S')) L) as (_ & E). split; auto. rewrite E. apply (rnd_ge_0 53 1024 H53). apply Rle_0_sqr.
Qed.
Lemma rnd_val x : real_f64 x -> rnd64 (val x) = val x.
Proof. intros (_ & V). apply f64_valid in V. apply (rnd_value 53 1024 x V). Qed.
(* a sum of nonnegative numbers is at least each of them *)
Lemma grow k n x y : (-1000 <= k <= 900)%Z -> (Z.of_nat n < 2 ^ 32)%Z -> S_ok k n x -> W k y -> 0 <= val x -> 0 <= val y -> val x <= val (f64_add x y) /\ val y <= val (f64_add x y).
Proof.
  intros K N Sx Wy Px Py. destruct (S_step k n x y K N Sx Wy) as (_ & E). rewrite E. split.
  - rewrite <- (rnd_val x) at 1 by apply Sx. apply (rnd_le 53 1024 H53). lra.
  - rewrite <- (rnd_val y) at 1 by apply Wy. apply (rnd_le 53 1024 H53). lra.
Qed.
Definition U_ok (n : nat) (u : upper spec_float) : Prop :=
  S_ok 130 n (u_xx u) /\ S_ok 130 n (u_xy u) /\ S_ok 130 n (u_xz u) /\ S_ok 130 n (u_yy u) /\ S_ok 130 n (u_yz u) /\ S_ok 130 n (u_zz u)
  /\ 0 <= val (u_xx u) /\ 0 <= val (u_yy u) /\ 0 <= val (u_zz u).
Definition diag_ge (u : upper spec_float) (x y z : R) : Prop := x <= val (u_xx u) /\ y <= val (u_yy u) /\ z <= val (u_zz u).
Lemma cov_step_ok c p u n : PW 64 c -> PW 64 p -> (Z.of_nat n < 2 ^ 32)%Z -> U_ok n u ->
  U_ok (S n) (cov_step e c u p)
  /\ diag_ge (cov_step e c u p) (val (u_xx u)) (val (u_yy u)) (val (u_zz u))
  /\ diag_ge (cov_step e c u p) (val (f64_mul (f64_sub (px p) (px c)) (f64_sub (px p) (px c)))) (val (f64_mul (f64_sub (py p) (py c)) (f64_sub (py p) (py c))))
       (val (f64_mul (f64_sub (pz p) (pz c)) (f64_sub (pz p) (pz c)))).
Proof.
  intros C P N (A1 & A2 & A3 & A4 & A5 & A6 & A7 & A8 & A9). destruct (step_bound c p C P) as (X & Y & Z). cbn [px py pz] in X, Y, Z.
  unfold cov_step. cbv zeta. norm. set (dx := f64_sub (px p) (px c)) in *. set (dy := f64_sub (py p) (py c)) in *. set (dz := f64_sub (pz p) (pz c)) in *.
  destruct (square_val 65 dx X eq_refl) as (X2 & _ & XP). destruct (square_val 65 dy Y eq_refl) as (Y2 & _ & YP). destruct (square_val 65 dz Z eq_refl) as (Z2 & _ & ZP).
  pose proof (W_mul 65 65 dy dx Y X eq_refl) as M1. pose proof (W_mul 65 65 dz dx Z X eq_refl) as M2. pose proof (W_mul 65 65 dy dz Y Z eq_refl) as M3. change (65 + 65)%Z with 130%Z in *.
  assert (K : (-1000 <= 130 <= 900)%Z) by lia.
  destruct (grow 130 n (u_xx u) _ K N A1 X2 A7 XP). destruct (grow 130 n (u_yy u) _ K N A4 Y2 A8 YP). destruct (grow 130 n (u_zz u) _ K N A6 Z2 A9 ZP).
  split; [|split; unfold diag_ge; cbn [u_xx u_yy u_zz]; auto].
  unfold U_ok. cbn [u_xx u_xy u_xz u_yy u_yz u_zz]. repeat match goal with |- _ /\ _ => split end; try (apply S_step; auto; fail); lra.
Qed.
Lemma cov_fold_ok c ps : PW 64 c -> Forall (PW 64) ps -> forall n u, (Z.of_nat (n + length ps) <= 2 ^ 32)%Z -> U_ok n u ->
  let r := fold_left (cov_step e c) ps u in
  U_ok (n + length ps) r /\ diag_ge r (val (u_xx u)) (val (u_yy u)) (val (u_zz u))
  /\ forall p, In p ps -> diag_ge r (val (f64_mul (f64_sub (px p) (px c)) (f64_sub (px p) (px c)))) (val (f64_mul (f64_sub (py p) (py c)) (f64_sub (py p) (py c))))
       (val (f64_mul (f64_sub (pz p) (pz c)) (f64_sub (pz p) (pz c)))).
Proof.
  intros C. induction 1 as [|p ps P F IH]; intros n u N U; cbn [fold_left length] in *.
  - rewrite Nat.add_0_r. split; auto. split; [unfold diag_ge; lra|intros p []].
  - destruct (cov_step_ok c p u n C P ltac:(lia) U) as (U' & D1 & D2). rewrite <- Nat.add_succ_comm. destruct (IH (S n) _ ltac:(lia) U') as (U2 & D3 & D4). split; auto.
    unfold diag_ge in *. split; [lra|]. intros q [<-|Q]; [lra|auto].
Qed.
(* the covariance matrix *)
Definition MW (k : Z) (m : m3 spec_float) : Prop := PW k (px m) /\ PW k (py m) /\ PW k (pz m).
Lemma covariance_bound ps : Forall (PW 64) ps -> (3 <= length ps)%nat -> (Z.of_nat (length ps) <= 2 ^ 32)%Z ->
  exists m c, compute_covariance_matrix e ps = Ok m /\ MW 162 m /\ PW 64 c
    /\ forall p, In p ps -> val (f64_mul (f64_sub (px p) (px c)) (f64_sub (px p) (px c))) <= val (px (px m))
                        /\ val (f64_mul (f64_sub (py p) (py c)) (f64_sub (py p) (py c))) <= val (py (py m))
                        /\ val (f64_mul (f64_sub (pz p) (pz c)) (f64_sub (pz p) (pz c))) <= val (pz (pz m)).
Proof.
  intros F L3 L. destruct (centroid_bound ps F ltac:(intros ->; cbn in L3; lia) L) as (c & E & C). unfold compute_covariance_matrix. rewrite E. cbn [bind]. rewrite (used_finite ps F). cbv zeta.
  destruct (Nat.ltb_spec (length ps) 3) as [|_]; [lia|].
  assert (U0 : U_ok 0 (mk_upper (n_nat e 0) (n_nat e 0) (n_nat e 0) (n_nat e 0) (n_nat e 0) (n_nat e 0))).
  { unfold U_ok. cbn [u_xx u_xy u_xz u_yy u_yz u_zz]. pose proof (S_zero 130). change (val (n_nat e 0)) with 0. repeat match goal with |- _ /\ _ => split end; auto; lra. }
  destruct (cov_fold_ok c ps C F 0 _ L U0) as (U & _ & D). cbn [Nat.add] in U. set (u := fold_left (cov_step e c) ps _) in *. do 2 eexists. split; [reflexivity|].
  destruct U as (A1 & A2 & A3 & A4 & A5 & A6 & _). assert (K : (-1000 <= 130 <= 900)%Z) by lia.
  assert (SW : forall x, S_ok 130 (length ps) x -> W 162 x) by (intros x Hx; apply (S_W 130 (length ps) x K L Hx)).
  split; [|split; [exact C|exact D]]. unfold MW, PW. cbn [px py pz]. repeat match goal with |- _ /\ _ => split end; auto.
Qed.
Lemma far a b c d : d <= a - b -> d / 2 <= Rabs (a - c) \/ d / 2 <= Rabs (b - c).
Proof. intros H. destruct (Rle_dec (d / 2) (a - c)); [left|right]; unfold Rabs; destruct (Rcase_abs _); lra. Qed.
Lemma rnd_lower k x : (-1000 <= k)%Z -> bpow radix2 k <= Rabs x -> bpow radix2 k <= Rabs (rnd64 x).
Proof.
  intros K B. unfold rnd64, rnd. apply abs_round_ge_generic; auto with typeclass_instances.
  apply (generic_format_FLT radix2 (SpecFloat.emin 53 1024) 53). change (SpecFloat.emin 53 1024) with (-1074)%Z.
  exists (Float radix2 1 k); cbn [Fnum Fexp]; [unfold F2R; cbn [Fnum Fexp]; ring|reflexivity|lia].
Qed.
Lemma square_far x c : W 64 x -> W 64 c -> bpow radix2 (-401) <= Rabs (val x - val c) -> bpow radix2 (-802) <= val (f64_mul (f64_sub x c) (f64_sub x c)).
Proof.
  intros X C L. pose proof (W_sub 64 64 x c X C eq_refl) as D. destruct (square_val 65 _ D eq_refl) as (_ & E & P).
  assert (B : Rabs (val x - val c) <= bpow radix2 65).
  { destruct X as (_ & X), C as (_ & C). change (SF2R radix2 x) with (val x) in X. change (SF2R radix2 c) with (val c) in C. unfold Rminus. eapply Rle_trans; [apply Rabs_triang|]. rewrite Rabs_Ropp. replace (bpow radix2 65) with (2 * bpow radix2 64) by (cbn; lra). lra. }
  apply rnd_bound1 in B; [|lia]. destruct (sub_val x c _ (proj1 X) (proj1 C) (top_bound 65 ltac:(lia)) B) as (_ & ES).
  apply rnd_lower in L; [|lia]. rewrite <- ES in L. set (d := f64_sub x c) in *. rewrite <- (Rabs_right (val (f64_mul d d))) by lra. rewrite E. apply rnd_lower; [lia|].
  rewrite Rabs_mult. replace (bpow radix2 (-802)) with (bpow radix2 (-401) * bpow radix2 (-401)) by (rewrite <- bpow_plus; reflexivity). apply Rmult_le_compat; auto using bpow_ge_0.
Qed.
Lemma spread_covariance ps m c : Forall (PW 64) ps -> PW 64 c -> spread (bpow radix2 (-400)) ps ->
  (forall p, In p ps -> val (f64_mul (f64_sub (px p) (px c)) (f64_sub (px p) (px c))) <= val (px (px m))
                        /\ val (f64_mul (f64_sub (py p) (py c)) (f64_sub (py p) (py c))) <= val (py (py m))
                        /\ val (f64_mul (f64_sub (pz p) (pz c)) (f64_sub (pz p) (pz c))) <= val (pz (pz m))) ->
  bpow radix2 (-802) <= val (px (px m)) \/ bpow radix2 (-802) <= val (py (py m)) \/ bpow radix2 (-802) <= val (pz (pz m)).
Proof.
  intros F (Cx & Cy & Cz) (p & q & Hp & Hq & H) D. rewrite Forall_forall in F. destruct (F p Hp) as (Px & Py & Pz), (F q Hq) as (Qx & Qy & Qz). destruct (D p Hp) as (D1 & D2 & D3), (D q Hq) as (E1 & E2 & E3).
  assert (HH : bpow radix2 (-400) / 2 = bpow radix2 (-401)). { change (-400)%Z with (-401 + 1)%Z. rewrite bpow_plus. change (bpow radix2 1) with 2. field. }
  destruct H as [H|[H|H]]; [left|right; left|right; right].
  - destruct (far _ _ (val (px c)) _ H) as [K|K]; rewrite HH in K; [pose proof (square_far _ _ Px Cx K)|pose proof (square_far _ _ Qx Cx K)]; lra.
  - destruct (far _ _ (val (py c)) _ H) as [K|K]; rewrite HH in K; [pose proof (square_far _ _ Py Cy K)|pose proof (square_far _ _ Qy Cy K)]; lra.
  - destruct (far _ _ (val (pz c)) _ H) as [K|K]; rewrite HH in K; [pose proof (square_far _ _ Pz Cz K)|pose proof (square_far _ _ Qz Cz K)]; lra.
Qed.

(* the eigenvalues *)
Lemma third_bound : W 0 (f64_div (n_nat e 1) (n_nat e 3)).
Proof.
  assert (W 0 (n_nat e 1)) as (V1 & B1) by (apply nat_bound; cbn; lia). assert (W 2 (n_nat e 3)) as (V3 & B3) by (apply nat_bound; cbn; lia).
  destruct (W_nat 1 ltac:(cbn; lia)) as (_ & E1). destruct (W_nat 3 ltac:(cbn; lia)) as (_ & E3). 
  assert (L : Rabs (val (n_nat e 1) / val (n_nat e 3)) <= bpow radix2 0).
  { change (val (n_nat e 1)) with (val (SpecFloat.binary_normalize 53 1024 (Z.of_nat 1) 0 false)). change (val (n_nat e 3)) with (val (SpecFloat.binary_normalize 53 1024 (Z.of_nat 3) 0 false)).
    rewrite E1, E3. cbn [INR bpow]. rewrite Rabs_right; lra. }
  apply rnd_bound1 in L; [|lia]. assert (N : val (n_nat e 3) <> 0). { change (val (n_nat e 3)) with (val (SpecFloat.binary_normalize 53 1024 (Z.of_nat 3) 0 false)). rewrite E3. cbn [INR]. lra. }
  destruct (div_val _ _ _ V1 V3 N (top_bound 0 ltac:(lia)) L) as (R & E). apply real_val; auto. now rewrite E.
Qed.
Lemma neg_nonneg k x : W k x -> (if SFltb (n_nat e 0) x then n_nat e 0 else x) = n_nat e 0 \/ val x <= 0 /\ (if SFltb (n_nat e 0) x then n_nat e 0 else x) = x.
Proof.
  intros H. assert (Z0 : W 0 (n_nat e 0)) by (apply nat_bound; cbn; lia). pose proof (W_ltb 0 k _ _ Z0 H) as T. destruct (SFltb (n_nat e 0) x); [now left|right]. split; auto.
  destruct (Rle_or_lt (val x) 0) as [|G]; auto. change 0 with (val (n_nat e 0)) in G. apply T in G. discriminate.
Qed.
Lemma clamp_root j k x : W (2 * j) x -> small j = true -> (j <=? k)%Z = true -> W k (SpecFloat.SFsqrt 53 1024 (SFopp (if SFltb (n_nat e 0) x then n_nat e 0 else x)))
  /\ real_f64 (if SFltb (n_nat e 0) x then n_nat e 0 else x).
Proof.
  intros H S L. assert (Z0 : W (2 * j) (n_nat e 0)). { split; [split; cbn; auto|]. change (SF2R radix2 (n_nat e 0)) with 0. rewrite Rabs_R0. apply bpow_ge_0. }
  destruct (neg_nonneg (2 * j) x H) as [-> |(P & ->)].
  - split; [|apply Z0]. apply W_mono with j; auto. apply W_sqrt; [now apply W_opp| |exact S]. rewrite val_opp. change (val (n_nat e 0)) with 0. lra.
  - split; [|apply H]. apply W_mono with j; auto. apply W_sqrt; [now apply W_opp| |exact S]. rewrite val_opp. lra.
Qed.
Lemma clamp_bound k x : W k x -> W k (if SFltb (n_nat e 0) x then n_nat e 0 else x).
Proof.
  intros H. destruct (SFltb (n_nat e 0) x); auto. split; [split; cbn; auto|]. change (SF2R radix2 (n_nat e 0)) with 0. rewrite Rabs_R0. apply bpow_ge_0.
Qed.
Lemma roots_bound c0 c1 c2 : W 495 c0 -> W 331 c1 -> W 164 c2 -> PW 180 (cubic_roots e c0 c1 c2).
Proof.
  intros H0 H1 H2. unfold cubic_roots. norm. cbv zeta. pose proof third_bound as T. set (third := f64_div (n_nat e 1) (n_nat e 3)) in *.
  assert (N2 : W 1 (n_nat e 2)) by (apply nat_bound; cbn; lia). assert (N3 : W 2 (n_nat e 3)) by (apply nat_bound; cbn; lia).
  assert (H : W (-1) (n_half e)). { split; [split; cbn; auto; right; lia|]. change (SF2R radix2 (n_half e)) with (F2R (Float radix2 (2 ^ 52) (-53))). unfold F2R. cbn [Fnum Fexp]. change (2 ^ 52)%Z with (Zpower radix2 52). rewrite IZR_Zpower by lia. rewrite <- bpow_plus. rewrite Rabs_right; [apply Rle_refl|apply Rle_ge, bpow_ge_0]. }
  assert (R3 : W 1 (SpecFloat.SFsqrt 53 1024 (n_nat e 3))). { apply W_sqrt; [exact N3| |reflexivity]. change (val (n_nat e 3)) with (val (SpecFloat.binary_normalize 53 1024 (Z.of_nat 3) 0 false)). rewrite (proj2 (W_nat 3 ltac:(cbn; lia))). apply pos_INR. }
  assert (C3 : W 164 (f64_mul c2 third)) by bounded. set (c2t := f64_mul c2 third) in *.
  assert (A : W 332 (f64_mul (f64_sub c1 (f64_mul c2 c2t)) third)) by bounded. set (al := f64_mul (f64_sub c1 (f64_mul c2 c2t)) third) in *.
  destruct (clamp_root 166 166 al A eq_refl eq_refl) as (RHO & _). apply clamp_bound in A. set (al' := if SFltb (n_nat e 0) al then n_nat e 0 else al) in *. set (rho := SpecFloat.SFsqrt 53 1024 (SFopp al')) in *.
  assert (HB : W 496 (f64_mul (n_half e) (f64_add c0 (f64_mul c2t (f64_sub (f64_mul (f64_mul (n_nat e 2) c2t) c2t) c1))))) by bounded. set (hb := f64_mul (n_half e) _) in *.
  assert (Q : W 998 (f64_add (f64_mul hb hb) (f64_mul (f64_mul al' al') al'))) by bounded. set (q := f64_add (f64_mul hb hb) _) in *.
  destruct (clamp_root 499 499 q Q eq_refl eq_refl) as (RQ & _). set (q' := if SFltb (n_nat e 0) q then n_nat e 0 else q) in *. set (sq := SpecFloat.SFsqrt 53 1024 (SFopp q')) in *.
  destruct LIBM as (LA & LC). pose proof (LA sq hb (W_real _ _ RQ) (W_real _ _ HB)) as TH. change 4 with (bpow radix2 2) in TH. change (within (bpow radix2 2)) with (W 2) in TH.
  assert (TH' : W 2 (f64_mul (atan2 sq hb) third)) by bounded. set (th := f64_mul (atan2 sq hb) third) in *. destruct (LC th (W_real _ _ TH')) as (CC & SS). change 1 with (bpow radix2 0) in CC, SS. change (within (bpow radix2 0)) with (W 0) in CC, SS.
  split; [|split]; cbn [px py pz]; bounded.
Qed.
Lemma sort3_some a b c : PW 180 (mk_p3 a b c) -> exists v, sort3 e a b c = Ok v /\ PW 180 v.
Proof.
  intros (A & B & C). cbn [px py pz] in *. unfold sort3. assert (NN : forall x, W 180 x -> n_is_nan e x = false). { intros x ((F & _) & _). destruct x; try reflexivity. elim F. }
  rewrite (NN a A), (NN b B), (NN c C). cbn [orb negb assert bind]. norm. destruct (SFltb b a); destruct (SFltb c _); destruct (SFltb _ _); eexists; (split; [reflexivity|]); unfold PW; cbn [px py pz]; auto.
Qed.
Lemma solve_bound m : MW 162 m -> exists v, solve_polynomial e m = Ok v /\ W 180 (px v).
Proof.
  intros ((A1 & A2 & A3) & (A4 & A5 & A6) & (A7 & A8 & A9)). unfold solve_polynomial. assert (N2 : W 1 (n_nat e 2)) by (apply nat_bound; cbn; lia).
  assert (Z0 : W 180 (n_nat e 0)). { split; [split; cbn; auto|]. change (SF2R radix2 (n_nat e 0)) with 0. rewrite Rabs_R0. apply bpow_ge_0. }
  assert (C0 : W 495 (coefficient_0 e m)) by (unfold coefficient_0; norm; bounded). assert (C1 : W 331 (coefficient_1 e m)) by (unfold coefficient_1; norm; bounded).
  assert (C2 : W 164 (coefficient_2 e m)) by (unfold coefficient_2; norm; bounded). destruct (o_lt _ _ _); [eexists; split; [reflexivity|exact Z0]|]. 
  pose proof (roots_bound _ _ _ C0 C1 C2) as R. set (r := cubic_roots e _ _ _) in *. destruct (sort3_some (px r) (py r) (pz r) R) as (v & -> & V). cbn [bind]. destruct (n_le _ _ _); eexists; (split; [reflexivity|]); auto. apply V.
Qed.

(* the normal *)
Lemma val_abs k x : W k x -> W k (SFabs x) /\ val (SFabs x) = Rabs (val x).
Proof.
  intros ((F & V) & B). assert (R : real_f64 (SFabs x)) by (split; [destruct x; auto|now apply abs_f64]). assert (E : val (SFabs x) = Rabs (val x)).
  { rewrite <- (rank_real _ R), <- (rank_real x) by (split; auto). apply rank_abs64. }
  split; auto. apply real_val; auto. rewrite E. change (SF2R radix2 x) with (val x) in B. rewrite Rabs_Rabsolu. exact B.
Qed.
Lemma max_val k x y : W k x -> W k y -> W k (n_max e x y) /\ val x <= val (n_max e x y) /\ val y <= val (n_max e x y).
Proof.
  intros X Y. change (n_max e x y) with (if SFleb y x then x else y). assert (L : SFleb y x = true <-> val y <= val x).
  { pose proof (W_real _ _ X) as RX. pose proof (W_real _ _ Y) as RY. rewrite leb_rank; try apply RX; try apply RY; auto using real_not_nan. now rewrite !rank_real. }
  destruct (SFleb y x); [split; auto; split; [lra|now apply L]|]. split; auto. split; [|lra]. destruct (Rle_or_lt (val y) (val x)) as [G|G]; [apply L in G; discriminate|lra].
Qed.
Lemma abs_max_bound m : MW 162 m -> W 162 (abs_max e m) /\ forall x, In x [px (px m); py (px m); pz (px m); px (py m); py (py m); pz (py m); px (pz m); py (pz m); pz (pz m)] -> Rabs (val x) <= val (abs_max e m).
Proof.
  intros ((A1 & A2 & A3) & (A4 & A5 & A6) & (A7 & A8 & A9)). unfold abs_max. norm. cbv zeta. cbn [fold_left].
  apply val_abs in A1. destruct A1 as (A1 & E1).
  apply val_abs in A2. destruct A2 as (A2 & E2).
  apply val_abs in A3. destruct A3 as (A3 & E3).
  apply val_abs in A4. destruct A4 as (A4 & E4).
  apply val_abs in A5. destruct A5 as (A5 & E5).
  apply val_abs in A6. destruct A6 as (A6 & E6).
  apply val_abs in A7. destruct A7 as (A7 & E7).
  apply val_abs in A8. destruct A8 as (A8 & E8).
  apply val_abs in A9. destruct A9 as (A9 & E9).
  set (s0 := SFabs (px (px m))) in *.
  destruct (max_val 162 s0 _ A1 A4) as (B1 & L1 & M1). set (s1 := n_max e s0 _) in *.
  destruct (max_val 162 s1 _ B1 A7) as (B2 & L2 & M2). set (s2 := n_max e s1 _) in *.
  destruct (max_val 162 s2 _ B2 A2) as (B3 & L3 & M3). set (s3 := n_max e s2 _) in *.
  destruct (max_val 162 s3 _ B3 A5) as (B4 & L4 & M4). set (s4 := n_max e s3 _) in *.
  destruct (max_val 162 s4 _ B4 A8) as (B5 & L5 & M5). set (s5 := n_max e s4 _) in *.
  destruct (max_val 162 s5 _ B5 A3) as (B6 & L6 & M6). set (s6 := n_max e s5 _) in *.
  destruct (max_val 162 s6 _ B6 A6) as (B7 & L7 & M7). set (s7 := n_max e s6 _) in *.
  destruct (max_val 162 s7 _ B7 A9) as (B8 & L8 & M8). set (s8 := n_max e s7 _) in *.
  split; auto. intros x H. cbn [In] in H. repeat (destruct H as [<-|H]; [lra|]). destruct H.
Qed.
Lemma quotient k x s : W k x -> real_f64 s -> 0 < val s -> Rabs (val x) <= val s -> W 0 (f64_div x s).
Proof.
  intros (V & _) R P B. assert (L : Rabs (val x / val s) <= bpow radix2 0).
  { unfold Rdiv. rewrite Rabs_mult, Rabs_inv. rewrite (Rabs_right (val s)) by lra. apply (Rmult_le_reg_r (val s)); auto. rewrite Rmult_assoc, Rinv_l by lra. cbn [bpow]. lra. }
  apply rnd_bound1 in L; [|lia]. destruct (div_val _ _ _ V R ltac:(lra) (top_bound 0 ltac:(lia)) L) as (R' & E). apply real_val; auto. now rewrite E.
Qed.
Lemma normal_bound m : MW 162 m -> 0 < val (abs_max e m) -> PW 1 (get_largest_eigen_vector e (scaled_matrix e m)).
Proof.
  intros M P. destruct (abs_max_bound m M) as (S & B). destruct M as ((A1 & A2 & A3) & (A4 & A5 & A6) & (A7 & A8 & A9)).
  assert (Q : forall x, W 162 x -> In x [px (px m); py (px m); pz (px m); px (py m); py (py m); pz (py m); px (pz m); py (pz m); pz (pz m)] -> W 0 (f64_div x (abs_max e m))).
  { intros x X I. apply (quotient 162); auto. apply S. }
  unfold get_largest_eigen_vector, scaled_matrix. cbn [px py pz]. cbv zeta. norm.
  pose proof (Q _ A1 ltac:(cbn; auto 10)) as Q1. pose proof (Q _ A2 ltac:(cbn; auto 10)) as Q2. pose proof (Q _ A3 ltac:(cbn; auto 10)) as Q3.
  pose proof (Q _ A4 ltac:(cbn; auto 10)) as Q4. pose proof (Q _ A5 ltac:(cbn; auto 10)) as Q5. pose proof (Q _ A6 ltac:(cbn; auto 10)) as Q6.
  pose proof (Q _ A7 ltac:(cbn; auto 10)) as Q7. pose proof (Q _ A8 ltac:(cbn; auto 10)) as Q8. pose proof (Q _ A9 ltac:(cbn; auto 10)) as Q9.
  assert (LG : forall v w, PW 1 v -> PW 1 w -> PW 1 (larger e v w)) by (intros v w V Z; unfold larger; destruct (o_lt _ _ _); auto).
  repeat apply LG; unfold v_cross; norm; cbn [px py pz]; (split; [|split]; cbn [px py pz]; bounded).
Qed.
Lemma estimation_bound ps : Forall (PW 64) ps -> (3 <= length ps)%nat -> (Z.of_nat (length ps) <= 2 ^ 32)%Z ->
  exists n k, normal_estimation e ps = Ok (n, k) /\ (spread (bpow radix2 (-400)) ps -> PW 1 n) /\ k <> S754_nan.
Proof.
  intros F L3 L. destruct (covariance_bound ps F L3 L) as (m & c & E & M & C & D). unfold normal_estimation. rewrite E. cbn [unwrap bind]. unfold solve_plane_parameter, eigen_3x3.
  destruct (solve_bound m M) as (v & -> & V). cbn [bind]. cbv zeta. do 2 eexists. split; [reflexivity|]. destruct (abs_max_bound m M) as (S & B). split.
  - intros SP. apply normal_bound; auto. pose proof (bpow_gt_0 radix2 (-802)) as P. destruct (spread_covariance ps m c F C SP D) as [H|[H|H]].
    + pose proof (B (px (px m)) ltac:(cbn; auto 10)) as K. rewrite Rabs_right in K by lra. lra.
    + pose proof (B (py (py m)) ltac:(cbn; auto 10)) as K. rewrite Rabs_right in K by lra. lra.
    + pose proof (B (pz (pz m)) ltac:(cbn; auto 10)) as K. rewrite Rabs_right in K by lra. lra.
  - norm. destruct M as ((A1 & A2 & A3) & (A4 & A5 & A6) & (A7 & A8 & A9)).
    assert (TR : W 164 (f64_add (f64_add (px (px m)) (py (py m))) (pz (pz m)))) by bounded. set (tr := f64_add (f64_add _ _) _) in *. assert (VL : W 342 (f64_mul (px v) (abs_max e m))) by bounded. set (vl := f64_mul (px v) (abs_max e m)) in *.
    destruct (SFeqb tr (n_nat e 0)) eqn:EQ; [discriminate|]. apply abs_nan. assert (N : val tr <> 0).
    { intros Z. destruct TR as ((FT & VT) & _). clear - FT EQ Z. clearbody tr. destruct tr as [s|s| |s q x]; [destruct s; discriminate EQ|elim FT|elim FT|]. unfold val, value, SF2R in Z. destruct s; [pose proof (F2R_lt_0 radix2 (Float radix2 (Zneg q) x) ltac:(reflexivity)) as G|pose proof (F2R_gt_0 radix2 (Float radix2 (Zpos q) x) ltac:(reflexivity)) as G]; cbn [cond_Zopp Z.opp] in Z; lra. }
    destruct VL as ((FV & VV) & _). destruct TR as ((FT & VT) & _). pose proof VV as VV'. pose proof VT as VT'. apply f64_valid in VV', VT'. apply finite_SF in FV.
    destruct (div_correct 53 1024 H53 H1024 vl tr VV' VT' FV N) as (I & O). destruct (in_range_dec 1024 (rnd 53 1024 (value vl / value tr))) as [R|R].
    + destruct (I R) as (FF & _). intros X. change (f64_div vl tr) with (SpecFloat.SFdiv 53 1024 vl tr) in X. rewrite X in FF. discriminate.
    + change (f64_div vl tr) with (SpecFloat.SFdiv 53 1024 vl tr). rewrite (O R). discriminate.
Qed.
End Estimation.
