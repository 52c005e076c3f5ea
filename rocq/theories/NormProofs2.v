(* The eigenvalues and the curvature, in exact arithmetic. *)
From Coq Require Import List Arith Lia Reals Lra Psatz Bool.
From Verif Require Import Base MathModel SegModel SegSpec NormModel NormSpec NormProofs.
Import ListNotations.
Open Scope R_scope.

(* ------------------------------------------------------------------ trigonometry *)

Lemma cos_atan2 x y : 0 <= y -> sqrt (x * x + y * y) * cos (r_atan2 y x) = x.
Proof.
  intros Hy. unfold r_atan2.
  assert (F : forall z, 0 < z -> sqrt (z * z + y * y) = z * sqrt (1 + (y / z)²)).
  { intros z Hz. replace (z * z + y * y) with ((z * z) * (1 + (y / z)²)) by (unfold Rsqr; field; lra). rewrite sqrt_mult_alt by nra. rewrite sqrt_square by lra. reflexivity. }
  assert (P : forall z, 0 < sqrt (1 + z²)). { intros z. apply sqrt_lt_R0. pose proof (Rle_0_sqr z). lra. }
  destruct (Rlt_dec 0 x) as [L|L].
  - rewrite (F x L), cos_atan. pose proof (P (y / x)). field. lra.
  - destruct (Rlt_dec x 0) as [M|M].
    + destruct (Rle_dec 0 y); [|contradiction]. rewrite neg_cos, cos_atan. replace (x * x + y * y) with ((- x) * (- x) + y * y) by ring. rewrite (F (- x)) by lra.
      replace (y / - x) with (- (y / x)) by (field; lra). rewrite <- Rsqr_neg. pose proof (P (y / x)). field. lra.
    + assert (x = 0) by lra. subst x. destruct (Rlt_dec 0 y) as [Q|Q]; [rewrite cos_PI2; ring|]. assert (y = 0) by lra. subst y. destruct (Rlt_dec 0 0); [lra|].
      rewrite cos_0. replace (0 * 0 + 0 * 0) with 0 by ring. rewrite sqrt_0. ring.
Qed.
Lemma cos_triple t : cos (3 * t) = cos t * cos t * cos t - 3 * cos t * (sin t * sin t).
Proof. replace (3 * t) with (2 * t + t) by ring. rewrite cos_plus, cos_2a, sin_2a. ring. Qed.
Lemma sin_cos t : sin t * sin t + cos t * cos t = 1.
Proof. pose proof (sin2_cos2 t) as H. unfold Rsqr in H. exact H. Qed.

(* ------------------------------------------------------------------ the roots *)

Definition poly (c0 c1 c2 l : R) : R := l * l * l - c2 * (l * l) + c1 * l - c0.
Lemma roots_ok c0 c1 c2 :
  let a := (c1 - c2 * c2 / 3) / 3 in
  let hb := (c0 + c2 / 3 * (2 * (c2 / 3) * (c2 / 3) - c1)) / 2 in
  a <= 0 -> hb * hb + a * a * a <= 0 ->
  let r := cubic_roots r_nops c0 c1 c2 in
  forall l, poly c0 c1 c2 l = (l - px r) * (l - py r) * (l - pz r).
Proof.
  intros a hb Ha Hq. unfold cubic_roots. change (o_add (n_ops r_nops)) with Rplus. change (o_sub (n_ops r_nops)) with Rminus. change (o_mul (n_ops r_nops)) with Rmult. change (o_div (n_ops r_nops)) with Rdiv.
  change (o_neg (n_ops r_nops)) with Ropp. change (o_sqrt (n_ops r_nops)) with sqrt. change (o_lt (n_ops r_nops)) with (fun x y => if Rlt_dec x y then true else false).
  change (n_nat r_nops) with INR. change (n_half r_nops) with (1 / 2). change (n_atan2 r_nops) with r_atan2. change (n_cos r_nops) with cos. change (n_sin r_nops) with sin. cbv beta zeta.
  replace (INR 1 / INR 3) with (/ 3) by (cbn [INR]; field). replace (INR 2) with 2 by (cbn [INR]; ring). replace (INR 3) with 3 by (cbn [INR]; ring). change (INR 0) with 0.
  replace ((c1 - c2 * (c2 * / 3)) * / 3) with a by (unfold a; field). destruct (Rlt_dec 0 a) as [|_]; [lra|].
  replace (1 / 2 * (c0 + c2 * / 3 * (2 * (c2 * / 3) * (c2 * / 3) - c1))) with hb by (unfold hb; field). destruct (Rlt_dec 0 (hb * hb + a * a * a)) as [|_]; [lra|].
  set (rho := sqrt (- a)). assert (R2 : rho * rho = - a) by (apply sqrt_sqrt; lra). assert (RP : 0 <= rho) by apply sqrt_pos.
  set (y := sqrt (- (hb * hb + a * a * a))). assert (Y2 : y * y = - (hb * hb + a * a * a)) by (apply sqrt_sqrt; lra). assert (YP : 0 <= y) by apply sqrt_pos.
  set (t := r_atan2 y hb * / 3). assert (S3 : sqrt 3 * sqrt 3 = 3) by (apply sqrt_sqrt; lra).
  assert (C3 : rho * rho * rho * (cos t * cos t * cos t - 3 * cos t * (sin t * sin t)) = hb).
  { rewrite <- cos_triple. unfold t. replace (3 * (r_atan2 y hb * / 3)) with (r_atan2 y hb) by field.
    assert (E : sqrt (hb * hb + y * y) = rho * rho * rho).
    { rewrite Y2. replace (hb * hb + - (hb * hb + a * a * a)) with ((rho * rho * rho) * (rho * rho * rho)).
      - apply sqrt_square. repeat apply Rmult_le_pos; auto.
      - replace (rho * rho * rho * (rho * rho * rho)) with ((rho * rho) * (rho * rho) * (rho * rho)) by ring. rewrite R2. ring. }
    rewrite <- E. apply cos_atan2. exact YP. }
  pose proof (sin_cos t) as SC. intros l. cbn [px py pz]. set (c := cos t) in *. set (s := sin t) in *. set (w := sqrt 3) in *.
  assert (E : (l - (c2 * / 3 + 2 * rho * c)) * (l - (c2 * / 3 - rho * (c + w * s))) * (l - (c2 * / 3 - rho * (c - w * s)))
     = (let x := l - c2 * / 3 in x * x * x - (rho * rho) * x * (3 * c * c + (w * w) * (s * s)) - 2 * (rho * rho * rho) * c * (c * c - (w * w) * (s * s)))) by (cbv zeta; ring).
  rewrite E. clear E. cbv zeta. rewrite S3. replace (3 * c * c + 3 * (s * s)) with 3 by lra.
  replace (2 * (rho * rho * rho) * c * (c * c - 3 * (s * s))) with (2 * hb) by (rewrite <- C3; ring). rewrite R2. unfold poly, a, hb. field.
Qed.
Lemma sort3_ok a b c : exists x y z, sort3 r_nops a b c = Ok (mk_p3 x y z) /\ (x = a \/ x = b \/ x = c) /\ x <= a /\ x <= b /\ x <= c.
Proof.
  unfold sort3. change (n_is_nan r_nops) with (fun _ : R => false). cbn [orb negb assert bind]. change (o_lt (n_ops r_nops)) with (fun x y => if Rlt_dec x y then true else false). cbv beta.
  destruct (Rlt_dec b a); destruct (Rlt_dec c _); destruct (Rlt_dec _ _); do 3 eexists; (split; [reflexivity|]); (split; [tauto|lra]).
Qed.

(* ------------------------------------------------------------------ symmetric matrices *)

Section Symmetric.
Variables a b c d e f : R.
(* rows (a d e) (d b f) (e f c) *)
Definition sym : m3 R := mk_p3 (mk_p3 a d e) (mk_p3 d b f) (mk_p3 e f c).
Let c0 := det sym.
Let c1 := a * b - d * d + a * c - e * e + b * c - f * f.
Let c2 := a + b + c.
Lemma charpoly l : det (shifted sym l) = - poly c0 c1 c2 l.
Proof. unfold det, shifted, poly, c0, c1, c2, det, sym. cbn [px py pz]. ring. Qed.
Lemma alpha_neg : (c1 - c2 * c2 / 3) / 3 <= 0.
Proof.
  replace ((c1 - c2 * c2 / 3) / 3) with (- (((a - b) * (a - b) + (b - c) * (b - c) + (a - c) * (a - c)) / 18 + (d * d + e * e + f * f) / 3)) by (unfold c1, c2; field).
  pose proof (Rle_0_sqr (a - b)). pose proof (Rle_0_sqr (b - c)). pose proof (Rle_0_sqr (a - c)). pose proof (Rle_0_sqr d). pose proof (Rle_0_sqr e). pose proof (Rle_0_sqr f). unfold Rsqr in *. lra.
Qed.
(* The discriminant is the determinant of the Gram matrix of 1, M and M^2 and so a sum of squares: the squares of the minors of the
   matrix with the entries of 1, M and M^2 as rows. *)
Let minor (x1 x2 x3 y1 y2 y3 z1 z2 z3 : R) : R := x1 * (y2 * z3 - y3 * z2) - x2 * (y1 * z3 - y3 * z1) + x3 * (y1 * z2 - y2 * z1).
(* the entries of M^2 *)
Let A := a * a + d * d + e * e.
Let B := d * d + b * b + f * f.
Let C := e * e + f * f + c * c.
Let D := a * d + d * b + e * f.
Let E := a * e + d * f + e * c.
Let F := d * e + b * f + f * c.
Lemma discriminant :
  let hb := (c0 + c2 / 3 * (2 * (c2 / 3) * (c2 / 3) - c1)) / 2 in
  let al := (c1 - c2 * c2 / 3) / 3 in
  -108 * (hb * hb + al * al * al)
  = minor 1 1 1 a b c A B C ^ 2
    + 2 * (minor 1 1 0 a b d A B D ^ 2 + minor 1 1 0 a b e A B E ^ 2 + minor 1 1 0 a b f A B F ^ 2
           + minor 1 1 0 a c d A C D ^ 2 + minor 1 1 0 a c e A C E ^ 2 + minor 1 1 0 a c f A C F ^ 2
           + minor 1 1 0 b c d B C D ^ 2 + minor 1 1 0 b c e B C E ^ 2 + minor 1 1 0 b c f B C F ^ 2)
    + 4 * (minor 1 0 0 a d e A D E ^ 2 + minor 1 0 0 a d f A D F ^ 2 + minor 1 0 0 a e f A E F ^ 2
           + minor 1 0 0 b d e B D E ^ 2 + minor 1 0 0 b d f B D F ^ 2 + minor 1 0 0 b e f B E F ^ 2
           + minor 1 0 0 c d e C D E ^ 2 + minor 1 0 0 c d f C D F ^ 2 + minor 1 0 0 c e f C E F ^ 2).
Proof. cbv zeta. unfold minor, c0, c1, c2, det, sym, A, B, C, D, E, F. cbn [px py pz]. field. Qed.
Lemma q_neg :
  let hb := (c0 + c2 / 3 * (2 * (c2 / 3) * (c2 / 3) - c1)) / 2 in
  let al := (c1 - c2 * c2 / 3) / 3 in
  hb * hb + al * al * al <= 0.
Proof.
  pose proof discriminant as H. cbv zeta in *. assert (Q : forall x : R, 0 <= x ^ 2) by (intros x; rewrite <- Rsqr_pow2; apply Rle_0_sqr).
  match type of H with _ = ?r => assert (P : 0 <= r) end; [|lra].
  repeat (apply Rplus_le_le_0_compat || (apply Rmult_le_pos; [lra|]) || apply Q).
Qed.
Lemma sym_roots : let r := cubic_roots r_nops c0 c1 c2 in forall l, eigenvalue sym l <-> l = px r \/ l = py r \/ l = pz r.
Proof.
  cbv zeta. intros l. unfold eigenvalue. rewrite charpoly. rewrite (roots_ok c0 c1 c2 alpha_neg q_neg l). set (r := cubic_roots r_nops c0 c1 c2). split.
  - intros H. assert (Z : (l - px r) * (l - py r) * (l - pz r) = 0) by lra. apply Rmult_integral in Z. destruct Z as [Z|Z]; [apply Rmult_integral in Z; destruct Z|]; [left|right; left|right; right]; lra.
  - intros [-> |[-> | ->]]; ring.
Qed.
Lemma coefficients : coefficient_0 r_nops sym = c0 /\ coefficient_1 r_nops sym = c1 /\ coefficient_2 r_nops sym = c2.
Proof.
  unfold coefficient_0, coefficient_1, coefficient_2, c0, c1, c2, det, sym. cbn [px py pz]. change (o_add (n_ops r_nops)) with Rplus. change (o_sub (n_ops r_nops)) with Rminus. change (o_mul (n_ops r_nops)) with Rmult.
  replace (n_nat r_nops 2) with 2 by (cbn; ring). repeat split; ring.
Qed.
(* with nonnegative coefficients all eigenvalues are positive if the determinant is *)
Lemma positive_root l : 0 <= c1 -> 0 <= c2 -> 0 < c0 -> eigenvalue sym l -> 0 < l.
Proof.
  intros H1 H2 H0. unfold eigenvalue. rewrite charpoly. unfold poly. intros H. destruct (Rlt_dec 0 l) as [|N]; auto. exfalso.
  assert (X1 : c1 * l <= 0). { replace (c1 * l) with (- (c1 * - l)) by ring. assert (0 <= c1 * - l) by (apply Rmult_le_pos; lra). lra. }
  assert (X2 : 0 <= c2 * (l * l)). { apply Rmult_le_pos; auto. pose proof (Rle_0_sqr l) as Q. exact Q. }
  assert (X3 : l * l * l <= 0). { replace (l * l * l) with (- ((l * l) * - l)) by ring. assert (0 <= (l * l) * - l). { apply Rmult_le_pos; [|lra]. pose proof (Rle_0_sqr l) as Q. exact Q. } lra. }
  lra.
Qed.
Lemma solve_regular : 0 <= c1 -> 0 <= c2 -> n_eps r_nops <= c0 -> exists l y z, solve_polynomial r_nops sym = Ok (mk_p3 l y z) /\ smallest_eigenvalue sym l /\ 0 < l.
Proof.
  intros H1 H2 H0. assert (EP : 0 < n_eps r_nops). { change (n_eps r_nops) with (/ 2 ^ 52). apply Rinv_0_lt_compat. apply pow_lt. lra. }
  unfold solve_polynomial. destruct coefficients as (-> & -> & ->). change (o_abs (n_ops r_nops)) with Rabs. change (o_lt (n_ops r_nops)) with (fun x y => if Rlt_dec x y then true else false). cbv beta.
  rewrite (Rabs_right c0) by lra. destruct (Rlt_dec c0 (n_eps r_nops)) as [|_]; [lra|]. pose proof sym_roots as R. cbv zeta in R.
  destruct (sort3_ok (px (cubic_roots r_nops c0 c1 c2)) (py (cubic_roots r_nops c0 c1 c2)) (pz (cubic_roots r_nops c0 c1 c2))) as (x & y & z & -> & I & L1 & L2 & L3).
  cbn [bind px]. assert (SE : smallest_eigenvalue sym x).
  { split; [apply R; tauto|]. intros k K. apply R in K. destruct K as [-> |[-> | ->]]; auto. }
  assert (PX : 0 < x) by (apply positive_root; auto; [lra|apply SE]).
  change (n_le r_nops) with (fun x y => if Rle_dec x y then true else false). cbv beta. change (n_nat r_nops 0) with 0. destruct (Rle_dec x 0); [lra|]. eauto 6.
Qed.
Lemma solve_singular : Rabs c0 < / 2 ^ 52 -> exists y z, solve_polynomial r_nops sym = Ok (mk_p3 0 y z).
Proof.
  intros Z. unfold solve_polynomial. destruct coefficients as (-> & -> & ->). change (o_abs (n_ops r_nops)) with Rabs. change (o_lt (n_ops r_nops)) with (fun x y => if Rlt_dec x y then true else false). cbv beta.
  change (n_eps r_nops) with (/ 2 ^ 52). destruct (Rlt_dec (Rabs c0) (/ 2 ^ 52)) as [_|N]; [|contradiction].
  unfold solve_polynomial_quadratic. change (n_nat r_nops 0) with 0. eauto.
Qed.
Lemma solve_some : exists v, solve_polynomial r_nops sym = Ok v.
Proof.
  unfold solve_polynomial. destruct (o_lt _ _ _); [eauto|]. match goal with |- context [sort3 _ ?x ?y ?z] => destruct (sort3_ok x y z) as (x' & y' & z' & -> & _) end. cbn [bind]. destruct (n_le _ _ _); eauto.
Qed.
End Symmetric.

(* ------------------------------------------------------------------ Gram matrices *)

Lemma cauchy D f g : 0 <= S D f f * S D g g - S D f g * S D f g.
Proof.
  set (s := fun v => S D g g * f v - S D f g * g v).
  assert (X : sum (map (fun v => s v * s v) D) = S D g g * (S D f f * S D g g - S D f g * S D f g)).
  { unfold s. rewrite (sum_ext _ (fun v => 1 * (S D g g * S D g g * (f v * f v) + (- (2 * S D g g * S D f g)) * (f v * g v)) + S D f g * S D f g * (g v * g v))) by (intros; ring).
    rewrite sum_lin. rewrite (sum_lin (fun v => f v * f v) (fun v => f v * g v)). fold (S D f f) (S D f g) (S D g g). ring. }
  pose proof (proj1 (sum_squares (map s D))) as P. rewrite map_map, X in P. pose proof (diag_pos D g) as G. destruct (Req_EM_T (S D g g) 0) as [Z|Z].
  - rewrite (S_sym D f g), (S_zero D g f (diag_zero D g Z)), Z. lra.
  - apply (Rmult_le_reg_l (S D g g)); lra.
Qed.
Definition gram_sym D : gram D = sym (S D (@px R) (@px R)) (S D (@py R) (@py R)) (S D (@pz R) (@pz R)) (S D (@px R) (@py R)) (S D (@px R) (@pz R)) (S D (@py R) (@pz R)) := eq_refl.
Lemma gram_det D : 0 <= det (gram D).
Proof.
  pose proof (form_pos D (cross (px (gram D)) (py (gram D)))) as P. rewrite apply_01 in P. pose proof (cauchy D (@px R) (@py R)) as C.
  assert (X : dot (cross (px (gram D)) (py (gram D))) (mk_p3 0 0 (det (gram D))) = (S D (@px R) (@px R) * S D (@py R) (@py R) - S D (@px R) (@py R) * S D (@px R) (@py R)) * det (gram D)).
  { rewrite cross_def. unfold dot. cbn [px py pz]. unfold gram at 2 3 4 5 6 7 8 9 10 11 12. cbn [px py pz]. ring. }
  rewrite X in P. set (k := S D (@px R) (@px R) * S D (@py R) (@py R) - S D (@px R) (@py R) * S D (@px R) (@py R)) in *.
  destruct (Req_EM_T k 0) as [Z|Z]; [|apply (Rmult_le_reg_l k); lra].
  assert (F : apply (gram D) (cross (px (gram D)) (py (gram D))) = zero3) by (apply form_kernel; rewrite apply_01, X, Z; ring).
  rewrite apply_01 in F. injection F as F. lra.
Qed.
Lemma gram_coefficients D : let a := S D (@px R) (@px R) in let b := S D (@py R) (@py R) in let c := S D (@pz R) (@pz R) in
  let d := S D (@px R) (@py R) in let e := S D (@px R) (@pz R) in let f := S D (@py R) (@pz R) in
  0 <= a * b - d * d + a * c - e * e + b * c - f * f /\ 0 <= a + b + c.
Proof.
  cbv zeta. pose proof (cauchy D (@px R) (@py R)). pose proof (cauchy D (@px R) (@pz R)). pose proof (cauchy D (@py R) (@pz R)).
  pose proof (diag_pos D (@px R)). pose proof (diag_pos D (@py R)). pose proof (diag_pos D (@pz R)). lra.
Qed.

(* ------------------------------------------------------------------ normal_estimation *)

Definition eigen_of ps : res (p3 R) := solve_polynomial r_nops (covariance_matrix ps).
Lemma estimation ps v : (3 <= length ps)%nat -> eigen_of ps = Ok v ->
  normal_estimation r_nops ps = Ok (normal_of ps, let t := trace (covariance_matrix ps) in if Req_EM_T t 0 then 0 else Rabs (px v * abs_max r_nops (covariance_matrix ps) / t)).
Proof.
  intros L E. unfold normal_estimation. rewrite (covariance_ok ps L). cbn [unwrap bind]. unfold solve_plane_parameter, eigen_3x3. fold (eigen_of ps). rewrite E. cbn [bind].
  change (n_eq r_nops) with (fun x y => if Req_EM_T x y then true else false). cbv beta. change (n_nat r_nops 0) with 0. unfold trace. cbv zeta. change (o_add (n_ops r_nops)) with Rplus.
  destruct (Req_EM_T (px (px (covariance_matrix ps)) + py (py (covariance_matrix ps)) + pz (pz (covariance_matrix ps))) 0); reflexivity.
Qed.
Lemma estimation_some ps : (3 <= length ps)%nat -> exists k, normal_estimation r_nops ps = Ok (normal_of ps, k).
Proof.
  intros L. assert (X : exists v, eigen_of ps = Ok v) by (unfold eigen_of; rewrite covariance_gram, gram_sym; apply solve_some). destruct X as (v & E). rewrite (estimation ps v L E). eauto.
Qed.
Lemma estimation_normal ps n k : normal_estimation r_nops ps = Ok (n, k) -> (3 <= length ps)%nat /\ n = normal_of ps.
Proof.
  intros E. destruct (le_lt_dec 3 (length ps)) as [L|L].
  - split; auto. destruct (estimation_some ps L) as (k' & E'). rewrite E in E'. now inversion E'.
  - exfalso. unfold normal_estimation, compute_covariance_matrix in E. destruct ps as [|p ps]; [discriminate|]. rewrite centroid_ok in E by discriminate. cbn [bind] in E. rewrite used_all in E.
    destruct (Nat.ltb_spec (length (p :: ps)) 3); [discriminate|lia].
Qed.
Lemma small_curvature ps n k : Rabs (det (covariance_matrix ps)) < / 2 ^ 52 -> normal_estimation r_nops ps = Ok (n, k) -> k = 0.
Proof.
  intros C E. destruct (estimation_normal _ _ _ E) as (L & _). rewrite covariance_gram in C. destruct (solve_singular _ _ _ _ _ _ C) as (y & z & X).
  assert (V : eigen_of ps = Ok (mk_p3 0 y z)) by (unfold eigen_of; rewrite covariance_gram, gram_sym; exact X). rewrite (estimation ps _ L V) in E. injection E as _ <-. cbv zeta.
  destruct (Req_EM_T _ 0); auto. cbn [px]. replace (0 * abs_max r_nops (covariance_matrix ps) / trace (covariance_matrix ps)) with 0 by (unfold Rdiv; ring). apply Rabs_R0.
Qed.
Lemma coplanar_curvature ps n k : coplanar ps -> normal_estimation r_nops ps = Ok (n, k) -> k = 0.
Proof.
  intros C. apply small_curvature. apply coplanar_singular in C. rewrite C, Rabs_R0. apply Rinv_0_lt_compat. apply pow_lt. lra.
Qed.
Lemma regular_curvature ps n k : (/ 2 ^ 52) <= Rabs (det (covariance_matrix ps)) -> normal_estimation r_nops ps = Ok (n, k) ->
  exists l s, smallest_eigenvalue (covariance_matrix ps) l /\ 0 < l /\ largest_entry (covariance_matrix ps) s /\ 0 < trace (covariance_matrix ps)
    /\ k = s * (l / trace (covariance_matrix ps)).
Proof.
  intros H E. destruct (estimation_normal _ _ _ E) as (L & _). pose proof (gram_det (centered ps)) as DP. rewrite <- covariance_gram in DP. rewrite Rabs_right in H by lra.
  destruct (gram_coefficients (centered ps)) as (C1 & C2). rewrite covariance_gram in H.
  destruct (solve_regular _ _ _ _ _ _ C1 C2 H) as (l & y & z & X & SE & LP). rewrite <- gram_sym, <- covariance_gram in X, SE.
  rewrite (estimation ps _ L X) in E. injection E as _ <-. cbv zeta. cbn [px]. exists l, (abs_max r_nops (covariance_matrix ps)). split; auto. split; auto. split; [apply abs_max_ok|].
  assert (TP : 0 < trace (covariance_matrix ps)).
  { destruct (Req_EM_T (trace (covariance_matrix ps)) 0) as [Z|Z]; [|rewrite covariance_gram in Z |- *; unfold trace, gram in *; cbn [px py pz] in *; lra]. exfalso.
    rewrite covariance_gram in Z. unfold trace, gram in Z. cbn [px py pz] in Z. pose proof (diag_pos (centered ps) (@px R)). pose proof (diag_pos (centered ps) (@py R)). pose proof (diag_pos (centered ps) (@pz R)).
    assert (Zx : S (centered ps) (@px R) (@px R) = 0) by lra. pose proof (diag_zero _ _ Zx) as V.
    assert (Z0 : det (gram (centered ps)) = 0). { unfold det, gram. cbn [px py pz]. rewrite !(S_zero _ (@px R) _ V). ring. }
    rewrite Z0 in H. assert (0 < / 2 ^ 52) by (apply Rinv_0_lt_compat, pow_lt; lra). lra. }
  split; auto. destruct (Req_EM_T (trace (covariance_matrix ps)) 0) as [Z|_]; [lra|]. rewrite Rabs_right; [field; lra|].
  apply Rle_ge. apply Rmult_le_pos; [apply Rmult_le_pos; [lra|]|left; now apply Rinv_0_lt_compat].
  destruct (abs_max_ok (covariance_matrix ps)) as ((x & _ & ->) & _). apply Rabs_pos.
Qed.
