(* The covariance matrix and the normal, in exact arithmetic. *)
From Coq Require Import List Arith Lia Reals Lra Psatz Bool.
From Verif Require Import Base MathModel SegModel SegSpec NormModel NormSpec.
Import ListNotations.
Open Scope R_scope.

(* ------------------------------------------------------------------ the covariance matrix *)

Lemma used_all ps : used r_nops ps = ps.
Proof. unfold used. replace (is_dense r_nops ps) with true; auto. symmetry. unfold is_dense. apply forallb_forall. reflexivity. Qed.
Lemma sum_fold ps : forall c,
  fold_left (fun c p => mk_p3 (px c + px p) (py c + py p) (pz c + pz p)) ps c = mk_p3 (px c + sum (map (@px R) ps)) (py c + sum (map (@py R) ps)) (pz c + sum (map (@pz R) ps)).
Proof.
  induction ps as [|p ps IH]; intros c; cbn [fold_left map sum fold_right].
  - destruct c as [x y z]. cbn [px py pz]. f_equal; lra.
  - rewrite IH. cbn [px py pz]. unfold sum. f_equal; lra.
Qed.
Definition center (ps : list (p3 R)) : p3 R := mk_p3 (mean (@px R) ps) (mean (@py R) ps) (mean (@pz R) ps).
Lemma centroid_ok ps : ps <> [] -> compute_centroid r_nops ps = Ok (center ps).
Proof.
  intros N. unfold compute_centroid. destruct ps as [|p ps]; [contradiction|]. rewrite used_all. change (o_add (n_ops r_nops)) with Rplus. rewrite sum_fold. cbn [px py pz].
  change (n_nat r_nops) with INR. change (o_div (n_ops r_nops)) with Rdiv. unfold center, mean. change (INR 0) with 0. now rewrite !Rplus_0_l.
Qed.
Lemma cov_fold c ps : forall u,
  let d f p := f p - f c in let s f g := sum (map (fun p => d f p * d g p) ps) in
  fold_left (cov_step r_nops c) ps u
  = mk_upper (u_xx u + s (@px R) (@px R)) (u_xy u + s (@px R) (@py R)) (u_xz u + s (@px R) (@pz R)) (u_yy u + s (@py R) (@py R)) (u_yz u + s (@py R) (@pz R)) (u_zz u + s (@pz R) (@pz R)).
Proof.
  cbv zeta. induction ps as [|p ps IH]; intros u; cbn [fold_left map sum fold_right].
  - destruct u as [u1 u2 u3 u4 u5 u6]. cbn [u_xx u_xy u_xz u_yy u_yz u_zz]. f_equal; lra.
  - rewrite IH. unfold cov_step. change (o_add (n_ops r_nops)) with Rplus. change (o_sub (n_ops r_nops)) with Rminus. change (o_mul (n_ops r_nops)) with Rmult.
    cbn [u_xx u_xy u_xz u_yy u_yz u_zz]. unfold sum. f_equal; lra.
Qed.
Lemma sum_ext {A} (f g : A -> R) l : (forall x, In x l -> f x = g x) -> sum (map f l) = sum (map g l).
Proof. induction l as [|x l IH]; intros H; auto. cbn [map sum fold_right]. rewrite (H x) by now left. f_equal. apply IH. intros y I. apply H. now right. Qed.
Lemma covariance_sym f g ps : covariance f g ps = covariance g f ps.
Proof. unfold covariance. apply sum_ext. intros. ring. Qed.
Lemma covariance_ok ps : (3 <= length ps)%nat -> compute_covariance_matrix r_nops ps = Ok (covariance_matrix ps).
Proof.
  intros L. unfold compute_covariance_matrix. rewrite centroid_ok by (intros ->; cbn in L; lia). cbn [bind]. rewrite used_all. destruct (Nat.ltb_spec (length ps) 3); [lia|].
  rewrite cov_fold. cbn [u_xx u_xy u_xz u_yy u_yz u_zz]. change (n_nat r_nops 0) with 0. unfold covariance_matrix.
  rewrite (covariance_sym (@py R) (@px R)), (covariance_sym (@pz R) (@px R)), (covariance_sym (@pz R) (@py R)). unfold covariance, center. cbn [px py pz]. now rewrite !Rplus_0_l.
Qed.

(* ------------------------------------------------------------------ sums of products *)

(* the points relative to their mean *)
Definition centered (ps : list (p3 R)) : list (p3 R) := map (fun p => minus p (center ps)) ps.
Section Gram.
Variable D : list (p3 R).
Definition S (f g : p3 R -> R) : R := sum (map (fun v => f v * g v) D).
Definition gram : m3 R :=
  mk_p3 (mk_p3 (S (@px R) (@px R)) (S (@px R) (@py R)) (S (@px R) (@pz R)))
        (mk_p3 (S (@px R) (@py R)) (S (@py R) (@py R)) (S (@py R) (@pz R)))
        (mk_p3 (S (@px R) (@pz R)) (S (@py R) (@pz R)) (S (@pz R) (@pz R))).
Lemma sum_lin {A} (f g : A -> R) a b (l : list A) : sum (map (fun x => a * f x + b * g x) l) = a * sum (map f l) + b * sum (map g l).
Proof. induction l as [|x l IH]; cbn [map sum fold_right]; [lra|]. unfold sum in IH. rewrite IH. lra. Qed.
Lemma sum_squares (l : list R) : 0 <= sum (map (fun x => x * x) l) /\ (sum (map (fun x => x * x) l) = 0 -> forall x, In x l -> x = 0).
Proof.
  induction l as [|x l (P & IH)]; cbn [map sum fold_right]; [split; [lra|intros _ x []]|]. unfold sum in *. pose proof (Rle_0_sqr x) as Q. unfold Rsqr in Q. split; [lra|].
  intros E y [<-|I]; [apply Rsqr_0_uniq; unfold Rsqr; lra|apply IH; auto; lra].
Qed.
Lemma dot_sum (x : p3 R) (f : p3 R -> R) : sum (map (fun v => f v * dot x v) D) = px x * S f (@px R) + py x * S f (@py R) + pz x * S f (@pz R).
Proof.
  unfold S. rewrite (sum_ext (fun v => f v * dot x v) (fun v => 1 * (px x * (f v * px v) + py x * (f v * py v)) + pz x * (f v * pz v))) by (intros; unfold dot; ring).
  rewrite sum_lin. rewrite (sum_lin (fun v => f v * px v) (fun v => f v * py v)). ring.
Qed.
Lemma form x : dot x (apply gram x) = sum (map (fun v => dot x v * dot x v) D).
Proof.
  rewrite (sum_ext (fun v => dot x v * dot x v) (fun v => 1 * (px x * (px v * dot x v) + py x * (py v * dot x v)) + pz x * (pz v * dot x v))) by (intros; unfold dot; ring).
  rewrite sum_lin. rewrite (sum_lin (fun v => px v * dot x v) (fun v => py v * dot x v)). rewrite !dot_sum. unfold dot, apply, gram. cbn [px py pz]. unfold S.
  rewrite (sum_ext (fun v : p3 R => py v * px v) (fun v => px v * py v)), (sum_ext (fun v : p3 R => pz v * px v) (fun v => px v * pz v)), (sum_ext (fun v : p3 R => pz v * py v) (fun v => py v * pz v)) by (intros; ring).
  unfold dot. cbn [px py pz]. ring.
Qed.
Lemma form_pos x : 0 <= dot x (apply gram x).
Proof. rewrite form. pose proof (proj1 (sum_squares (map (dot x) D))) as H. rewrite map_map in H. exact H. Qed.
Lemma form_zero x : dot x (apply gram x) = 0 -> forall v, In v D -> dot x v = 0.
Proof. rewrite form. intros E v I. pose proof (proj2 (sum_squares (map (dot x) D))) as H. rewrite map_map in H. apply (H E). apply in_map. exact I. Qed.
Lemma sum_zero {A} (f : A -> R) l : (forall x, In x l -> f x = 0) -> sum (map f l) = 0.
Proof. induction l as [|x l IH]; intros H; cbn [map sum fold_right]; [lra|]. rewrite (H x) by now left. unfold sum in IH. rewrite IH; [lra|]. intros y I. apply H. now right. Qed.
Lemma kernel x : (forall v, In v D -> dot x v = 0) -> apply gram x = zero3.
Proof.
  intros H. unfold apply, gram, zero3. cbn [px py pz].
  assert (K : forall f, sum (map (fun v => f v * dot x v) D) = 0) by (intros f; apply sum_zero; intros v I; rewrite (H v I); ring).
  pose proof (K (@px R)) as K1. pose proof (K (@py R)) as K2. pose proof (K (@pz R)) as K3. rewrite dot_sum in K1, K2, K3. unfold dot. cbn [px py pz]. unfold S in *.
  rewrite (sum_ext (fun v : p3 R => py v * px v) (fun v => px v * py v)) in K2 by (intros; ring).
  rewrite (sum_ext (fun v : p3 R => pz v * px v) (fun v => px v * pz v)), (sum_ext (fun v : p3 R => pz v * py v) (fun v => py v * pz v)) in K3 by (intros; ring).
  f_equal; lra.
Qed.
Lemma form_kernel x : dot x (apply gram x) = 0 -> apply gram x = zero3.
Proof. intros E. apply kernel. apply form_zero. exact E. Qed.
Lemma diag_zero f : S f f = 0 -> forall v, In v D -> f v = 0.
Proof. unfold S. intros E v I. pose proof (proj2 (sum_squares (map f D))) as H. rewrite map_map in H. apply (H E). now apply in_map. Qed.
Lemma diag_pos f : 0 <= S f f.
Proof. unfold S. pose proof (proj1 (sum_squares (map f D))) as H. rewrite map_map in H. exact H. Qed.
Lemma S_zero f g : (forall v, In v D -> f v = 0) -> S f g = 0.
Proof. intros H. apply sum_zero. intros v I. rewrite (H v I). ring. Qed.
Lemma S_sym f g : S f g = S g f.
Proof. unfold S. apply sum_ext. intros. ring. Qed.
End Gram.

Lemma covariance_gram ps : covariance_matrix ps = gram (centered ps).
Proof.
  unfold covariance_matrix, gram. rewrite (covariance_sym (@py R) (@px R)), (covariance_sym (@pz R) (@px R)), (covariance_sym (@pz R) (@py R)).
  unfold covariance, S, centered. rewrite !map_map. unfold minus, center. cbn [px py pz]. reflexivity.
Qed.

(* ------------------------------------------------------------------ matrices *)

Definition cross (u v : p3 R) : p3 R := v_cross r_ops u v.
Lemma cross_def u v : cross u v = mk_p3 (py u * pz v - pz u * py v) (pz u * px v - px u * pz v) (px u * py v - py u * px v).
Proof. reflexivity. Qed.
Lemma p3_dec (u : p3 R) : u = zero3 \/ u <> zero3.
Proof.
  destruct u as [x y z]. destruct (Req_EM_T x 0) as [->|N]; [|right; intros H; apply N; now injection H].
  destruct (Req_EM_T y 0) as [->|N]; [|right; intros H; apply N; now injection H]. destruct (Req_EM_T z 0) as [->|N]; [now left|right; intros H; apply N; now injection H].
Qed.
Lemma dot_self u : 0 <= dot u u /\ (dot u u = 0 -> u = zero3).
Proof.
  destruct u as [x y z]. unfold dot. cbn [px py pz]. pose proof (Rle_0_sqr x) as A. pose proof (Rle_0_sqr y) as B. pose proof (Rle_0_sqr z) as C. unfold Rsqr in *. split; [lra|].
  intros E. unfold zero3. f_equal; apply Rsqr_0_uniq; unfold Rsqr; lra.
Qed.
Lemma orthogonal (r : p3 R) : exists x, x <> zero3 /\ dot r x = 0.
Proof.
  destruct r as [a b c]. destruct (Req_EM_T a 0) as [->|N].
  - exists (mk_p3 1 0 0). split; [intros H; injection H; lra|unfold dot; cbn [px py pz]; ring].
  - exists (mk_p3 (- b) a 0). split; [intros H; injection H; lra|unfold dot; cbn [px py pz]; ring].
Qed.
Lemma parallel r s x : cross r s = zero3 -> r <> zero3 -> dot r x = 0 -> dot s x = 0.
Proof.
  intros C N O. assert (E : dot r r * dot s x = 0).
  { rewrite cross_def in C. injection C as C1 C2 C3. replace (dot r r * dot s x) with (dot r s * dot r x
      + px x * (py r * - (px r * py s - py r * px s) + pz r * (pz r * px s - px r * pz s))
      + py x * (px r * (px r * py s - py r * px s) - pz r * (py r * pz s - pz r * py s))
      + pz x * (- px r * (pz r * px s - px r * pz s) + py r * (py r * pz s - pz r * py s))) by (unfold dot; ring).
    rewrite C1, C2, C3, O. ring. }
  apply Rmult_integral in E. destruct E as [E|E]; auto. elim N. now apply dot_self.
Qed.
Lemma cross_dot u v : dot u (cross u v) = 0 /\ dot v (cross u v) = 0.
Proof. rewrite cross_def. unfold dot. cbn [px py pz]. split; ring. Qed.
Lemma cross_self u : cross u u = zero3.
Proof. rewrite cross_def. unfold zero3. f_equal; ring. Qed.
Lemma det_rows m : det m = dot (px m) (cross (py m) (pz m)).
Proof. rewrite cross_def. unfold det, dot. cbn [px py pz]. ring. Qed.
Lemma apply_01 m : apply m (cross (px m) (py m)) = mk_p3 0 0 (det m).
Proof. unfold apply. rewrite !(proj1 (cross_dot _ _)), !(proj2 (cross_dot _ _)). f_equal. rewrite cross_def. unfold det, dot. cbn [px py pz]. ring. Qed.
Lemma apply_02 m : apply m (cross (px m) (pz m)) = mk_p3 0 (- det m) 0.
Proof. unfold apply. rewrite !(proj1 (cross_dot _ _)), !(proj2 (cross_dot _ _)). f_equal. rewrite cross_def. unfold det, dot. cbn [px py pz]. ring. Qed.
Lemma apply_12 m : apply m (cross (py m) (pz m)) = mk_p3 (det m) 0 0.
Proof. unfold apply. rewrite !(proj1 (cross_dot _ _)), !(proj2 (cross_dot _ _)). f_equal. rewrite cross_def. unfold det, dot. cbn [px py pz]. ring. Qed.
(* a singular matrix has a kernel *)
Lemma singular m : det m = 0 -> exists x, x <> zero3 /\ apply m x = zero3.
Proof.
  intros D. destruct (p3_dec (cross (px m) (py m))) as [C01|N]; [|exists (cross (px m) (py m)); split; auto; rewrite apply_01, D; reflexivity].
  destruct (p3_dec (cross (px m) (pz m))) as [C02|N]; [|exists (cross (px m) (pz m)); split; auto; rewrite apply_02, D; unfold zero3; f_equal; ring].
  destruct (p3_dec (cross (py m) (pz m))) as [C12|N]; [|exists (cross (py m) (pz m)); split; auto; rewrite apply_12, D; reflexivity].
  assert (Z : forall x, dot zero3 x = 0) by (intros x; unfold dot, zero3; cbn [px py pz]; ring).
  destruct (p3_dec (px m)) as [Z0|N0].
  - destruct (p3_dec (py m)) as [Z1|N1].
    + destruct (orthogonal (pz m)) as (x & X1 & X2). exists x. split; auto. unfold apply. rewrite Z0, Z1, X2, !Z. reflexivity.
    + destruct (orthogonal (py m)) as (x & X1 & X2). exists x. split; auto. unfold apply. rewrite Z0, X2, Z, (parallel _ _ x C12 N1 X2). reflexivity.
  - destruct (orthogonal (px m)) as (x & X1 & X2). exists x. split; auto. unfold apply. rewrite X2, (parallel _ _ x C01 N0 X2), (parallel _ _ x C02 N0 X2). reflexivity.
Qed.

(* points in a plane have a singular covariance matrix *)
Lemma sum_linear {A} (f : A -> R) ps k d : (forall p, In p ps -> f p = d) -> (k = INR (length ps)) -> sum (map f ps) = k * d.
Proof.
  intros H ->. induction ps as [|p ps IH]; cbn [map sum fold_right length]; [cbn [INR]; ring|]. rewrite S_INR. rewrite (H p) by now left. unfold sum in IH. rewrite IH by (intros q I; apply H; now right). ring.
Qed.
Lemma dot_mean a ps : sum (map (dot a) ps) = px a * sum (map (@px R) ps) + py a * sum (map (@py R) ps) + pz a * sum (map (@pz R) ps).
Proof. induction ps as [|p ps IH]; cbn [map sum fold_right]; [ring|]. unfold sum in *. rewrite IH. unfold dot. ring. Qed.
Lemma centered_dot a d ps : (forall p, In p ps -> dot a p = d) -> forall v, In v (centered ps) -> dot a v = 0.
Proof.
  intros H v I. unfold centered in I. apply in_map_iff in I as (p & <- & I).
  assert (L : INR (length ps) <> 0). { destruct ps; [contradiction|]. apply not_0_INR. cbn. lia. }
  pose proof (sum_linear (dot a) ps _ d H eq_refl) as E. rewrite dot_mean in E.
  replace (dot a (minus p (center ps))) with (dot a p - (px a * sum (map (@px R) ps) + py a * sum (map (@py R) ps) + pz a * sum (map (@pz R) ps)) / INR (length ps)).
  - rewrite E, (H p I). field. exact L.
  - unfold dot, minus, center, mean. cbn [px py pz]. field. exact L.
Qed.
Lemma coplanar_singular ps : coplanar ps <-> det (covariance_matrix ps) = 0.
Proof.
  rewrite covariance_gram. split.
  - intros (a & d & N & H). pose proof (centered_dot a d ps H) as K. pose proof (kernel _ _ K) as KG. set (m := gram (centered ps)) in *.
    (* a . row = 0 for all rows *)
    unfold apply, zero3 in KG. injection KG as K1 K2 K3. destruct (Req_EM_T (det m) 0) as [|ND]; auto. exfalso. apply N.
    assert (X : forall b, dot (apply m b) a = 0). { intros b. unfold m. replace (dot (apply (gram (centered ps)) b) a) with (dot b (apply (gram (centered ps)) a)) by (unfold dot, apply, gram; cbn [px py pz]; unfold dot; cbn [px py pz]; ring). rewrite (kernel _ _ K). unfold dot, zero3. cbn [px py pz]. ring. }
    pose proof (X (cross (px m) (py m))) as X1. pose proof (X (cross (px m) (pz m))) as X2. pose proof (X (cross (py m) (pz m))) as X3.
    rewrite apply_01 in X1. rewrite apply_02 in X2. rewrite apply_12 in X3. unfold dot in X1, X2, X3. cbn [px py pz] in X1, X2, X3.
    destruct a as [a1 a2 a3]. cbn [px py pz] in *. unfold zero3. f_equal.
    + apply (Rmult_eq_reg_l (det m)); auto. lra.
    + apply (Rmult_eq_reg_l (det m)); auto. lra.
    + apply (Rmult_eq_reg_l (det m)); auto. lra.
  - intros D. destruct (singular _ D) as (x & N & K). exists x, (dot x (center ps)). split; auto. intros p I.
    assert (F : dot x (apply (gram (centered ps)) x) = 0) by (rewrite K; unfold dot, zero3; cbn [px py pz]; ring).
    pose proof (form_zero _ _ F (minus p (center ps)) (in_map (fun p => minus p (center ps)) _ _ I)) as Z. unfold dot, minus in *. cbn [px py pz] in Z. lra.
Qed.

(* ------------------------------------------------------------------ the normal *)

Lemma larger_cases v w : larger r_nops v w = v \/ larger r_nops v w = w.
Proof. unfold larger. destruct (o_lt (n_ops r_nops) _ _); auto. Qed.
Lemma norm_dot v : v_norm r_ops v = sqrt (dot v v).
Proof. reflexivity. Qed.
Lemma larger_zero v w : larger r_nops v w = zero3 -> v = zero3 /\ w = zero3.
Proof.
  unfold larger. change (n_ops r_nops) with r_ops. change (o_lt r_ops) with (fun x y => if Rlt_dec x y then true else false). cbv beta. rewrite !norm_dot.
  destruct (Rlt_dec (sqrt (dot v v)) (sqrt (dot w w))) as [L|L]; intros ->.
  - exfalso. pose proof (sqrt_pos (dot v v)). assert (E : dot zero3 zero3 = 0) by (unfold dot, zero3; cbn [px py pz]; ring). rewrite E, sqrt_0 in L. lra.
  - split; auto. assert (E : dot zero3 zero3 = 0) by (unfold dot, zero3; cbn [px py pz]; ring). rewrite E, sqrt_0 in L. pose proof (sqrt_pos (dot w w)) as P.
    apply dot_self. apply sqrt_eq_0; [apply dot_self|lra].
Qed.
Lemma vector_cases m : let n := get_largest_eigen_vector r_nops m in
  (n = cross (px m) (py m) \/ n = cross (px m) (pz m) \/ n = cross (py m) (pz m))
  /\ (n = zero3 -> cross (px m) (py m) = zero3 /\ cross (px m) (pz m) = zero3 /\ cross (py m) (pz m) = zero3).
Proof.
  cbv zeta. unfold get_largest_eigen_vector. change (v_cross (n_ops r_nops)) with cross.
  replace (larger r_nops (cross (px m) (py m)) (cross (px m) (py m))) with (cross (px m) (py m)) by (destruct (larger_cases (cross (px m) (py m)) (cross (px m) (py m))) as [-> | ->]; reflexivity).
  split.
  - destruct (larger_cases (larger r_nops (cross (px m) (py m)) (cross (px m) (pz m))) (cross (py m) (pz m))) as [-> | ->]; auto.
    destruct (larger_cases (cross (px m) (py m)) (cross (px m) (pz m))) as [-> | ->]; auto.
  - intros E. apply larger_zero in E. destruct E as (E & E3). apply larger_zero in E. tauto.
Qed.
Lemma abs_max_ok m : largest_entry m (abs_max r_nops m).
Proof.
  unfold largest_entry, abs_max. cbn [fold_left]. change (n_max r_nops) with Rmax. change (o_abs (n_ops r_nops)) with Rabs. split.
  - repeat match goal with |- exists x, In x ?l /\ Rmax ?a ?b = Rabs x =>
      unfold Rmax at 1; destruct (Rle_dec a b); [match b with Rabs ?y => exists y; split; [cbn [In]; tauto|reflexivity] end|] end.
    exists (px (px m)). split; [cbn; tauto|reflexivity].
  - intros x I. cbn [In] in I.
    repeat (destruct I as [<-|I]; [repeat first [apply Rle_refl | apply Rmax_r | eapply Rle_trans; [|apply Rmax_l]]|]). contradiction.
Qed.
Lemma scaled_rows m : let s := abs_max r_nops m in
  scaled_matrix r_nops m = mk_p3 (times (/ s) (px m)) (times (/ s) (py m)) (times (/ s) (pz m)).
Proof. cbv zeta. unfold scaled_matrix, times. change (o_div (n_ops r_nops)) with Rdiv. unfold Rdiv. f_equal; f_equal; ring. Qed.
Lemma cross_times k u v : cross (times k u) (times k v) = times (k * k) (cross u v).
Proof. rewrite !cross_def. unfold times. cbn [px py pz]. f_equal; ring. Qed.
Lemma abs_max_zero m : abs_max r_nops m = 0 -> px m = zero3 /\ py m = zero3 /\ pz m = zero3.
Proof.
  intros E. destruct (abs_max_ok m) as (_ & B). rewrite E in B. assert (Z : forall x, In x [px (px m); py (px m); pz (px m); px (py m); py (py m); pz (py m); px (pz m); py (pz m); pz (pz m)] -> x = 0).
  { intros x I. pose proof (B x I) as L. pose proof (Rabs_pos x). destruct (Req_EM_T x 0); auto. pose proof (Rabs_pos_lt x n). lra. }
  destruct m as [[a b c] [d e f] [g h i]]. cbn [px py pz] in *. unfold zero3. repeat split; f_equal; apply Z; cbn [In]; tauto.
Qed.
Definition normal_of (ps : list (p3 R)) : p3 R := get_largest_eigen_vector r_nops (scaled_matrix r_nops (covariance_matrix ps)).
Lemma normal_cases ps : let m := covariance_matrix ps in exists k,
  (normal_of ps = times k (cross (px m) (py m)) \/ normal_of ps = times k (cross (px m) (pz m)) \/ normal_of ps = times k (cross (py m) (pz m)))
  /\ (normal_of ps = zero3 -> cross (px m) (py m) = zero3 /\ cross (px m) (pz m) = zero3 /\ cross (py m) (pz m) = zero3).
Proof.
  cbv zeta. unfold normal_of. set (m := covariance_matrix ps). set (s := abs_max r_nops m). exists (/ s * / s). pose proof (vector_cases (scaled_matrix r_nops m)) as V. cbv zeta in V.
  rewrite scaled_rows in V |- *. fold s in V |- *. cbn [px py pz] in V. rewrite !cross_times in V. destruct V as (V1 & V2). split; auto.
  intros Z. specialize (V2 Z). destruct (Req_EM_T s 0) as [Z0|N0].
  - apply abs_max_zero in Z0. destruct Z0 as (-> & -> & ->). rewrite cross_self. auto.
  - assert (X : forall v, times (/ s * / s) v = zero3 -> v = zero3).
    { intros v E. unfold times, zero3 in E. injection E as E1 E2 E3. destruct v as [x y z]. cbn [px py pz] in *. assert (/ s <> 0) by now apply Rinv_neq_0_compat. unfold zero3.
      f_equal; (apply (Rmult_eq_reg_l (/ s * / s)); [lra|]); intros Q; apply Rmult_integral in Q; tauto. }
    destruct V2 as (A & B & C). auto.
Qed.

Lemma times_dot k u v : dot (times k u) v = k * dot u v.
Proof. unfold dot, times. cbn [px py pz]. ring. Qed.
Lemma apply_times m k v : apply m (times k v) = times k (apply m v).
Proof. unfold apply, times, dot. cbn [px py pz]. f_equal; ring. Qed.
Lemma normal_image ps : let m := covariance_matrix ps in exists k,
  apply m (normal_of ps) = mk_p3 k 0 0 \/ apply m (normal_of ps) = mk_p3 0 k 0 \/ apply m (normal_of ps) = mk_p3 0 0 k.
Proof.
  cbv zeta. destruct (normal_cases ps) as (k & [E|[E|E]] & _); rewrite E, apply_times.
  - rewrite apply_01. exists (k * det (covariance_matrix ps)). right. right. unfold times. cbn [px py pz]. f_equal; ring.
  - rewrite apply_02. exists (k * - det (covariance_matrix ps)). right. left. unfold times. cbn [px py pz]. f_equal; ring.
  - rewrite apply_12. exists (k * det (covariance_matrix ps)). left. unfold times. cbn [px py pz]. f_equal; ring.
Qed.
Lemma normal_orthogonal ps : coplanar ps -> forall p q, In p ps -> In q ps -> dot (normal_of ps) (minus p q) = 0.
Proof.
  intros C. apply coplanar_singular in C.
  assert (K : apply (covariance_matrix ps) (normal_of ps) = zero3).
  { destruct (normal_cases ps) as (k & [E|[E|E]] & _); rewrite E, apply_times; [rewrite apply_01|rewrite apply_02|rewrite apply_12]; rewrite C; unfold times, zero3; cbn [px py pz]; f_equal; ring. }
  rewrite covariance_gram in K. assert (F : dot (normal_of ps) (apply (gram (centered ps)) (normal_of ps)) = 0) by (rewrite K; unfold dot, zero3; cbn [px py pz]; ring).
  assert (Z : forall p, In p ps -> dot (normal_of ps) (minus p (center ps)) = 0) by (intros p I; apply (form_zero _ _ F); unfold centered; now apply (in_map (fun p => minus p (center ps)))).
  intros p q Ip Iq. pose proof (Z p Ip) as Zp. pose proof (Z q Iq) as Zq. unfold dot, minus in *. cbn [px py pz] in *. lra.
Qed.

(* all minors vanish only for points on a line *)
Lemma minor_zero D f g : S D f f * S D g g - S D f g * S D f g = 0 -> forall v, In v D -> S D g g * f v = S D f g * g v.
Proof.
  intros E. assert (X : sum (map (fun v => (S D g g * f v - S D f g * g v) * (S D g g * f v - S D f g * g v)) D) = 0).
  { rewrite (sum_ext _ (fun v => 1 * (S D g g * S D g g * (f v * f v) + (- (2 * S D g g * S D f g)) * (f v * g v)) + S D f g * S D f g * (g v * g v))) by (intros; ring).
    rewrite sum_lin. rewrite (sum_lin (fun v => f v * f v) (fun v => f v * g v)). fold (S D f f) (S D f g) (S D g g).
    transitivity (S D g g * (S D f f * S D g g - S D f g * S D f g)); [ring|]. rewrite E. ring. }
  intros v I. pose proof (proj2 (sum_squares (map (fun v => S D g g * f v - S D f g * g v) D))) as H. rewrite map_map in H. specialize (H X (S D g g * f v - S D f g * g v)).
  assert (S D g g * f v - S D f g * g v = 0); [|lra]. apply H. now apply (in_map (fun v => S D g g * f v - S D f g * g v)).
Qed.
Lemma minors_collinear ps : let D := centered ps in
  S D (@px R) (@px R) * S D (@py R) (@py R) - S D (@px R) (@py R) * S D (@px R) (@py R) = 0 ->
  S D (@px R) (@px R) * S D (@pz R) (@pz R) - S D (@px R) (@pz R) * S D (@px R) (@pz R) = 0 ->
  S D (@py R) (@py R) * S D (@pz R) (@pz R) - S D (@py R) (@pz R) * S D (@py R) (@pz R) = 0 -> collinear ps.
Proof.
  cbv zeta. set (D := centered ps). intros E1 E2 E3.
  assert (G : exists u, forall v, In v D -> exists t, v = times t u).
  { destruct (Req_EM_T (S D (@py R) (@py R)) 0) as [Y|Y].
    - pose proof (diag_zero D _ Y) as Zy. destruct (Req_EM_T (S D (@px R) (@px R)) 0) as [X|X].
      + pose proof (diag_zero D _ X) as Zx. exists (mk_p3 0 0 1). intros v I. exists (pz v). destruct v as [a b c]. specialize (Zx _ I). specialize (Zy _ I). cbn [px py pz] in *. subst. unfold times. cbn [px py pz]. f_equal; ring.
      + exists (mk_p3 1 0 (S D (@px R) (@pz R) / S D (@px R) (@px R))). intros v I. exists (px v). rewrite (S_sym D (@px R) (@pz R)) in E2 |- *. pose proof (minor_zero D (@pz R) (@px R) ltac:(lra) v I) as M. specialize (Zy _ I).
        destruct v as [a b c]. cbn [px py pz] in *. subst. unfold times. cbn [px py pz]. f_equal; try ring. apply (Rmult_eq_reg_l (S D (@px R) (@px R))); auto. rewrite M. field. exact X.
    - exists (mk_p3 (S D (@px R) (@py R) / S D (@py R) (@py R)) 1 (S D (@pz R) (@py R) / S D (@py R) (@py R))). intros v I. exists (py v).
      pose proof (minor_zero D (@px R) (@py R) E1 v I) as M1. rewrite (S_sym D (@py R) (@pz R)) in E3. pose proof (minor_zero D (@pz R) (@py R) ltac:(lra) v I) as M2.
      destruct v as [a b c]. cbn [px py pz] in *. unfold times. cbn [px py pz]. f_equal; try ring; (apply (Rmult_eq_reg_l (S D (@py R) (@py R))); [|exact Y]); [rewrite M1|rewrite M2]; field; exact Y. }
  destruct G as (u & H). exists (center ps), u. intros p I. apply H. unfold D, centered. now apply (in_map (fun p => minus p (center ps))).
Qed.
Lemma normal_nonzero ps : ~ collinear ps -> normal_of ps <> zero3.
Proof.
  intros NC Z. apply NC. destruct (normal_cases ps) as (k & _ & C). destruct (C Z) as (C1 & C2 & C3). rewrite covariance_gram in C1, C2, C3. rewrite cross_def in C1, C2, C3. unfold gram, zero3 in *. cbn [px py pz] in *.
  injection C1 as _ _ C1. injection C2 as _ C2 _. injection C3 as C3 _ _. apply minors_collinear; lra.
Qed.

(* for points that are not in a plane the normal is an eigenvector only along an axis *)
Lemma normal_axis ps : ~ coplanar ps -> normal_of ps <> zero3 /\ (eigenvector (covariance_matrix ps) (normal_of ps) -> on_axis (normal_of ps)).
Proof.
  intros NC. assert (ND : det (covariance_matrix ps) <> 0) by (intros E; apply NC; now apply coplanar_singular).
  assert (NZ : normal_of ps <> zero3).
  { intros Z. destruct (normal_cases ps) as (k & _ & C). destruct (C Z) as (_ & _ & C3). apply ND. rewrite det_rows, C3. unfold dot, zero3. cbn [px py pz]. ring. }
  split; auto. intros (_ & l & E). destruct (normal_image ps) as (k & K). set (n := normal_of ps) in *.
  assert (NI : apply (covariance_matrix ps) n <> zero3).
  { intros Z. rewrite covariance_gram in *. apply NZ. (* a kernel vector is orthogonal to the points *)
    assert (F : dot n (apply (gram (centered ps)) n) = 0) by (rewrite Z; unfold dot, zero3; cbn [px py pz]; ring).
    destruct (p3_dec n) as [|N]; auto. exfalso. apply NC. exists n, (dot n (center ps)). split; auto. intros p I.
    pose proof (form_zero _ _ F (minus p (center ps)) (in_map (fun p => minus p (center ps)) _ _ I)) as Q. unfold dot, minus in *. cbn [px py pz] in Q. lra. }
  assert (NL : l <> 0). { intros ->. apply NI. rewrite E. unfold times, zero3. f_equal; ring. }
  rewrite E in K. unfold times in K. assert (X : forall x, l * x = 0 -> x = 0) by (intros x Q; apply Rmult_integral in Q; tauto). unfold on_axis.
  destruct K as [K|[K|K]]; injection K as K1 K2 K3; auto.
Qed.
