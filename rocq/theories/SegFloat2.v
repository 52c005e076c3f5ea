(* Planes and lines of RANSAC in f64 arithmetic. *)
From Coq Require Import List ZArith Reals Lia Lra SpecFloat Psatz Arith Sorted.
From Flocq Require Import Core.
From Flocq Require IEEE754.BinarySingleNaN.
From Verif Require Import Base LayoutModel BufferModel BufferSpec TraitModel TraitSpec MathModel MathSpec SegModel SegSpec SegProofs SegProofs2 SegReal LasGridSpec VoxSpec FloatReal F64Real NormSpec NormFloat LasFloat
  TilesBoxSpec HullSpec HullModel HullFloatSpec HullFloat HullFloat2 SegFloatSpec SegFloat.
Import ListNotations.
Open Scope R_scope.

Lemma abs_on e K x r : on e K x r -> on e K (SFabs x) (Rabs r).
Proof.
  intros (Rx & V & k & -> & B). assert (Q : val (SFabs x) = Rabs (val x)).
  { unfold val, value. destruct x as [[]|[]| |[] m q]; try destruct Rx as ([] & _); cbn [SFabs BinarySingleNaN.SF2R]; try now rewrite Rabs_R0.
    - unfold F2R. cbn [Fnum Fexp cond_Zopp]. change (Z.neg m) with (- Z.pos m)%Z. rewrite opp_IZR, Ropp_mult_distr_l_reverse, Rabs_Ropp. symmetry. apply Rabs_pos_eq, Rmult_le_pos; [apply IZR_le; lia|apply bpow_ge_0].
    - unfold F2R. cbn [Fnum Fexp cond_Zopp]. symmetry. apply Rabs_pos_eq, Rmult_le_pos; [apply IZR_le; lia|apply bpow_ge_0]. }
  split; [|split; [now rewrite Q, V|exists (Z.abs k); split; [|now rewrite Z.abs_involutive]]].
  - destruct Rx as (F & W). split; [destruct x; cbn in *; auto|destruct x; cbn in *; auto].
  - now rewrite Rabs_mult, abs_IZR, (Rabs_pos_eq (bpow radix2 e)) by apply bpow_ge_0.
Qed.

Section Plane.
Variable e : Z.
Hypothesis E : (-100 <= e <= 100)%Z.

Lemma plane_near fa fb fc fp : grid_point e fa -> grid_point e fb -> grid_point e fc -> grid_point e fp ->
  not_collinear (real_point fa) (real_point fb) (real_point fc) ->
  exists d, is_distance (real_point fp) (plane_through (real_point fa) (real_point fb) (real_point fc)) d
    /\ nearly (distance_point_plane f64_ops fp (plane_of f64_ops fa fb fc)) d.
Proof.
  intros A B C P NC. apply grid_on in A, B, C, P. set (a := real_point fa) in *. set (b := real_point fb) in *. set (c := real_point fc) in *. set (p := real_point fp) in *.
  assert (N : on3 (e + e) (2 ^ 33) (v_cross f64_ops (v_sub f64_ops fb fa) (v_sub f64_ops fc fa)) (v_cross r_ops (v_sub r_ops b a) (v_sub r_ops c a))).
  { apply (cross_on e e (2 ^ 15 + 2 ^ 15) (2 ^ 15 + 2 ^ 15)); try lia; apply sub3; auto; lia. }
  pose proof (dot_on (e + e) e (2 ^ 33) (2 ^ 15) _ _ _ _ ltac:(lia) ltac:(lia) ltac:(lia) N A ltac:(lia)) as DA.
  pose proof (dot_on (e + e) e (2 ^ 33) (2 ^ 15) _ _ _ _ ltac:(lia) ltac:(lia) ltac:(lia) N P ltac:(lia)) as DP.
  unfold plane_of. set (fn := v_cross f64_ops (v_sub f64_ops fb fa) (v_sub f64_ops fc fa)) in *. set (n := v_cross r_ops (v_sub r_ops b a) (v_sub r_ops c a)) in *.
  apply (neg_on (e + e + e)) in DA. pose proof (add_on (e + e + e) ltac:(lia) _ _ _ _ _ _ DP DA ltac:(lia)) as NUM. apply abs_on in NUM.
  destruct (norm_rel (e + e) (2 ^ 33) ltac:(lia) ltac:(lia) fn n N) as (RN & EN). destruct (norm_size (e + e) (2 ^ 33) ltac:(lia) fn n N) as (LN & UN).
  assert (NZ : dotr n n <> 0).
  { pose proof (sampled_plane_proper a b c NC) as X. apply sum_squares_pos in X. rewrite dotr_eq. change (pl_a (plane_of r_ops a b c)) with (px n) in X. change (pl_b (plane_of r_ops a b c)) with (py n) in X. change (pl_c (plane_of r_ops a b c)) with (pz n) in X. lra. }
  destruct LN as [LN|LN]; [contradiction|].
  pose proof (sampled_plane_distance a b c p NC) as SD. exists (distance_point_plane r_ops p (plane_of r_ops a b c)). split.
  { destruct SD as (S1 & q & S2 & S3).
    assert (EQ : forall q, on_plane (plane_of r_ops a b c) q <-> plane_through a b c q).
    { intros x. unfold on_plane, plane_through, plane_of, volume, v_cross, v_dot, v_sub, r_ops. cbn [o_add o_mul o_sub o_neg px py pz pl_a pl_b pl_c pl_d]. split; intros H; rewrite <- H; ring. }
    split; [intros x X; apply S1, EQ, X|exists q; split; [apply EQ, S2|exact S3]]. }
  unfold distance_point_plane, plane_of. fold n. cbn [pl_a pl_b pl_c pl_d].
  change (o_sqrt f64_ops _) with (v_norm f64_ops fn). change (o_sqrt r_ops _) with (sqrt (dotr n n)).
  change (o_div r_ops ?x ?y) with (x / y). change (o_div f64_ops ?x ?y) with (f64_div x y).
  change (o_abs f64_ops (o_add f64_ops _ _)) with (SFabs (f64_add (v_dot f64_ops fn fp) (SFopp (v_dot f64_ops fn fa)))).
  change (o_abs r_ops (o_add r_ops _ _)) with (Rabs (v_dot r_ops n p + - v_dot r_ops n a)).
  destruct NUM as (RX & VX & k & HK & BK). set (x := SFabs _) in *. set (y := v_norm f64_ops fn) in *. set (r := Rabs _) in *.
  assert (PR : 0 <= r) by apply Rabs_pos.
  apply quot_rel; auto.
  - rewrite VX, Rminus_eq_0, Rabs_R0. rewrite e53_eq. lra.
  - destruct (Z.eq_dec k 0) as [->|KN]; [left; rewrite HK; ring|right]. rewrite <- (Rabs_pos_eq r) by exact PR. rewrite HK, Rabs_mult, <- abs_IZR, (Rabs_pos_eq (bpow radix2 _)) by apply bpow_ge_0.
    apply Rle_trans with (1 * bpow radix2 (e + e + e)); [rewrite Rmult_1_l; apply bpow_le; lia|]. apply Rmult_le_compat_r; [apply bpow_ge_0|]. apply IZR_le. lia.
  - rewrite <- (Rabs_pos_eq r) by exact PR. rewrite HK. apply Rle_trans with (bpow radix2 (53 + (e + e + e))); [apply grid_size; lia|]. apply bpow_le. lia.
  - split; [apply Rle_trans with (2 := LN)|apply Rle_trans with (1 := UN)]; apply bpow_le; lia.
Qed.

Lemma line_near fa fb fp : grid_point e fa -> grid_point e fb -> grid_point e fp -> real_point fa <> real_point fb ->
  exists d, is_distance (real_point fp) (line_through (real_point fa) (real_point fb)) d /\ nearly (distance_point_line f64_ops fp (mk_line fa fb)) d.
Proof.
  intros A B P NE. apply grid_on in A, B, P. set (a := real_point fa) in *. set (b := real_point fb) in *. set (p := real_point fp) in *.
  pose proof (sub3 e _ _ _ _ _ _ ltac:(lia) B A ltac:(lia)) as D. pose proof (sub3 e _ _ _ _ _ _ ltac:(lia) A P ltac:(lia)) as F.
  pose proof (cross_on e e (2 ^ 15 + 2 ^ 15) (2 ^ 15 + 2 ^ 15) _ _ _ _ ltac:(lia) ltac:(lia) ltac:(lia) D F ltac:(lia)) as N. change (on3 (e + e) (2 ^ 33) (v_cross f64_ops (v_sub f64_ops fb fa) (v_sub f64_ops fa fp)) (v_cross r_ops (v_sub r_ops b a) (v_sub r_ops a p))) in N. change (on3 e (2 ^ 16) (v_sub f64_ops fb fa) (v_sub r_ops b a)) in D.
  destruct (norm_rel e (2 ^ 16) ltac:(lia) ltac:(lia) _ _ D) as (RD & ED). destruct (norm_size e (2 ^ 16) ltac:(lia) _ _ D) as (LD & UD).
  destruct (norm_rel (e + e) (2 ^ 33) ltac:(lia) ltac:(lia) _ _ N) as (RN & EN). destruct (norm_size (e + e) (2 ^ 33) ltac:(lia) _ _ N) as (LN & UN).
  exists (distance_point_line r_ops p (mk_line a b)). split; [apply (line_distance (mk_line a b) p NE)|].
  unfold distance_point_line. cbn [ln_first ln_second]. change (o_div r_ops ?x ?y) with (x / y). change (o_div f64_ops ?x ?y) with (f64_div x y).
  change (v_norm r_ops ?x) with (sqrt (dotr x x)). set (n := v_cross r_ops _ _) in *. set (d := v_sub r_ops b a) in *.
  destruct LD as [LD|LD].
  { exfalso. apply NE. rewrite dotr_eq in LD. unfold d, v_sub, r_ops in LD. cbn [px py pz o_sub] in LD.
    pose proof (Rle_0_sqr (px b - px a)) as Q1. pose proof (Rle_0_sqr (py b - py a)) as Q2. pose proof (Rle_0_sqr (pz b - pz a)) as Q3. unfold Rsqr in *.
    assert (X : px b - px a = 0) by (apply Rsqr_0_uniq; unfold Rsqr; lra). assert (Y : py b - py a = 0) by (apply Rsqr_0_uniq; unfold Rsqr; lra). assert (Z : pz b - pz a = 0) by (apply Rsqr_0_uniq; unfold Rsqr; lra).
    destruct a as [a1 a2 a3], b as [b1 b2 b3]. cbn [px py pz] in *. f_equal; lra. }
  apply quot_rel; auto.
  - apply sqrt_pos.
  - destruct LN as [LN|LN]; [left; rewrite LN; apply sqrt_0|right]. apply Rle_trans with (2 := LN). apply bpow_le. lia.
  - apply Rle_trans with (1 := UN). apply bpow_le. lia.
  - split; [apply Rle_trans with (2 := LD)|apply Rle_trans with (1 := UD)]; apply bpow_le; lia.
Qed.
End Plane.

Lemma distance_unique p S d d' : is_distance p S d -> is_distance p S d' -> d = d'.
Proof. intros (A & q & B & ->) (C & r & D & ->). apply Rle_antisym; auto. Qed.
Lemma real_ltb x y : real_f64 x -> real_f64 y -> SFltb x y = true <-> val x < val y.
Proof.
  intros X Y. unfold SFltb. rewrite (compare_correct 53 1024 x y (proj1 (f64_valid x) (proj2 X)) (proj1 (f64_valid y) (proj2 Y)) (proj1 (finite_SF x) (proj1 X)) (proj1 (finite_SF y) (proj1 Y))).
  fold (val x) (val y). destruct (Rcompare_spec (val x) (val y)); split; intros; try discriminate; try lra; auto.
Qed.

Section Fit.
Variables (M A : Type) (pts : list (p3 spec_float)) (thr : spec_float) (dist : p3 spec_float -> M -> spec_float).
Variables (members : A -> list nat) (spanned : A -> p3 R -> Prop) (model_of : A -> M -> Prop) (samples : list A).
Hypothesis TR : real_f64 thr.
Hypothesis near : forall s x p, In s samples -> model_of s x -> In p pts -> exists d, is_distance (real_point p) (spanned s) d /\ nearly (dist p x) d.
Hypothesis mine : forall s i, In s samples -> In i (members s) -> exists p, nth_error pts i = Some p /\ spanned s (real_point p).
Hypothesis TP : 0 < number thr.

Lemma close_inliers s x l : In s samples -> model_of s x -> inliers pts dist thr x l -> close_points pts (spanned s) thr l.
Proof.
  intros IS MO (_ & I) i p d E D. destruct (near s x p IS MO (nth_error_In _ _ E)) as (d' & D' & RX & N). rewrite (distance_unique _ _ _ _ D' D) in N.
  fold (val (dist p x)) in N. change (number (dist p x)) with (val (dist p x)) in N. change (number thr) with (val thr). apply Rabs_le_inv in N. split; intros H.
  - apply I. exists p. split; [exact E|]. apply real_ltb; auto. lra.
  - apply I in H. destruct H as (p' & E' & L). rewrite E in E'. injection E' as <-. apply real_ltb in L; auto. lra.
Qed.
Lemma zero_distance p (S : p3 R -> Prop) : S p -> is_distance p S 0.
Proof.
  intros H. split; [intros; apply sqrt_pos|exists p; split; [exact H|]]. unfold euclid. rewrite !Rminus_eq_0, Rmult_0_l, !Rplus_0_l. symmetry. apply sqrt_0.
Qed.
Lemma best_fits models h : Forall2 model_of samples models -> best_of pts dist thr models h -> fits pts thr members spanned samples h.
Proof.
  intros F (I & R & k & EK & BEST).
  assert (P : forall ms ss, Forall2 model_of ss ms -> forall k x, nth_error ms k = Some x -> exists s, In s ss /\ model_of s x).
  { induction 1 as [|s x ss ms MO F' IH]; intros [|j] y Y; try discriminate; cbn in Y; [injection Y as <-; exists s; split; [now left|auto]|]. destruct (IH j y Y) as (s' & A1 & A2). exists s'. split; [now right|auto]. }
  destruct (P _ _ F k _ EK) as (s & IS & MO). exists s. pose proof (close_inliers s _ _ IS MO I) as CI.
  split; [exact IS|]. split; [|split; [exact R|split; [exact CI|]]].
  - intros i HI. destruct (mine s i IS HI) as (p & E & SP). apply (CI i p 0 E (zero_distance _ _ SP)). lra.
  - intros s' l IS' (ND & SC). assert (Q : forall ss ms, Forall2 model_of ss ms -> In s' ss -> exists k x, nth_error ms k = Some x /\ model_of s' x).
    { induction 1 as [|t x ss ms MO' F' IH]; [intros []|intros [<-|H]; [exists O, x; auto|destruct (IH H) as (j & y & Y1 & Y2); exists (S j), y; auto]]. }
    destruct (Q _ _ F IS') as (k' & x' & EK' & MO'). pose proof (chosen_inliers _ dist thr pts x') as I'. destruct (BEST k' x' _ EK' I') as (LE & _). apply Nat.le_trans with (2 := LE).
    apply NoDup_incl_length; [exact ND|]. intros i HI. destruct (SC i HI) as (p & d & E & D & L). apply (close_inliers s' x' _ IS' MO' I' i p d E D). exact L.
Qed.
End Fit.

Lemma point_nth pts i p : nth_error pts i = Some p -> point (map real_point pts) i = real_point p.
Proof. intros E. unfold point. apply nth_error_nth. now rewrite nth_error_map, E. Qed.
Lemma sampled {A} (sample : list nat -> A -> Prop) (P : A -> Prop) runs ts : (forall r t, sample r t -> P t) -> Forall2 sample runs ts -> forall t, In t ts -> P t.
Proof. intros H F. induction F as [|r t rs ts S F IH]; intros x []; subst; eauto. Qed.

Section Whole.
Variables (b : buffer) (m : member) (e : Z) (thr : spec_float).
Hypothesis HP : has_positions b m.
Hypothesis E : (-100 <= e <= 100)%Z.
Hypothesis G : Forall (grid_point e) (points3 b m).
Hypothesis TR : real_f64 thr.
Hypothesis TP : 0 < number thr.
Let ps := map real_point (points3 b m).
Let is_in i := (i < bf_len b)%nat.

Lemma at_index i : is_in i -> exists p, nth_error (points3 b m) i = Some p /\ point ps i = real_point p /\ grid_point e p.
Proof.
  intros H. unfold is_in in H. rewrite <- (points3_length b m HP) in H. destruct (nth_error (points3 b m) i) as [p|] eqn:X; [|apply nth_error_None in X; lia].
  exists p. split; [reflexivity|]. split; [now apply point_nth|]. now apply (proj1 (Forall_forall _ _) G), (nth_error_In _ i).
Qed.
Lemma plane_fits samples planes h : Forall (proper3 ps) samples -> (forall t, In t samples -> Forall is_in (three t)) ->
  Forall2 (is_plane_of (points3 b m)) samples planes -> best_of (points3 b m) (distance_point_plane f64_ops) thr planes h ->
  fits (points3 b m) thr three (spanned_plane ps) samples h.
Proof.
  intros PR IN F B. refine (best_fits _ _ _ thr _ three (spanned_plane ps) (is_plane_of (points3 b m)) samples TR _ _ TP planes h F B).
  - intros ((i, j), k) x q IS (pa & pb & pc & EA & EB & EC & ->) IQ. cbn [spanned_plane]. unfold ps. rewrite (point_nth _ _ _ EA), (point_nth _ _ _ EB), (point_nth _ _ _ EC).
    pose proof (proj1 (Forall_forall _ _) G) as GG. apply (plane_near e E); try (apply GG; eauto using nth_error_In).
    pose proof (proj1 (Forall_forall _ _) PR _ IS) as X. cbn in X. unfold ps in X. now rewrite (point_nth _ _ _ EA), (point_nth _ _ _ EB), (point_nth _ _ _ EC) in X.
  - intros ((i, j), k) x IS HX. specialize (IN _ IS). cbn [three] in *. assert (IX : is_in x) by (apply (proj1 (Forall_forall _ _) IN), HX). destruct (at_index x IX) as (p & EP & VP & _).
    exists p. split; [exact EP|]. rewrite <- VP. cbn [spanned_plane]. unfold plane_through, volume. destruct HX as [<-|[<-|[<-|[]]]]; ring.
Qed.
Lemma line_fits samples lines h : Forall (proper2 ps) samples -> (forall t, In t samples -> Forall is_in (two t)) ->
  Forall2 (is_line_of (points3 b m)) samples lines -> best_of (points3 b m) (distance_point_line f64_ops) thr lines h ->
  fits (points3 b m) thr two (spanned_line ps) samples h.
Proof.
  intros PR IN F B. refine (best_fits _ _ _ thr _ two (spanned_line ps) (is_line_of (points3 b m)) samples TR _ _ TP lines h F B).
  - intros (i, j) x q IS (pa & pb & EA & EB & ->) IQ. cbn [spanned_line]. unfold ps. rewrite (point_nth _ _ _ EA), (point_nth _ _ _ EB).
    pose proof (proj1 (Forall_forall _ _) G) as GG. apply (line_near e E); try (apply GG; eauto using nth_error_In).
    pose proof (proj1 (Forall_forall _ _) PR _ IS) as X. cbn in X. unfold ps in X. now rewrite (point_nth _ _ _ EA), (point_nth _ _ _ EB) in X.
  - intros (i, j) x IS HX. specialize (IN _ IS). cbn [two] in *. assert (IX : is_in x) by (apply (proj1 (Forall_forall _ _) IN), HX). destruct (at_index x IX) as (p & EP & VP & _).
    exists p. split; [exact EP|]. rewrite <- VP. cbn [spanned_line]. unfold line_through. destruct HX as [<-|[<-|[]]]; [exists 0|exists 1]; repeat split; ring.
Qed.
Lemma sample3_in runs samples : Forall2 (sample3 (bf_len b)) runs samples -> forall t, In t samples -> Forall is_in (three t).
Proof.
  apply sampled. intros r ((i, j), k) (a1 & a2 & _ & _ & _ & _ & _ & _ & A & B & C). repeat constructor; assumption.
Qed.
Lemma sample2_in runs samples : Forall2 (sample2 (bf_len b)) runs samples -> forall t, In t samples -> Forall is_in (two t).
Proof. apply (sampled). intros r (i, j) (a1 & _ & _ & _ & A & B). repeat constructor; assumption. Qed.
Lemma plane_serial_fits runs samples rest : (3 <= bf_len b)%nat -> runs <> [] -> Forall2 (sample3 (bf_len b)) runs samples -> Forall (proper3 ps) samples ->
  exists h, ransac_plane_serial b thr (length runs) (concat runs ++ rest) = Some (Ok h) /\ fits (points3 b m) thr three (spanned_plane ps) samples h.
Proof.
  intros L NE F PR. destruct (plane_serial b m thr runs samples rest HP L NE F) as (h & planes & EQ & FP & B). exists h. split; [exact EQ|]. apply (plane_fits samples planes h PR (sample3_in _ _ F) FP B).
Qed.
Lemma line_serial_fits runs samples rest : (2 <= bf_len b)%nat -> runs <> [] -> Forall2 (sample2 (bf_len b)) runs samples -> Forall (proper2 ps) samples ->
  exists h, ransac_line_serial b thr (length runs) (concat runs ++ rest) = Some (Ok h) /\ fits (points3 b m) thr two (spanned_line ps) samples h.
Proof.
  intros L NE F PR. destruct (line_serial b m thr runs samples rest HP L NE F) as (h & lines & EQ & FP & B). exists h. split; [exact EQ|]. apply (line_fits samples lines h PR (sample2_in _ _ F) FP B).
Qed.
Lemma plane_par_fits s samples : (3 <= bf_len b)%nat -> Forall2 (fun d t => exists run rest, d = run ++ rest /\ sample3 (bf_len b) run t) (iterations s) samples -> Forall (proper3 ps) samples ->
  exists h, ransac_plane_par b thr (Some s) = Some (Ok h) /\ fits (points3 b m) thr three (spanned_plane ps) samples h.
Proof.
  intros L F PR. destruct (plane_par b m thr s samples HP L F) as (h & planes & EQ & FP & B & _). exists h. split; [exact EQ|]. apply (plane_fits samples planes h PR); auto.
  refine (sampled _ _ _ _ _ F). intros r ((i, j), k) (run & rest & _ & a1 & a2 & _ & _ & _ & _ & _ & _ & X & Y & Z). repeat constructor; assumption.
Qed.
Lemma line_par_fits s samples : (2 <= bf_len b)%nat -> Forall2 (fun d t => exists run rest, d = run ++ rest /\ sample2 (bf_len b) run t) (iterations s) samples -> Forall (proper2 ps) samples ->
  exists h, ransac_line_par b thr (Some s) = Some (Ok h) /\ fits (points3 b m) thr two (spanned_line ps) samples h.
Proof.
  intros L F PR. destruct (line_par b m thr s samples HP L F) as (h & lines & EQ & FP & B & _). exists h. split; [exact EQ|]. apply (line_fits samples lines h PR); auto.
  refine (sampled _ _ _ _ _ F). intros r (i, j) (run & rest & _ & a1 & _ & _ & _ & X & Y). repeat constructor; assumption.
Qed.
End Whole.
