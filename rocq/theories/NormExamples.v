(* Concrete clouds for the properties of the normal estimation. *)
From Coq Require Import String List Arith ZArith Lia Reals Lra Bool Permutation SpecFloat.
From Flocq Require Import Core BinarySingleNaN.
From Verif Require Import Base MathModel MathSpec SegModel SegSpec SegExamples VoxModel VoxSpec FloatReal F64Real NormModel NormSpec NormProofs NormProofs2 NormFloat NormProofs3.
Import ListNotations.
Open Scope R_scope.

(* the first k points *)
Definition first_points (T : Type) (ps : list (p3 T)) (p : p3 T) (k : nat) : list (p3 T) := firstn k ps.
Lemma first_points_ok T : finds_neighbours (@first_points T).
Proof.
  intros ps p k _. unfold first_points. split; [|apply firstn_length]. intros q H. rewrite <- (firstn_skipn k ps). apply in_or_app. now left.
Qed.
(* four points of the plane x + y + z = 1 *)
Definition tilted : list (p3 R) := [v3 1 0 0; v3 0 1 0; v3 0 0 1; v3 1 1 (-1)].
Lemma tilted_coplanar : coplanar tilted.
Proof. exists (v3 1 1 1), 1. split; [intros E; injection E; lra|]. intros p H. cbn [tilted In] in H. unfold dot. repeat (destruct H as [<-|H]; [cbn [v3 px py pz]; lra|]). destruct H. Qed.
Lemma tilted_not_collinear : ~ collinear tilted.
Proof.
  intros (b & u & H). destruct (H (v3 1 0 0) ltac:(cbn; auto)) as (t1 & E1). destruct (H (v3 0 1 0) ltac:(cbn; auto)) as (t2 & E2). destruct (H (v3 0 0 1) ltac:(cbn; auto)) as (t3 & E3).
  destruct b as [bx b_y bz], u as [ux uy uz]. unfold minus, times, v3 in *. cbn [px py pz] in *. injection E1 as A1 A2 A3. injection E2 as B1 B2 B3. injection E3 as C1 C2 C3.
  assert (X1 : (t1 - t2) * ux = 1) by lra. assert (X2 : (t1 - t2) * uy = -1) by lra. assert (X3 : (t1 - t2) * uz = 0) by lra. assert (X4 : (t1 - t3) * uz = -1) by lra.
  assert (T : t1 - t2 <> 0) by (intros Z; rewrite Z in X1; lra). assert (uz = 0). { apply Rmult_integral in X3. tauto. } rewrite H0 in X4. lra.
Qed.

(* finite coordinates whose squares overflow *)
Definition f_big : spec_float := S754_finite false (2 ^ 52)%positive 488.
Definition f_point (x y z : spec_float) : p3 spec_float := mk_p3 x y z.
Definition far_points : list (p3 spec_float) := [f_point f_big (fz 0) (fz 0); f_point (fz 0) f_big (fz 0); f_point (fz 0) (fz 0) f_big].
Lemma far_panics atan2 cos sin : compute_normals (f64_nops atan2 cos sin) (@first_points _) far_points 3 = Panic.
Proof. vm_compute. reflexivity. Qed.
(* three times the same point *)
Definition same_points : list (p3 spec_float) := repeat (f_point (fz 1) (fz 2) (fz 3)) 3.
Definition nan3 : p3 spec_float := mk_p3 S754_nan S754_nan S754_nan.
Lemma same_nan atan2 cos sin : compute_normals (f64_nops atan2 cos sin) (@first_points _) same_points 3 = Ok (repeat (nan3, S754_zero false) 3).
Proof. vm_compute. reflexivity. Qed.
Lemma far_finite p : In p far_points -> real_f64 (px p) /\ real_f64 (py p) /\ real_f64 (pz p).
Proof.
  assert (B : real_f64 f_big) by (split; cbn; auto; right; lia). assert (Z0 : real_f64 (fz 0)) by (split; cbn; auto).
  intros H. cbn [far_points In] in H. repeat (destruct H as [<-|H]; [cbn [f_point px py pz]; auto|]). destruct H.
Qed.
(* five points with small coordinates *)
Definition cloud5 : list (p3 spec_float) := [f_point (fz 0) (fz 0) (fz 0); f_point (fz 1) (fz 0) (fz 0); f_point (fz 0) (fz 1) (fz 0); f_point (fz 1) (fz 1) (fz 0); f_point (fz 0) (fz 0) (fz 5)].
Lemma fz_within z : (Z.abs z <= 2 ^ 53)%Z -> within (2 ^ 64) (fz z).
Proof.
  intros H. destruct (of_int z H) as (R & E). split; auto. change (SF2R radix2 (fz z)) with (val (fz z)). unfold fz. rewrite E. rewrite <- abs_IZR. rewrite (pow_bpow 64). change (bpow radix2 (Z.of_nat 64)) with (IZR (2 ^ 64)). apply IZR_le. lia.
Qed.
Lemma cloud5_within p : In p cloud5 -> point_within (2 ^ 64) p.
Proof.
  intros H. cbn [cloud5 In] in H. repeat (destruct H as [<-|H]; [unfold point_within; cbn [f_point px py pz]; repeat match goal with |- _ /\ _ => split end; apply fz_within; lia|]). destruct H.
Qed.
Lemma cloud5_spread : spread (/ 2 ^ 400) cloud5.
Proof.
  exists (f_point (fz 1) (fz 0) (fz 0)), (f_point (fz 0) (fz 0) (fz 0)). split; [cbn; auto|]. split; [cbn; auto|]. left. cbn [f_point px].
  change (SF2R radix2 (fz 1)) with (val (fz 1)). change (SF2R radix2 (fz 0)) with (val (fz 0)). unfold fz. rewrite (proj2 (of_int 1 ltac:(lia))), (proj2 (of_int 0 ltac:(lia))).
  assert (1 <= 2 ^ 400) by (apply pow_R1_Rle; lra). replace (1 - 0) with (/ 1) by lra. apply Rinv_le_contravar; lra.
Qed.
(* a library whose results are within the bounds *)
Lemma libm_example : libm_ok (fun _ _ => fz 0) (fun _ => fz 1) (fun _ => fz 0).
Proof.
  assert (Z0 : real_f64 (fz 0) /\ val (fz 0) = 0) by exact (of_int 0 ltac:(lia)). assert (Z1 : real_f64 (fz 1) /\ val (fz 1) = 1) by exact (of_int 1 ltac:(lia)).
  split; [intros; split; [apply Z0|]; change (SF2R radix2 (fz 0)) with (val (fz 0)); rewrite (proj2 Z0), Rabs_R0; lra|].
  intros t _. split; split; try apply Z0; try apply Z1; [change (SF2R radix2 (fz 1)) with (val (fz 1)); rewrite (proj2 Z1), Rabs_right; lra|change (SF2R radix2 (fz 0)) with (val (fz 0)); rewrite (proj2 Z0), Rabs_R0; lra].
Qed.
(* four of the points, and one with an unknown height, or an infinite one *)
Definition cloud4 : list (p3 spec_float) := firstn 4 cloud5.
Definition with_point (p : p3 spec_float) : list (p3 spec_float) := firstn 2 cloud4 ++ p :: skipn 2 cloud4.
Definition no_height : p3 spec_float := f_point (fz 1) (fz 1) S754_nan.
Definition sky : p3 spec_float := f_point (fz 1) (fz 1) (S754_infinity false).
Lemma cloud4_finite : Forall finite_point cloud4.
Proof.
  apply Forall_forall. intros p H. destruct (cloud5_within p) as (((X & _) & _) & ((Y & _) & _) & ((Z & _) & _)); [|repeat split; auto].
  unfold cloud4 in H. rewrite <- (firstn_skipn 4 cloud5). apply in_or_app. now left.
Qed.
Lemma with_only_finite p : ~ finite_point p -> only_finite (with_point p) cloud4.
Proof.
  intros N. pose proof cloud4_finite as F. unfold cloud4, with_point, cloud5 in *. cbn [firstn skipn app] in *.
  repeat match goal with H : Forall _ (_ :: _) |- _ => inversion H; subst; clear H end.
  apply of_keep; auto. apply of_keep; auto. apply of_drop; auto. repeat (apply of_keep; auto). apply of_nil.
Qed.
Lemma sky_normals atan2 cos sin : let e := f64_nops atan2 cos sin in
  (exists n c, normal_estimation e cloud4 = Ok (n, c) /\ finite_point n) /\ normal_estimation e (with_point sky) = Panic.
Proof. split; [|vm_compute; reflexivity]. eexists _, _. split; [vm_compute; reflexivity|]. vm_compute. auto. Qed.
