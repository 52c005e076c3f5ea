(* A box for the theorems of PropCubic.v: from (0, -1, 0) to (4, 2, 1). *)
From Coq Require Import List ZArith Reals Lia Lra SpecFloat.
From Flocq Require Import Core.
From Verif Require Import MathModel MathSpec LasGridSpec TilesBoxSpec VoxSpec FloatReal F64Real CubicSpec CubicProofs.
Import ListNotations.
Open Scope R_scope.

Definition int64 (z : Z) : spec_float := SpecFloat.binary_normalize 53 1024 z 0 false.
Definition whole_box : aabb spec_float := mk_aabb (mk_p3 (int64 0) (int64 (-1)) (int64 0)) (mk_p3 (int64 4) (int64 2) (int64 1)).
Lemma int64_whole z : (Z.abs z <= 2 ^ 50)%Z -> whole (int64 z) /\ number (int64 z) = IZR z.
Proof.
  intros H. assert (H53 : (Z.abs z <= 2 ^ 53)%Z) by (eapply Z.le_trans; [exact H|]; vm_compute; discriminate).
  destruct (of_int z H53) as (R & V). split; [|exact V]. split; [exact R|]. exists z. split; [exact V|exact H].
Qed.
Lemma whole_box_ok : whole_point (b_min whole_box) /\ whole_point (b_max whole_box) /\ upright (real_box whole_box)
  /\ moderate_point (b_min whole_box) /\ moderate_point (b_max whole_box).
Proof.
  assert (S : forall z, (Z.abs z <= 4)%Z -> (Z.abs z <= 2 ^ 50)%Z) by (intros z H; eapply Z.le_trans; [exact H|]; vm_compute; discriminate).
  assert (W : forall z, (Z.abs z <= 4)%Z -> whole (int64 z)) by (intros z H; apply int64_whole, S, H).
  assert (N : forall z, (Z.abs z <= 4)%Z -> number (int64 z) = IZR z) by (intros z H; apply int64_whole, S, H).
  assert (A : whole_point (b_min whole_box)) by (repeat split; apply W; lia). assert (B : whole_point (b_max whole_box)) by (repeat split; apply W; lia).
  split; [exact A|]. split; [exact B|]. split.
  - unfold upright, real_box, real_point, whole_box. cbn [b_min b_max px py pz]. rewrite !N by lia. lra.
  - destruct A as (A1 & A2 & A3), B as (B1 & B2 & B3). split; split; try split; apply whole_moderate; assumption.
Qed.
