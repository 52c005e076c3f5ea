(* A small point cloud, used to show that the hypotheses of the theorems about the segmentation can be met. *)
From Coq Require Import String Ascii List ZArith Lia Bool Arith SpecFloat.
From Verif Require Import Base LayoutModel LayoutSpec LayoutProofs BufferModel BufferSpec ListLemmas BufferProofs BufferSteps BufferSteps2 BufferSteps3
  TraitModel TraitSpec TraitProofs2 NumModel MathModel SegModel SegSpec.
Import ListNotations.
Open Scope nat_scope.

(* the f64 for an integer *)
Definition fz (z : Z) : spec_float := binary_normalize 53 1024 z 0 false.
Definition vec_bytes (x y z : Z) : list Z := enc_num PF64 (NFlt (fz x)) ++ enc_num PF64 (NFlt (fz y)) ++ enc_num PF64 (NFlt (fz z)).
Definition g_layout : layout := match from_attributes [POSITION_3D] with Ok l => l | _ => layout_default end.
(* four points of the plane z = 0, one above it *)
Definition g_bytes : list Z := vec_bytes 0 0 0 ++ vec_bytes 1 0 0 ++ vec_bytes 0 1 0 ++ vec_bytes 1 1 0 ++ vec_bytes 0 0 5.
Definition g_buf : buffer := Of (VecB (mk_vbuf g_bytes g_layout 5)).
Definition g_pos : member := nth 0 (l_attrs g_layout) (mk_member INTENSITY 0 0).
Definition g_half : spec_float := S754_finite false (2 ^ 52)%positive (-53).

Lemma g_layout_good : good_layout g_layout.
Proof.
  apply (grown_good [(POSITION_3D, Default)]).
  - vm_compute. reflexivity.
  - discriminate.
  - intros a fa [H|[]]; injection H as <- <-; vm_compute; lia.
Qed.
Lemma g_positions : has_positions g_buf g_pos.
Proof.
  split; [|split; [vm_compute; auto|vm_compute; reflexivity]].
  split; [exact g_layout_good|vm_compute; reflexivity].
Qed.
