(* Concrete buffers for the examples and counterexamples of PropViews. *)
From Coq Require Import String List ZArith Lia Bool Arith SpecFloat.
From Verif Require Import Base LayoutModel LayoutSpec LayoutProofs BufferModel BufferSpec ListLemmas BufferProofs BufferSteps BufferFacts TraitModel TraitSpec
  NumModel ConvModel ConvSpec MathModel MathSpec BufferExamples MathExamples ViewsModel ViewsSpec ReprojModel.
Import ListNotations.
Open Scope nat_scope.

(* the same attributes in another order: the gps time comes first *)
Definition other_layout : layout := match from_attributes [GPS_TIME; INTENSITY; CLASSIFICATION] with Ok l => l | _ => layout_default end.
Definition other_gps : member := nth 0 (l_attrs other_layout) (mk_member INTENSITY 0 0).
Lemma foreign_member : In m_gps (l_attrs ex_layout) /\ In other_gps (l_attrs other_layout) /\ m_def other_gps = m_def m_gps
  /\ (exists v, view_raw_attribute (Of (MapB ex_map)) other_gps = Ok v /\ raw_index v 0 = Ok [9; 10; 11; 12; 13; 14; 15; 16]%Z)
  /\ (exists v, view_raw_attribute (Of (VecB ex_vec)) other_gps = Ok v /\ raw_index v 0 = Ok [1; 2; 3; 4; 5; 6; 7; 8]%Z).
Proof.
  split; [exact ex_gps|]. split; [vm_compute; auto|]. split; [reflexivity|].
  split; eexists; (split; [vm_compute; reflexivity|vm_compute; reflexivity]).
Qed.

(* an attribute without bytes *)
Definition empty_attr : attr_def := mk_def "Empty" (ByteArray 0).
Definition empty_layout : layout := match from_attributes [INTENSITY; empty_attr] with Ok l => l | _ => layout_default end.
Definition empty_member : member := nth 1 (l_attrs empty_layout) (mk_member INTENSITY 0 0).
Lemma empty_len :
  exists b v, hb_push_points (hb_new empty_layout) [1; 2; 3; 4]%Z = Ok b /\ hb_len b = 2 /\ In empty_member (l_attrs (hb_layout b))
    /\ view_raw_attribute (Of (MapB b)) empty_member = Ok v /\ raw_len v = Panic.
Proof.
  eexists. eexists. split; [vm_compute; reflexivity|]. split; [reflexivity|]. split; [vm_compute; auto|]. split; vm_compute; reflexivity.
Qed.

(* positions 1, 1, 1 stored as f32 and as f64 *)
Definition f32_one : list Z := [0; 0; 128; 63]%Z.
Definition b32 : vbuf := mk_vbuf (f32_one ++ f32_one ++ f32_one ++ [7; 0; 0; 0]%Z) (pos_layout Vec3f32) 1.
Definition b64 : vbuf := mk_vbuf (pos_point (pt f_1)) (pos_layout Vec3f64) 1.
Lemma b32_inv : vb_inv b32.
Proof.
  split; [apply pos_layout_good; [discriminate|intros E; apply (f_equal l_size) in E; vm_compute in E; discriminate]|vm_compute; reflexivity].
Qed.
Lemma b64_inv : vb_inv b64.
Proof.
  split; [apply pos_layout_good; [discriminate|intros E; apply (f_equal l_size) in E; vm_compute in E; discriminate]|vm_compute; reflexivity].
Qed.
Lemma converted_differ : exists b1 b2 a t vs, bf_wf b1 /\ bf_wf b2 /\ bf_len b1 = bf_len b2 /\ 0 < bf_len b1
  /\ map (converting_view_at b1 a t) (seq 0 (bf_len b1)) = map Ok vs
  /\ map (converting_view_at b2 a t) (seq 0 (bf_len b2)) = map Ok vs
  /\ converting_view_eq bytes_eqb b1 b2 a a t = Ok false.
Proof.
  exists (Of (VecB b32)), (Of (VecB b64)), POSITION_3D, Vec3f64, [f64_bytes f_1 ++ f64_bytes f_1 ++ f64_bytes f_1].
  split; [exact b32_inv|]. split; [exact b64_inv|]. repeat split; vm_compute; auto.
Qed.

(* a shear: the image of the cube from (0,0,0) to (1,1,1) is not in the box of the images of these two corners *)
Definition shear (p : p3 spec_float) : p3 spec_float := mk_p3 (f64_sub (px p) (py p)) (py p) (pz p).
Definition f_0 : spec_float := S754_zero false.
Lemma shear_leaves : exists (proj : p3 spec_float -> p3 spec_float) b p,
  proper f64_cmp MathSpec.finite b /\ p3_all MathSpec.finite p /\ inside f64_cmp b p
  /\ p3_all MathSpec.finite (proj p) /\ p3_all MathSpec.finite (proj (b_min b)) /\ p3_all MathSpec.finite (proj (b_max b))
  /\ ~ inside f64_cmp (transform_bounds f64_cmp proj b) (proj p).
Proof.
  exists shear, (mk_aabb (pt f_0) (pt f_1)), (mk_p3 f_1 f_0 f_0).
  split; [unfold proper, p3_all; vm_compute; repeat split|]. split; [unfold p3_all; vm_compute; repeat split|].
  split; [unfold inside; vm_compute; repeat split|]. split; [unfold p3_all; vm_compute; repeat split|].
  split; [unfold p3_all; vm_compute; repeat split|]. split; [unfold p3_all; vm_compute; repeat split|].
  unfold inside. vm_compute. intros ((_ & H) & _). discriminate.
Qed.
