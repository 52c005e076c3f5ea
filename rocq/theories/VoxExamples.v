(* Small point clouds for the voxel grid filter: cases that meet the hypotheses of the theorems, and witnesses of the refuted claims. *)
From Coq Require Import String Ascii List ZArith Lia Bool Arith SpecFloat Permutation.
From Verif Require Import Base LayoutModel LayoutSpec LayoutProofs BufferModel BufferSpec ListLemmas BufferProofs
  TraitModel TraitSpec TraitProofs2 NumModel MathModel MathSpec SegModel SegSpec SegExamples VoxModel VoxSpec.
Import ListNotations.
Open Scope nat_scope.

Definition x_attrs : list attr_def := [POSITION_3D; CLASSIFICATION; GPS_TIME; POINT_ID; SCAN_DIRECTION_FLAG; INTENSITY].
Definition x_layout : layout := match from_attributes_packed x_attrs 1 with Ok l => l | _ => layout_default end.
Record x_point := mk_x { x_pos : p3 spec_float; x_cls : Z; x_gps : Z; x_id : Z; x_flag : Z; x_int : Z }.
Definition x_bytes (p : x_point) : list Z :=
  enc_num PF64 (NFlt (px (x_pos p))) ++ enc_num PF64 (NFlt (py (x_pos p))) ++ enc_num PF64 (NFlt (pz (x_pos p)))
  ++ [x_cls p] ++ enc_num PF64 (NFlt (fz (x_gps p))) ++ enc_num PU64 (NInt (x_id p)) ++ [x_flag p] ++ enc_num PU16 (NInt (x_int p)).
Definition x_vec (ps : list x_point) : mbuf := VecB (mk_vbuf (concat (map x_bytes ps)) x_layout (length ps)).
Definition x_pos_member : member := nth 0 (l_attrs x_layout) (mk_member INTENSITY 0 0).

Lemma x_good : good_layout x_layout.
Proof.
  apply (grown_good (map (fun a => (a, Packed 1)) x_attrs)).
  - vm_compute. reflexivity.
  - discriminate.
  - intros a fa H. cbn in H. repeat (destruct H as [H|H]; [injection H as <- <-; vm_compute; lia|]). contradiction.
Qed.
Lemma x_bytes_length p : length (x_bytes p) = l_size x_layout.
Proof. unfold x_bytes. rewrite !app_length. destruct p as [[a b c] d e f g h]. reflexivity. Qed.
Lemma x_wf ps : mb_wf (x_vec ps).
Proof.
  split; [exact x_good|]. cbn [vb_storage vb_len vb_layout]. induction ps as [|p ps IH]; [reflexivity|]. cbn [map concat]. rewrite app_length, IH, x_bytes_length. cbn [length]. lia.
Qed.
Lemma x_positions ps : has_positions (Of (x_vec ps)) x_pos_member.
Proof. split; [exact (x_wf ps)|]. split; [now left|reflexivity]. Qed.
Lemma x_target ps : target_ok (Of (x_vec ps)) (x_vec []).
Proof.
  split; [apply x_wf|]. split; [exact I|]. intros m H. split; [|exists m; auto]. change (mb_layout (x_vec [])) with x_layout in H.
  assert (D : In (m_def m) x_attrs) by (change x_attrs with (map m_def (l_attrs x_layout)); now apply in_map).
  unfold x_attrs in D. cbn [In] in D. assert (Q : forall a, existsb (attr_def_eqb a) pooled_attrs = true -> In a pooled_attrs).
  { intros a E. apply existsb_exists in E as (x & I & E). apply attr_def_eqb_eq in E. now subst. }
  repeat (destruct D as [D|D]; [rewrite <- D; apply Q; vm_compute; reflexivity|]). contradiction.
Qed.
Definition x_order : nat * nat * nat -> attr_def -> order_fn := fun _ _ m => m.
Lemma x_any_order : any_order x_order.
Proof. intros pos a m. apply Permutation_refl. Qed.

Definition at_x (x : spec_float) : p3 spec_float := mk_p3 x (fz 0) (fz 0).
Definition plain (x : spec_float) : x_point := mk_x (at_x x) 0 0 0 0 0.
(* a number that is not 0 stands for itself *)
Definition tiny : spec_float := S754_finite true (2 ^ 52)%positive (-132).

(* three points in two voxels of size 4 *)
Definition x_cloud : list x_point :=
  [mk_x (at_x (fz 0)) 2 5 7 1 10; mk_x (at_x (fz 1)) 2 (-3) 9 1 20; mk_x (at_x (fz 10)) 6 (-8) (2 ^ 53 + 1) 2 30].
(* too large for the leaf size 1 *)
Definition x_huge : list x_point := [plain (fz (2 ^ 53)); plain (fz (2 ^ 53 + 2))].
(* -2^-80 is closer to -1 than to 1 *)
Definition x_near : list x_point := [plain (fz (-3)); plain tiny; plain (fz 1)].

(* the numbers of an attribute of the only point in a buffer *)
Definition only (p : prim) (b : mbuf) (a : attr_def) : option num :=
  match member_of (mb_layout b) a, mb_points b with Some m, [r] => Some (dec_num p (attr_value m r)) | _, _ => None end.

(* a single point whose GPS time is -8, whose id is 2^53 + 1 and whose scan direction flag is 2 *)
Definition x_lonely : list x_point := [mk_x (at_x (fz 10)) 6 (-8) (2 ^ 53 + 1) 2 30].

Lemma cloud_finite : forall p, In p (points3 (Of (x_vec x_cloud)) x_pos_member) -> p3_all finite p.
Proof. intros p H. vm_compute in H. repeat (destruct H as [<-|H]; [vm_compute; auto|]). contradiction. Qed.
Lemma four_positive : positive_f64 (fz 4).
Proof. split; [|reflexivity]. split; [exact I|]. vm_compute. right. repeat split; try reflexivity; intro; discriminate. Qed.
