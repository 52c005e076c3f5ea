(* Concrete boxes and buffers for the examples of PropMath. *)
From Coq Require Import String List ZArith QArith Lia Bool Arith SpecFloat.
From Verif Require Import Base LayoutModel LayoutSpec LayoutProofs BufferModel BufferSpec BufferProofs BufferFacts TraitModel TraitSpec NumModel ConvModel ConvSpec MathModel MathSpec.
Import ListNotations.
Open Scope Z_scope.

(* the floats -2, 1, 2, 3 *)
Definition f_m2 : spec_float := S754_finite true 4503599627370496 (-51).
Definition f_1 : spec_float := S754_finite false 4503599627370496 (-52).
Definition f_2 : spec_float := S754_finite false 4503599627370496 (-51).
Definition f_3 : spec_float := S754_finite false 6755399441055744 (-51).
Definition pt (x : spec_float) : p3 spec_float := mk_p3 x x x.

(* a buffer of positions *)
Definition pos_layout (t : datatype) : layout :=
  match from_attributes [with_custom_datatype POSITION_3D t; INTENSITY] with Ok l => l | _ => layout_default end.
Definition pos_member (t : datatype) : member := nth 0 (l_attrs (pos_layout t)) (mk_member INTENSITY 0 0).
Definition f64_bytes (f : spec_float) : list Z := enc_num PF64 (NFlt f).
Definition pos_point (p : p3 spec_float) : list Z := f64_bytes (px p) ++ f64_bytes (py p) ++ f64_bytes (pz p) ++ repeat 0 8.
Definition pos_buffer (ps : list (p3 spec_float)) : buffer := Of (VecB (mk_vbuf (concat (map pos_point ps)) (pos_layout Vec3f64) (length ps))).

Lemma pos_layout_good t : dt_size t <> 0%nat -> pos_layout t <> layout_default -> good_layout (pos_layout t).
Proof.
  intros NZ NE. unfold pos_layout in *. destruct (from_attributes [with_custom_datatype POSITION_3D t; INTENSITY]) as [l| |] eqn:E; try contradiction.
  rewrite from_attributes_history in E. apply (grown_good [(with_custom_datatype POSITION_3D t, Default); (INTENSITY, Default)]); auto; [discriminate|].
  intros a fa [H|[H|[]]]; injection H as <- <-; [|vm_compute; lia]. simpl. lia.
Qed.
Lemma pos_buffer_wf ps : Forall (fun p => length (pos_point p) = 32%nat) ps -> bf_wf (pos_buffer ps).
Proof.
  intros H. split; [apply pos_layout_good; [discriminate|intros E; apply (f_equal l_size) in E; vm_compute in E; discriminate]|].
  cbn [vb_storage vb_layout vb_len]. change (l_size (pos_layout Vec3f64)) with 32%nat. induction H as [|p ps Hp _ IH]; [reflexivity|]. cbn [map concat length]. rewrite app_length, IH, Hp. lia.
Qed.
