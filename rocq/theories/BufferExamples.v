(* Concrete buffers, used to show that the hypotheses of the property theorems can be met. *)
From Coq Require Import String List ZArith Lia Bool Arith Permutation Sorted.
From Verif Require Import Base LayoutModel LayoutSpec LayoutProofs BufferModel BufferSpec ListLemmas BufferProofs
  BufferSteps BufferSteps2 BufferSteps3 BufferSteps4 TraitModel TraitSpec TraitProofs TraitProofs2 TraitProofs3 BufferFacts.
Import ListNotations.

(* intensity at 0, gps time at 8, classification at 16; 24 bytes per point with padding bytes 2-7 and 17-23 *)
Definition ex_layout : layout :=
  match from_attributes [INTENSITY; GPS_TIME; CLASSIFICATION] with Ok l => l | _ => layout_default end.
Definition ex_bytes : list Z := map (fun k => Z.of_nat (k + 1)) (seq 0 120).
Definition ex_vec : vbuf := mk_vbuf ex_bytes ex_layout 5.
Definition ex_map : hbuf :=
  match hb_append_interleaved (hb_new ex_layout) ex_vec with Ok h => h | _ => hb_new ex_layout end.
Definition ex_ext : ebuf := mk_ebuf ex_bytes ex_layout 5.
Definition m_intensity : member := nth 0 (l_attrs ex_layout) (mk_member INTENSITY 0 0).
Definition m_gps : member := nth 1 (l_attrs ex_layout) (mk_member INTENSITY 0 0).

Lemma ex_layout_good : good_layout ex_layout.
Proof.
  apply (grown_good [(INTENSITY, Default); (GPS_TIME, Default); (CLASSIFICATION, Default)]).
  - vm_compute. reflexivity.
  - discriminate.
  - intros a fa [H|[H|[H|[]]]]; injection H as <- <-; vm_compute; lia.
Qed.
Lemma ex_vec_inv : vb_inv ex_vec.
Proof. split. exact ex_layout_good. vm_compute. reflexivity. Qed.
Lemma ex_map_inv : hb_inv ex_map.
Proof.
  destruct append_points as (_ & _ & _ & _ & A & _). specialize (A (hb_new ex_layout) ex_vec).
  assert (I : hb_inv (hb_new ex_layout)) by (eapply hb_rep_inv; [exact ex_layout_good|exact (hb_new_rep _ ex_layout_good)]).
  specialize (A I ex_vec_inv). unfold appended_h in A.
  replace (layout_eqb (hb_layout (hb_new ex_layout)) (any_layout (BV ex_vec))) with true in A by (vm_compute; reflexivity).
  destruct A as (h & E & J & _). unfold ex_map. rewrite E. exact J.
Qed.
Lemma ex_map_len : hb_len ex_map = 5 /\ hb_layout ex_map = ex_layout.
Proof. vm_compute. auto. Qed.
Lemma ex_intensity : In m_intensity (l_attrs ex_layout).
Proof. vm_compute. auto. Qed.
Lemma ex_gps : In m_gps (l_attrs ex_layout).
Proof. vm_compute. auto. Qed.
(* a mutable slice of a mutable slice of the interleaved buffer: points 2 and 3 *)
Definition ex_slice : mbuf := SliceMutB (SliceMutB (VecB ex_vec) 1 5) 1 3.
Lemma ex_slice_wf : mb_wf ex_slice.
Proof. simpl. split; [split; [exact ex_vec_inv|]|]; vm_compute; lia. Qed.
