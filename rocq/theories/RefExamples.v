(* Concrete buffers and addresses for the examples and counterexamples of PropRef. *)
From Coq Require Import String List ZArith Lia Bool Arith.
From Verif Require Import Base LayoutModel LayoutSpec BufferModel BufferSpec BufferProofs TraitModel TraitSpec BufferFacts BufferExamples RefModel RefSpec RefProofs.
Import ListNotations.
Open Scope nat_scope.

(* the points of ex_layout are 24 bytes with alignment 8 *)
Definition good_place : place := mk_place 64 (fun _ => 128).
Definition odd_place : place := mk_place 65 (fun _ => 129).

Lemma div8 n : n mod 8 = 0 -> Nat.divide 8 n.
Proof. intros H. apply Nat.mod_divide; [lia|exact H]. Qed.
Lemma ex_type : type_of_size (l_size (bf_layout (Of (VecB ex_vec)))) 8 /\ type_of_size (m_size m_gps) 8.
Proof. split; (split; [lia|apply div8; vm_compute; reflexivity]). Qed.
Lemma good_aligned : aligned (pl_points good_place) 8 /\ aligned (pl_column good_place (m_def m_gps)) 8.
Proof.
  split; apply div8; reflexivity.
Qed.

Lemma ext_wf : mb_wf (ExtB ex_ext).
Proof. split; [exact ex_layout_good|vm_compute; reflexivity]. Qed.
Lemma odd_65 : ~ aligned 65 8.
Proof. intros (k & K). lia. Qed.
Lemma external_panics : exists (pl : place) (b : ebuf) (al : nat), mb_wf (ExtB b) /\ 0 < eb_len b /\ type_of_size (l_size (eb_layout b)) al
    /\ (forall i, i < eb_len b -> point_view_at (Of (ExtB b)) (eb_layout b) i = Ok (nth i (mb_points (ExtB b)) []))
    /\ (forall i, point_view_at_ref pl (Of (ExtB b)) (eb_layout b) al i = Panic)
    /\ point_view_iter pl (Of (ExtB b)) (eb_layout b) al = Panic.
Proof.
  exists odd_place, ex_ext, 8. split; [exact ext_wf|]. split; [vm_compute; lia|]. split; [exact (proj1 ex_type)|].
  split; [exact (proj1 (point_view_facts (Of (ExtB ex_ext)) ext_wf))|]. split.
  - intros i. exact (proj2 (at_ref_typed odd_place (Of (ExtB ex_ext)) (eb_layout ex_ext) 8 i eq_refl (proj1 ex_type)) odd_65).
  - exact (proj2 (iter_typed odd_place (Of (ExtB ex_ext)) 8 ext_wf eq_refl (proj1 ex_type)) odd_65).
Qed.
