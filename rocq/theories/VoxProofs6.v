(* The statements about the filter, one for each property. *)
From Coq Require Import String List ZArith Lia Bool Arith SpecFloat Permutation.
From Verif Require Import Base LayoutModel LayoutProofs BufferModel BufferSpec BufferProofs TraitModel TraitSpec TraitProofs2 NumModel MathModel MathSpec MathProofs MathProofs2 PntsProofs5 SegModel SegSpec SegExamples
  VoxModel VoxSpec VoxProofs4 VoxProofs5 VoxExamples.
Import ListNotations.
Open Scope nat_scope.

Lemma filter_filtered fuel order b m lx ly lz out r :
  has_positions b m -> bf_len b <> 0 -> (forall p, In p (points3 b m) -> p3_all finite p) ->
  positive_f64 lx -> positive_f64 ly -> positive_f64 lz -> target_ok b out -> any_order order ->
  voxelgrid_filter fuel order b lx ly lz out = Some r ->
  exists out' vs new, r = Ok out' /\ filtered b m lx ly lz out out' vs new.
Proof. intros A B C D E F G H I. destruct (filter_result fuel order b m lx ly lz out r A B C D E F G H I) as (o & vs & new & X & Y & _). exists o, vs, new. auto. Qed.

Lemma values_weaken (P Q : buffer -> voxel -> member -> list Z -> Prop) b out vs new : (forall v m r, P b v m r -> Q b v m r) -> new_values P b out vs new -> new_values Q b out vs new.
Proof. intros H F. unfold new_values in *. induction F; constructor; auto. Qed.
Lemma filter_values (Q : buffer -> voxel -> member -> list Z -> Prop) (Weaker : forall b v m r, pooled_all b v m r -> Q b v m r) fuel order b m lx ly lz out out' :
  has_positions b m -> bf_len b <> 0 -> (forall p, In p (points3 b m) -> p3_all finite p) ->
  positive_f64 lx -> positive_f64 ly -> positive_f64 lz -> target_ok b out -> any_order order ->
  voxelgrid_filter fuel order b lx ly lz out = Some (Ok out') ->
  exists vs new, filtered b m lx ly lz out out' vs new /\ new_values Q b out vs new.
Proof.
  intros A B C D E F G H I. destruct (filter_result fuel order b m lx ly lz out _ A B C D E F G H I) as (o & vs & new & X & Y & Z).
  assert (o = out') by (apply Ok_inj; congruence). subst o. exists vs, new. split; auto. apply (values_weaken pooled_all); auto.
Qed.
Definition filter_common := filter_values pooled_common (fun b v m r H => proj1 H).
Definition filter_flag := filter_values pooled_flag (fun b v m r H => proj1 (proj2 H)).
Definition filter_max_int := filter_values pooled_max_int (fun b v m r H => proj1 (proj2 (proj2 H))).
Definition filter_max_float := filter_values pooled_max_float (fun b v m r H => proj1 (proj2 (proj2 (proj2 H)))).
Definition filter_mean := filter_values pooled_mean (fun b v m r H => proj2 (proj2 (proj2 (proj2 H)))).

Lemma empty_panics fuel order b lx ly lz out : bf_wf b ->
  bf_len b = 0 \/ (forall m, In m (l_attrs (bf_layout b)) -> m_def m <> POSITION_3D) -> voxelgrid_filter fuel order b lx ly lz out = Some Panic.
Proof.
  intros W H. unfold voxelgrid_filter. destruct (has_attribute (bf_layout b) POSITION_3D) eqn:HA; [|reflexivity]. cbn [negb].
  destruct H as [H|H].
  - rewrite (calculate_bounds_none b W (or_introl H)). reflexivity.
  - unfold has_attribute in HA. apply existsb_exists in HA as (m & I & E). apply attr_def_eqb_eq in E. now elim (H m I).
Qed.

Lemma stuck leaf c hi : SFltb c hi = true -> f64_add c leaf = c -> forall fuel, axis_markers fuel c hi leaf = None.
Proof. intros L E. induction fuel as [|fuel IH]; cbn [axis_markers]; rewrite L; [reflexivity|]. now rewrite E, IH. Qed.
Lemma huge_runs_on fuel order : voxelgrid_filter fuel order (Of (x_vec x_huge)) (fz 1) (fz 1) (fz 1) (x_vec []) = None.
Proof.
  unfold voxelgrid_filter. change (has_attribute (bf_layout (Of (x_vec x_huge))) POSITION_3D) with true. cbn [negb].
  assert (E : calculate_bounds (Of (x_vec x_huge)) = Ok (Some (mk_aabb (at_x (fz (2 ^ 53))) (at_x (fz (2 ^ 53 + 2)))))) by (vm_compute; reflexivity).
  rewrite E. cbn [bind unwrap]. unfold create_markers. cbn [b_min b_max px at_x]. rewrite stuck; [reflexivity|vm_compute; reflexivity|vm_compute; reflexivity].
Qed.
