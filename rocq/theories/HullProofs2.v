(* The convex hull of the points of a buffer. *)
From Coq Require Import String Ascii List ZArith Lia Bool Arith SpecFloat Permutation.
From Verif Require Import Base LayoutModel LayoutSpec LayoutProofs BufferModel BufferSpec ListLemmas BufferProofs TraitModel TraitSpec TraitProofs TraitProofs2 TraitProofs3
  NumModel ConvModel ConvSpec ConvProofs ConvProofs5 BufferFacts MathModel MathSpec MathProofs MathProofs2 PntsProofs2 PntsProofs5 SegModel SegSpec SegProofs HullModel HullSpec HullProofs VoxProofs2.
Import ListNotations.
Open Scope nat_scope.

Lemma view_f64 b m : has_positions b m -> view_values b (attribute_view_at b POSITION_3D Vec3f64) = Ok (map (attr_value m) (bf_points b)).
Proof.
  intros (W & Hm & D). destruct (bf_points_uniform b W) as (_ & LEN). assert (T : m_type m = Vec3f64) by (unfold m_type; now rewrite D).
  unfold view_values. rewrite <- LEN. apply nth_error_seq_map. intros i r Hr. rewrite <- D, <- T.
  assert (L : i < bf_len b) by (rewrite <- LEN; apply nth_error_Some; congruence).
  rewrite (proj2 (view_at b m i W Hm L)). now rewrite (nth_nth_error _ _ _ _ Hr).
Qed.
Lemma create_f64 order b m : has_positions b m -> create_convex_hull order b = iterate f64_hops (position_at b) order 0 (points3 b m) [].
Proof.
  intros H. pose proof H as (W & Hm & D). pose proof (proj2 (proj2 (proj2 (bf_wf_root b W)))) as G. unfold create_convex_hull.
  assert (HN : m_name m = ad_name POSITION_3D) by (unfold m_name; now rewrite D).
  rewrite (proj2 (get_by_name_spec (bf_layout b) (ad_name POSITION_3D) m (proj1 (proj2 G))) (conj Hm HN)). cbn [unwrap].
  assert (T : m_type m = Vec3f64) by (unfold m_type; now rewrite D).
  change (bind (Ok m) ?f) with (f m). cbv beta. rewrite T. change (datatype_eqb Vec3f64 (ad_type POSITION_3D)) with true. cbv iota.
  rewrite (positions_view b m H). cbn [bind]. rewrite (view_f64 b m H). cbn [bind]. unfold points3. now rewrite map_map.
Qed.
Lemma positions_known b m : has_positions b m -> known _ (position_at b) (bf_len b).
Proof.
  intros H i L. rewrite <- (points3_length b m H) in L. destruct (nth_error (points3 b m) i) as [p|] eqn:E; [|apply nth_error_None in E; lia].
  exists p. eapply position_at_ok; eauto.
Qed.
Lemma create_ok order b m : has_positions b m -> any_edge_order order -> exists ts, create_convex_hull order b = Ok ts /\ Forall (tri_below _ (bf_len b)) ts.
Proof.
  intros H RO. rewrite (create_f64 order b m H). destruct (iterate_ok _ f64_hops (position_at b) order (points3 b m) RO 0 []) as (ts & E & F); auto.
  - rewrite (points3_length b m H). apply (positions_known b m H).
  - exists ts. split; auto. destruct F as [(F & ->)|F]; auto. rewrite (points3_length b m H) in F. auto.
Qed.

Lemma mesh_ok order b m : has_positions b m -> any_edge_order order ->
  convex_hull_as_triangle_mesh order b = Err
  \/ exists ts, convex_hull_as_triangle_mesh order b = Ok ts /\ 2 <= length ts /\ forall i j k, In (i, j, k) ts -> i < bf_len b /\ j < bf_len b /\ k < bf_len b.
Proof.
  intros H RO. destruct (create_ok order b m H RO) as (ts & E & F). unfold convex_hull_as_triangle_mesh. rewrite E. cbn [bind].
  destruct (Nat.ltb_spec (length ts) 2) as [L|L]; [now left|]. right. eexists. split; [reflexivity|]. rewrite map_length. split; auto.
  intros i j k I. apply in_map_iff in I as (t & X & I). injection X as <- <- <-. rewrite Forall_forall in F. now apply F.
Qed.
Lemma collect_ok collect s : any_collect collect -> NoDup (collect (nodup Nat.eq_dec s)) /\ forall v, In v (collect (nodup Nat.eq_dec s)) <-> In v s.
Proof.
  intros C. split.
  - apply (Permutation_NoDup (Permutation_sym (C _))). apply NoDup_nodup.
  - intros v. split; intros I; [apply (nodup_In Nat.eq_dec), (Permutation_in _ (C _) I)|apply (Permutation_in _ (Permutation_sym (C _))), nodup_In, I].
Qed.
Lemma points_ok order collect b m : has_positions b m -> any_edge_order order -> any_collect collect ->
  convex_hull_as_points order collect b = Panic
  \/ exists l, convex_hull_as_points order collect b = Ok l /\ l <> [] /\ NoDup l /\ forall v, In v l -> v < bf_len b.
Proof.
  intros H RO RC. destruct (create_ok order b m H RO) as (ts & E & F). rewrite Forall_forall in F. unfold convex_hull_as_points. rewrite E. cbn [bind].
  assert (NE : forall s x, In x s -> collect (nodup Nat.eq_dec s) <> []).
  { intros s x I X. apply (proj2 (collect_ok collect s RC)) in I. rewrite X in I. contradiction. }
  destruct (Nat.ltb_spec 1 (length ts)) as [L|L].
  - right. eexists. split; [reflexivity|]. destruct (collect_ok collect (flat_map (fun t => [t_a t; t_b t; t_c t]) ts) RC) as (N & I). split; [|split; auto].
    + destruct ts as [|t ts]; [simpl in L; lia|]. apply (NE _ (t_a t)). now left.
    + intros v J. apply I in J. apply in_flat_map in J as (t & J & K). destruct (F _ J) as (A & B & C). cbn in K. intuition lia.
  - destruct ts as [|t [|]]; [now left| |cbn in L; lia]. right. cbn [vec_at nth_error unwrap bind]. eexists. split; [reflexivity|].
    destruct (collect_ok collect (t_a t :: t_b t :: (if Nat.eqb (t_c t) 0 then [] else [t_c t])) RC) as (N & I). split; [|split; auto].
    + apply (NE _ (t_a t)). now left.
    + intros v J. apply I in J. destruct (F t (or_introl eq_refl)) as (A & B & C). destruct (Nat.eqb (t_c t) 0); cbn in J; intuition lia.
Qed.
Lemma points_of_mesh order collect b m ts : has_positions b m -> any_edge_order order -> any_collect collect ->
  convex_hull_as_triangle_mesh order b = Ok ts ->
  exists l, convex_hull_as_points order collect b = Ok l /\ NoDup l /\ forall v, In v l <-> corner ts v.
Proof.
  intros H RO RC. destruct (create_ok order b m H RO) as (us & E & F). unfold convex_hull_as_triangle_mesh, convex_hull_as_points. rewrite E. cbn [bind].
  destruct (Nat.ltb_spec (length us) 2) as [L|L]; [discriminate|]. intros X. apply Ok_inj in X. subst ts.
  rewrite (proj2 (Nat.ltb_lt 1 (length us))) by lia. eexists. split; [reflexivity|].
  destruct (collect_ok collect (flat_map (fun t => [t_a t; t_b t; t_c t]) us) RC) as (N & I). split; auto.
  intros v. rewrite I, in_flat_map. unfold corner. split.
  - intros (t & J & K). exists (t_a t), (t_b t), (t_c t). split; [apply in_map_iff; eauto|]. cbn in K. intuition.
  - intros (i & j & k & J & K). apply in_map_iff in J as (t & Y & J). injection Y as <- <- <-. exists t. split; auto. cbn. intuition.
Qed.

Lemma empty_mesh order b m : has_positions b m -> bf_len b = 0 -> convex_hull_as_triangle_mesh order b = Err.
Proof.
  intros H L. unfold convex_hull_as_triangle_mesh. rewrite (create_f64 order b m H). rewrite <- (points3_length b m H) in L. destruct (points3 b m); [|discriminate]. reflexivity.
Qed.
Lemma empty_points order collect b m : has_positions b m -> bf_len b = 0 -> convex_hull_as_points order collect b = Panic.
Proof.
  intros H L. unfold convex_hull_as_points. rewrite (create_f64 order b m H). rewrite <- (points3_length b m H) in L. destruct (points3 b m); [|discriminate]. reflexivity.
Qed.
Lemma few_points order collect b m : has_positions b m -> any_collect collect -> bf_len b = 1 \/ bf_len b = 2 ->
  exists l, convex_hull_as_points order collect b = Ok l /\ Permutation l (seq 0 (bf_len b)).
Proof.
  intros H RC L. unfold convex_hull_as_points. rewrite (create_f64 order b m H). pose proof (points3_length b m H) as LP. destruct L as [L|L]; rewrite L in LP |- *.
  - destruct (points3 b m) as [|p [|]]; try discriminate. cbn. eexists. split; [reflexivity|]. apply RC.
  - destruct (points3 b m) as [|p [|q [|]]]; try discriminate. cbn. eexists. split; [reflexivity|]. apply RC.
Qed.

Lemma get_type l a m : good_layout l -> In m (l_attrs l) -> m_name m = ad_name a -> m_type m <> ad_type a -> get_attribute l a = None.
Proof.
  intros G Hm HN HT. destruct (get_attribute l a) as [m'|] eqn:E; auto. exfalso. change (get_attribute l a) with (member_of l a) in E.
  unfold member_of in E. apply find_some in E as (I & E). apply attr_def_eqb_eq in E.
  assert (m = m'). { apply (good_name_inj l m m' G Hm I). rewrite HN. unfold m_name. now rewrite E. }
  subst m'. apply HT. unfold m_type. now rewrite E.
Qed.
Lemma other_create order b m : bf_wf b -> In m (l_attrs (bf_layout b)) -> m_name m = ad_name POSITION_3D -> m_type m <> Vec3f64 -> 3 <= bf_len b ->
  create_convex_hull order b = Panic.
Proof.
  intros W Hm HN HT L. pose proof (proj2 (proj2 (proj2 (bf_wf_root b W)))) as G. destruct (bf_points_uniform b W) as (_ & LEN). unfold create_convex_hull.
  rewrite (proj2 (get_by_name_spec (bf_layout b) (ad_name POSITION_3D) m (proj1 (proj2 G))) (conj Hm HN)). cbn [unwrap].
  change (bind (Ok m) ?f) with (f m). cbv beta. change (ad_type POSITION_3D) with Vec3f64.
  destruct (datatype_eqb (m_type m) Vec3f64) eqn:E; [apply datatype_eqb_eq in E; contradiction|].
  assert (PA : forall i, position_at b i = Panic).
  { intros i. unfold position_at, attribute_view_at, attribute_view. change (datatype_eqb Vec3f64 (ad_type POSITION_3D)) with true. cbn [assert bind].
    rewrite (get_type _ POSITION_3D m G Hm HN HT). reflexivity. }
  destruct (vector_type (m_type m)) as [vt|] eqn:VT.
  - assert (CV : convertible (m_type m) Vec3f64) by (right; right; split; [congruence|discriminate]).
    assert (V : exists vs, view_values b (converting_view_at b POSITION_3D Vec3f64) = Ok vs /\ length vs = bf_len b).
    { exists (map (fun r => match value_as (m_type m) Vec3f64 (attr_value m r) with Some v => v | None => [] end) (bf_points b)).
      split; [|now rewrite map_length].
      unfold view_values. rewrite <- LEN. apply nth_error_seq_map. intros i r Hr.
      destruct (converting_view_ok b m POSITION_3D Vec3f64 i r W Hm HN eq_refl CV Hr) as (v & E1 & E2). now rewrite E1, E2. }
    destruct V as (vs & -> & LV). destruct (converting_view (bf_layout b) POSITION_3D Vec3f64); cbn [bind]; auto.
    destruct vs as [|v1 [|v2 [|v3 vs]]]; cbn in LV; try lia. cbn [map iterate]. unfold iteration at 1. cbn [Nat.eqb app bind]. unfold iteration at 1. cbn [Nat.eqb grow_line bind].
    unfold iteration at 1. cbn [Nat.eqb grow_line]. unfold grow_line. cbn [Nat.eqb]. rewrite PA. reflexivity.
  - assert (CV : ~ convertible (m_type m) Vec3f64) by (intros [X|[(_ & X)|(X & _)]]; [contradiction|now apply X|contradiction]).
    unfold converting_view. rewrite (proj2 (get_by_name_spec (bf_layout b) (ad_name POSITION_3D) m (proj1 (proj2 G))) (conj Hm HN)).
    change (ad_type POSITION_3D) with Vec3f64. change (datatype_eqb Vec3f64 Vec3f64) with true. cbn [assert bind unwrap]. rewrite E.
    rewrite (converter_panics (m_def m) (with_custom_datatype POSITION_3D Vec3f64)); [reflexivity|]. right.
    split; [intros Q'; change (m_type m = Vec3f64) in Q'; contradiction|]. intros S. apply CV. now right.
Qed.
Lemma other_panics order collect b m : bf_wf b -> In m (l_attrs (bf_layout b)) -> m_name m = ad_name POSITION_3D -> m_type m <> Vec3f64 -> 3 <= bf_len b ->
  convex_hull_as_triangle_mesh order b = Panic /\ convex_hull_as_points order collect b = Panic.
Proof. intros. unfold convex_hull_as_triangle_mesh, convex_hull_as_points. rewrite (other_create order b m); auto. Qed.
