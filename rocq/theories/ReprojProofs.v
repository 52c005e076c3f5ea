(* Proofs about reprojection. *)
From Coq Require Import String List ZArith Lia Bool Arith.
From Verif Require Import Base LayoutModel LayoutSpec LayoutProofs BufferModel BufferSpec ListLemmas BufferProofs BufferSteps BufferSteps2 TraitModel TraitSpec
  TraitProofs2 TraitProofs3 BufferFacts NumModel ConvModel ConvSpec ConvProofs MathModel MathSpec MathProofs ConvProofs5 ViewsModel ViewsSpec ViewsProofs ReprojModel.
Import ListNotations.
Open Scope nat_scope.

Lemma attribute_view_member l m : good_layout l -> In m (l_attrs l) -> attribute_view l (m_def m) (m_type m) = Ok m.
Proof.
  intros G Hm. unfold attribute_view. assert (DE : datatype_eqb (m_type m) (ad_type (m_def m)) = true) by now apply datatype_eqb_eq.
  rewrite DE. cbn [assert bind]. change (get_attribute l (m_def m)) with (member_of l (m_def m)).
  rewrite (member_of_In _ _ G Hm). reflexivity.
Qed.
Lemma attribute_view_none l a : good_layout l -> (forall m, In m (l_attrs l) -> m_def m <> a) -> attribute_view l a (ad_type a) = Panic.
Proof.
  intros G H. unfold attribute_view. rewrite datatype_eqb_refl. cbn [assert bind].
  change (get_attribute l a) with (member_of l a). destruct (member_of l a) as [m|] eqn:E; [|reflexivity].
  apply member_of_spec in E; auto. destruct E as [E1 E2]. destruct (H m E1 E2).
Qed.

Lemma within_ok b m proj : mb_wf b -> In m (l_attrs (mb_layout b)) -> m_def m = POSITION_3D ->
  (forall v, length v = 24 -> length (proj v) = 24) ->
  exists b', reproject_within b proj = Ok b' /\ mb_wf b' /\ mb_layout b' = mb_layout b /\ mb_len b' = mb_len b
    /\ mb_points b' = map (fun r => with_attr m (proj (attr_value m r)) r) (mb_points b)
    /\ mb_len (mb_root b') = mb_len (mb_root b)
    /\ (forall q, q < mb_off b \/ mb_off b + mb_len b <= q ->
          nth_error (mb_points (mb_root b')) q = nth_error (mb_points (mb_root b)) q).
Proof.
  intros W Hm HD HP. pose proof (wf_good b W) as G. destruct (good_member _ _ G Hm) as (Z0 & ZS & ZE).
  assert (S24 : m_size m = 24) by (rewrite ZS, HD; reflexivity).
  destruct (transform_points b m (fun _ v => proj v) W Hm) as (b' & E & W' & L' & N' & P' & R' & OUT).
  { intros i v Hv. rewrite S24 in *. auto. }
  exists b'. split.
  - unfold reproject_within. unfold transform_attribute in E. rewrite HD in E.
    assert (HT : m_type m = Vec3f64) by (unfold m_type; rewrite HD; reflexivity). rewrite HT in E. exact E.
  - repeat split; auto. rewrite P'. apply nth_error_ext. intros k. rewrite nth_error_mapi, nth_error_map. reflexivity.
Qed.

Lemma within_panics b proj : mb_wf b -> (forall m, In m (l_attrs (mb_layout b)) -> m_def m <> POSITION_3D) -> reproject_within b proj = Panic.
Proof.
  intros W H. unfold reproject_within. pose proof (attribute_view_none _ POSITION_3D (wf_good b W) H) as E.
  change (ad_type POSITION_3D) with Vec3f64 in E. rewrite E. reflexivity.
Qed.

Definition moved (m : member) (vs : list (list Z)) (n : nat) (pts : list (list Z)) : list (list Z) :=
  mapi (fun k r => if Nat.ltb k n then with_attr m (nth k vs []) r else r) pts.

Lemma between_ok src b sm m proj : bf_wf src -> mb_wf b -> bf_len src = mb_len b ->
  In sm (l_attrs (bf_layout src)) -> m_def sm = POSITION_3D -> In m (l_attrs (mb_layout b)) -> m_def m = POSITION_3D ->
  (forall v, length v = 24 -> length (proj v) = 24) ->
  exists b', reproject_between src b proj = Ok b' /\ mb_wf b' /\ mb_layout b' = mb_layout b /\ mb_len b' = mb_len b
    /\ (forall k p r, nth_error (bf_points src) k = Some p -> nth_error (mb_points b) k = Some r ->
          nth_error (mb_points b') k = Some (with_attr m (proj (attr_value sm p)) r))
    /\ mb_len (mb_root b') = mb_len (mb_root b)
    /\ (forall q, q < mb_off b \/ mb_off b + mb_len b <= q ->
          nth_error (mb_points (mb_root b')) q = nth_error (mb_points (mb_root b)) q).
Proof.
  intros WS W LEN Hs HDs Hm HD HP. pose proof (wf_good b W) as G. destruct (good_member _ _ G Hm) as (Z0 & ZS & ZE).
  assert (S24 : m_size m = 24) by (rewrite ZS, HD; reflexivity).
  pose proof (bf_good src WS) as GS. destruct (good_member _ _ GS Hs) as (Y0 & YS & YE).
  assert (T24 : m_size sm = 24) by (rewrite YS, HDs; reflexivity).
  destruct (bf_points_uniform src WS) as (US & USL).
  destruct (bf_points_uniform (Of b) W) as (U & UL). change (bf_points (Of b)) with (mb_points b) in *.
  change (bf_layout (Of b)) with (mb_layout b) in U. change (bf_len (Of b)) with (mb_len b) in UL.
  unfold reproject_between. rewrite LEN, Nat.eqb_refl. cbn [assert bind].
  assert (HT : m_type m = Vec3f64) by (unfold m_type; rewrite HD; reflexivity).
  assert (HTs : m_type sm = Vec3f64) by (unfold m_type; rewrite HDs; reflexivity).
  pose proof (attribute_view_member _ m G Hm) as V1. rewrite HD, HT in V1. rewrite V1.
  pose proof (attribute_view_member _ sm GS Hs) as V2. rewrite HDs, HTs in V2. rewrite V2. cbn [bind].
  set (vs := map (fun p => proj (attr_value sm p)) (bf_points src)).
  destruct (@foldM_range mbuf (fun n b' => mb_wf b' /\ mb_layout b' = mb_layout b /\ mb_len b' = mb_len b
      /\ mb_points b' = moved m vs n (mb_points b) /\ mb_off b' = mb_off b
      /\ mb_len (mb_root b') = mb_len (mb_root b)
      /\ (forall q, q < mb_off b \/ mb_off b + mb_len b <= q ->
          nth_error (mb_points (mb_root b')) q = nth_error (mb_points (mb_root b)) q))
    (fun t i => let* v := attribute_view_at src POSITION_3D Vec3f64 i in mb_set_attribute t (m_def m) i (proj v)) 0 (mb_len b) b)
    as (b' & E & W' & L' & N' & P' & O' & R' & OUT).
  - lia.
  - repeat split; auto. unfold moved. symmetry. apply mapi_id. intros k a Hk. now destruct (Nat.ltb_spec k 0); [lia|].
  - intros i b1 Hi1 (W1 & L1 & N1 & P1 & O1 & R1 & OUT1).
    destruct (nth_error_get (bf_points src) i) as [p Hp]; [lia|].
    assert (EV : attribute_view_at src POSITION_3D Vec3f64 i = Ok (attr_value sm p)).
    { pose proof (proj2 (view_at src sm i WS Hs ltac:(lia))) as V. rewrite HDs, HTs in V. rewrite V.
      f_equal. f_equal. now apply nth_error_nth. }
    rewrite EV. cbn [bind].
    assert (LV : length (proj (attr_value sm p)) = m_size m).
    { rewrite S24. apply HP. rewrite <- T24. apply (length_attr_value (bf_layout src)); auto. exact (uniform_nth _ _ _ _ US Hp). }
    assert (Hm1 : In m (l_attrs (mb_layout b1))) by now rewrite L1.
    destruct (set_attribute_points b1 m i (proj (attr_value sm p)) W1 Hm1) as (b2 & E2 & W2 & S2 & L2 & N2 & P2 & O2 & R2 & OUT2); auto; try lia.
    exists b2. split; [exact E2|]. repeat split; auto; try congruence.
    + rewrite P2, P1. apply nth_error_ext. intros k. unfold moved. rewrite !nth_error_mapi.
      destruct (nth_error (mb_points b) k) as [x|] eqn:Hk; auto. simpl. f_equal.
      assert (NV : nth i vs [] = proj (attr_value sm p)).
      { apply nth_error_nth. unfold vs. rewrite nth_error_map, Hp. reflexivity. }
      destruct (Nat.eqb_spec k i).
      * subst k. destruct (Nat.ltb_spec i i); [lia|]. destruct (Nat.ltb_spec i (i + 1)); [|lia]. now rewrite NV.
      * destruct (Nat.ltb_spec k i), (Nat.ltb_spec k (i + 1)); auto; lia.
    + intros q Hq. rewrite OUT2 by (rewrite O1, N1; auto). auto.
  - exists b'. rewrite HD in E. split; [rewrite HD; exact E|]. repeat split; auto.
    intros k p r Hp Hr. rewrite P'. unfold moved. rewrite nth_error_mapi, Hr. cbn [option_map].
    assert (Hk : k < mb_len b) by (rewrite <- UL; apply nth_error_Some; congruence).
    destruct (Nat.ltb_spec k (mb_len b)); [|lia]. f_equal. f_equal. apply nth_error_nth. unfold vs. rewrite nth_error_map, Hp. reflexivity.
Qed.

Lemma between_panics src b proj : bf_wf src -> mb_wf b ->
  bf_len src <> mb_len b \/ (forall m, In m (l_attrs (bf_layout src)) -> m_def m <> POSITION_3D)
    \/ (forall m, In m (l_attrs (mb_layout b)) -> m_def m <> POSITION_3D) ->
  reproject_between src b proj = Panic.
Proof.
  intros WS W H. unfold reproject_between. destruct (Nat.eqb_spec (bf_len src) (mb_len b)) as [E|E]; [|reflexivity]. cbn [assert bind].
  destruct (attribute_view (mb_layout b) POSITION_3D Vec3f64) as [tm| |] eqn:T.
  - cbn [bind]. destruct H as [H|[H|H]]; [contradiction| |].
    + pose proof (attribute_view_none _ POSITION_3D (bf_good src WS) H) as N. change (ad_type POSITION_3D) with Vec3f64 in N. now rewrite N.
    + pose proof (attribute_view_none _ POSITION_3D (wf_good b W) H) as N. change (ad_type POSITION_3D) with Vec3f64 in N. congruence.
  - exfalso. unfold attribute_view in T. cbn in T. destruct (get_attribute (mb_layout b) POSITION_3D); discriminate.
  - reflexivity.
Qed.

(* ------------------------------------------------------------------ boxes *)
Section Bounds.
Context {T : Type} (pcmp : T -> T -> option comparison) (D : T -> Prop) (TO : total_on pcmp D).

Lemma bounds_smallest proj b : p3_all D (proj (b_min b)) -> p3_all D (proj (b_max b)) ->
  smallest pcmp D (fun q => q = proj (b_min b) \/ q = proj (b_max b)) (transform_bounds pcmp proj b).
Proof.
  intros D1 D2. pose proof (point_box_proper pcmp D TO _ D1) as P1.
  destruct (extend_smallest pcmp D TO _ _ P1 D2) as (S1 & S2 & S3). unfold transform_bounds. split; [exact S1|].
  destruct TO as (RE & _ & TR). split.
  - intros q [->| ->]; apply S2; split; auto. left. destruct D1 as (A & B & C). unfold inside, le. cbn [b_min b_max]. rewrite !RE by auto. auto.
  - intros c PC HC. apply S3; auto. intros q (Dq & [I|I]).
    + pose proof (HC _ (or_introl eq_refl)) as J. destruct PC as ((C1 & C2 & C3) & (C4 & C5 & C6) & _), D1 as (A & B & C), Dq as (Q1 & Q2 & Q3).
      destruct I as ((I1 & I2) & (I3 & I4) & (I5 & I6)), J as ((J1 & J2) & (J3 & J4) & (J5 & J6)). cbn [b_min b_max] in *.
      set (m0 := proj (b_min b)) in *. clearbody m0.
      unfold inside. repeat split; [apply (TR _ (px m0))|apply (TR _ (px m0))|apply (TR _ (py m0))|apply (TR _ (py m0))|apply (TR _ (pz m0))|apply (TR _ (pz m0))]; assumption.
    + subst q. apply HC. now right.
Qed.

Lemma bounds_monotone fx fy fz b p : proper pcmp D b ->
  (forall x, D x -> D (fx x)) -> (forall x, D x -> D (fy x)) -> (forall x, D x -> D (fz x)) ->
  monotone pcmp D fx -> monotone pcmp D fy -> monotone pcmp D fz -> p3_all D p -> inside pcmp b p ->
  inside pcmp (transform_bounds pcmp (axis_by_axis fx fy fz) b) (axis_by_axis fx fy fz p).
Proof.
  intros PB Fx Fy Fz Mx My Mz Dp Ip.
  destruct PB as ((A1 & A2 & A3) & (A4 & A5 & A6) & _). destruct Dp as (D1 & D2 & D3).
  destruct (bounds_smallest (axis_by_axis fx fy fz) b) as (S1 & S2 & _); [unfold p3_all, axis_by_axis; cbn; auto|unfold p3_all, axis_by_axis; cbn; auto|].
  pose proof (S2 _ (or_introl eq_refl)) as I1. pose proof (S2 _ (or_intror eq_refl)) as I2.
  destruct S1 as ((B1 & B2 & B3) & (B4 & B5 & B6) & _). destruct TO as (_ & _ & TR).
  destruct Ip as ((P1 & P2) & (P3 & P4) & (P5 & P6)).
  destruct I1 as ((I1 & I1') & (I3 & I3') & (I5 & I5')), I2 as ((I2 & I2') & (I4 & I4') & (I6 & I6')).
  cbn [axis_by_axis px py pz] in I1, I1', I2, I2', I3, I3', I4, I4', I5, I5', I6, I6'.
  split; [|split]; cbn [axis_by_axis px py pz].
  - destruct Mx as [M|M]; split.
    + apply (TR _ (fx (px (b_min b)))); auto.
    + apply (TR _ (fx (px (b_max b)))); auto.
    + apply (TR _ (fx (px (b_max b)))); auto.
    + apply (TR _ (fx (px (b_min b)))); auto.
  - destruct My as [M|M]; split.
    + apply (TR _ (fy (py (b_min b)))); auto.
    + apply (TR _ (fy (py (b_max b)))); auto.
    + apply (TR _ (fy (py (b_max b)))); auto.
    + apply (TR _ (fy (py (b_min b)))); auto.
  - destruct Mz as [M|M]; split.
    + apply (TR _ (fz (pz (b_min b)))); auto.
    + apply (TR _ (fz (pz (b_max b)))); auto.
    + apply (TR _ (fz (pz (b_max b)))); auto.
    + apply (TR _ (fz (pz (b_min b)))); auto.
Qed.
End Bounds.
