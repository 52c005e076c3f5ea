From Coq Require Import String List ZArith Lia Bool Arith SpecFloat Permutation Sorted.
From Verif Require Import Base LayoutModel LayoutProofs BufferModel BufferSpec ListLemmas BufferProofs BufferSteps BufferSteps2 BufferSteps3 BufferSteps4 BufferFacts TraitModel TraitSpec TraitProofs TraitProofs2
  NumModel NumSpec NumProofs NumProofs2 ConvModel MathModel MathSpec MathProofs MathProofs2 UntypedModel SegModel SegSpec SegProofs VoxModel VoxSpec F64Real VoxProofs VoxProofs2 VoxProofs3 VoxProofs4.
Import ListNotations.
Open Scope nat_scope.

(* ---- the centroid of a voxel ---- *)
Section Centroid.
Variable order : attr_def -> order_fn.
Variable b : buffer.
Variable out : mbuf.
Variable v : voxel.
Hypothesis Ho : forall a l, Permutation (order a l) l.
Hypothesis W : bf_wf b.
Hypothesis T : target_ok b out.
Hypothesis Hv : forall i, In i (v_points v) -> i < bf_len b.
Hypothesis Hne : v_points v <> [].
Let l := mb_layout out.

Lemma target_good : good_layout l.
Proof. apply wf_good. apply T. Qed.
Lemma no_waveform : has_attribute l WAVEFORM_DATA_OFFSET || has_attribute l WAVEFORM_PACKET_SIZE || has_attribute l WAVEFORM_PARAMETERS
     || has_attribute l WAVE_PACKET_DESCRIPTOR_INDEX || has_attribute l RETURN_POINT_WAVEFORM_LOCATION = false.
Proof.
  assert (N : forall a, existsb (attr_def_eqb a) pooled_attrs = false -> has_attribute l a = false).
  { intros a E. unfold has_attribute. destruct (existsb _ (l_attrs l)) eqn:X; auto. apply existsb_exists in X as (m & I & Q). apply attr_def_eqb_eq in Q.
    destruct T as (_ & _ & TA). destruct (TA m I) as (P & _). apply not_listed in E. rewrite Q in P. contradiction. }
  rewrite !N; auto.
Qed.
Lemma source_ok t : In t (l_attrs l) -> exists m, In m (l_attrs (bf_layout b)) /\ m_def m = m_def t
  /\ exists r, pooled_value (order (m_def t)) v b (m_def t) = Ok r /\ length r = dt_size (m_type t) /\ pooled_all b v m r.
Proof.
  intros I. destruct T as (_ & _ & TA). destruct (TA t I) as (P & m & Hm & D). exists m. split; auto. split; auto.
  assert (E : m_type t = m_type m) by (unfold m_type; now rewrite D). rewrite E, <- D. apply pooled_ok; auto. now rewrite D.
Qed.

Lemma centroid_ok : exists u, set_all_attributes order l (untyped_new l) v b = Ok u /\ length (up_bytes u) = l_size l
  /\ forall t m, In t (l_attrs l) -> In m (l_attrs (bf_layout b)) -> m_def m = m_def t -> pooled_all b v m (attr_value t (up_bytes u)).
Proof.
  unfold set_all_attributes. rewrite no_waveform. pose proof target_good as G.
  pose (P := fun (done : list member) (u : untyped) => up_layout u = l /\ length (up_bytes u) = l_size l
    /\ forall t, In t done -> exists m, In m (l_attrs (bf_layout b)) /\ m_def m = m_def t /\ pooled_all b v m (attr_value t (up_bytes u))).
  destruct (foldM_list P (fun c m => let* bytes := pooled_value (order (m_def m)) v b (m_def m) in match set_raw_attribute c (m_def m) bytes with Ok c => Ok c | _ => Panic end)
     (l_attrs l) (untyped_new l)) as (u & E & Q).
  - split; [reflexivity|]. split; [apply repeat_length|intros t []].
  - intros pre t post u El (UL & LN & DN). assert (I : In t (l_attrs l)) by (rewrite El; apply in_or_app; right; now left).
    destruct (source_ok t I) as (m & Hm & D & r & -> & LR & PA). cbn [bind].
    destruct (set_raw_ok u t r) as (u' & -> & UL' & UB); rewrite ?UL; auto. exists u'. split; auto.
    assert (LR' : length r = m_size t) by (destruct (good_member _ _ G I) as (_ & S & _); rewrite S; exact LR).
    split; [congruence|]. split; [rewrite UB, length_with_attr; exact LN|]. intros t' I'. apply in_app_or in I' as [I'|[<-|[]]].
    + destruct (DN t' I') as (m' & A & C & F). exists m'. split; auto. split; auto. rewrite UB.
      rewrite (attr_value_with_other l t t'); auto; [rewrite El; apply in_or_app; now left|]. intros <-. pose proof (good_defs l G) as ND. rewrite El, map_app in ND. cbn [map] in ND.
      apply NoDup_remove_2 in ND. apply ND, in_or_app. left. now apply in_map.
    + exists m. split; auto. split; auto. rewrite UB. rewrite (attr_value_with_same l); auto.
  - exists u. split; [exact E|]. destruct Q as (UL & LN & DN). split; auto. intros t m I Hm D. destruct (DN t I) as (m' & Hm' & D' & PA).
    assert (m' = m); [|now subst]. apply (good_def_inj (bf_layout b)); auto; [apply (bf_wf_root b W)|congruence].
Qed.
End Centroid.

(* ---- appending a point ---- *)
Lemma push_ok out bytes : mb_wf out -> match out with VecB _ | MapB _ => True | _ => False end -> length bytes = l_size (mb_layout out) ->
  exists out', owned_push out bytes = Ok out' /\ mb_wf out' /\ match out' with VecB _ | MapB _ => True | _ => False end /\ mb_layout out' = mb_layout out
    /\ exists r, mb_points out' = mb_points out ++ [r] /\ forall t, In t (l_attrs (mb_layout out)) -> attr_value t r = attr_value t bytes.
Proof.
  intros Wo O L. pose proof (wf_good out Wo) as G. destruct out as [w|h|e|s]; try contradiction; cbn [owned_push mb_layout] in *.
  - pose proof (vb_push_all (vb_layout w) [bytes] G) as P. specialize (P ltac:(repeat constructor; exact L) _ w (vb_rep_points w Wo)). destruct P as (w' & E & R).
    cbn [foldM] in E. destruct (vb_push_points w bytes) as [w2| |]; try discriminate. cbn [bind] in E. injection E as ->. cbn [bind]. exists (VecB w').
    split; auto. split; [apply (vb_rep_inv _ _ _ G R)|]. split; auto. split; [apply R|]. exists bytes. split; [|auto].
    exact (points_of_v _ _ _ G R).
  - pose proof (hb_push_all (hb_layout h) [bytes] G) as P. specialize (P ltac:(repeat constructor; exact L) _ h (hb_inv_rep h Wo)). destruct P as (h' & E & R).
    cbn [foldM] in E. destruct (hb_push_points h bytes) as [h2| |]; try discriminate. cbn [bind] in E. injection E as ->. cbn [bind]. exists (MapB h').
    split; auto. split; [apply (hb_rep_inv _ _ _ G R)|]. split; auto. split; [apply R|]. exists (norm (hb_layout h) bytes). split.
    + change (mb_points (MapB h')) with (points_of (BH h')). change (mb_points (MapB h)) with (points_of (BH h)). rewrite (points_of_columnar _ _ _ G R), map_app.
      now rewrite norm_points.
    + intros t I. apply attr_value_overlay; auto. apply repeat_length.
Qed.

Lemma all_voxels order b vs : forall out, (forall pos a l, Permutation (order pos a l) l) -> bf_wf b -> target_ok b out ->
  (forall v i, In v vs -> In i (v_points v) -> i < bf_len b) -> (forall v, In v vs -> v_points v <> []) ->
  exists out' new, foldM (fun out v => let layout := mb_layout out in let* c := set_all_attributes (order (v_pos v)) layout (untyped_new layout) v b in owned_push out (up_bytes c)) vs out = Ok out'
    /\ mb_wf out' /\ mb_layout out' = mb_layout out /\ mb_points out' = mb_points out ++ new /\ new_values pooled_all b out vs new.
Proof.
  induction vs as [|v vs IH]; intros out Ho W T Hv Hne.
  - exists out, []. cbn [foldM]. split; auto. split; [apply T|]. split; auto. split; [now rewrite app_nil_r|constructor].
  - cbn [foldM]. cbv zeta.
    destruct (centroid_ok (order (v_pos v)) b out v (Ho (v_pos v)) W T) as (u & E & LU & PA); [intros i I; apply (Hv v); auto; now left|apply Hne; now left|].
    rewrite E. cbn [bind]. pose proof T as (Wo & O & TA). destruct (push_ok out (up_bytes u) Wo O LU) as (out1 & E1 & W1 & O1 & L1 & r & P1 & V1). rewrite E1. cbn [bind].
    destruct (IH out1 Ho W) as (out' & new & E2 & W2 & L2 & P2 & V2).
    + split; auto. split; auto. rewrite L1. exact TA.
    + intros w i I J. apply (Hv w); auto. now right.
    + intros w I. apply Hne. now right.
    + exists out', (r :: new). split; [exact E2|]. split; auto. split; [congruence|]. split; [rewrite P2, P1, <- app_assoc; reflexivity|].
      constructor; [|unfold new_values in *; now rewrite L1 in V2]. intros t m I J D. rewrite V1 by auto. now apply PA.
Qed.

(* ---- the filter ---- *)
Lemma p3_real b m p : In p (points3 b m) -> p3_all finite p -> p3_all real_f64 p.
Proof. intros I (A & B & C). destruct (points3_f64 b m p I) as (D & E & F). repeat split; auto. Qed.

Theorem filter_result fuel order b m lx ly lz out r :
  has_positions b m -> bf_len b <> 0 -> (forall p, In p (points3 b m) -> p3_all finite p) ->
  positive_f64 lx -> positive_f64 ly -> positive_f64 lz -> target_ok b out -> any_order order ->
  voxelgrid_filter fuel order b lx ly lz out = Some r ->
  exists out' vs new, r = Ok out' /\ filtered b m lx ly lz out out' vs new /\ new_values pooled_all b out vs new.
Proof.
  intros HP NE FIN PX PY PZ T Ho E. pose proof HP as (W & Hm & D). pose proof (proj2 (proj2 (proj2 (bf_wf_root b W)))) as G. unfold voxelgrid_filter in E.
  assert (HA : has_attribute (bf_layout b) POSITION_3D = true).
  { unfold has_attribute. apply existsb_exists. exists m. split; auto. now apply attr_def_eqb_eq. }
  rewrite HA in E. cbn [negb] in E. destruct (box_ok b m HP NE FIN) as (box & EB & (LX & GX) & (LY & GY) & (LZ & GZ)). rewrite EB in E. cbn [bind unwrap] in E.
  destruct (create_markers fuel box lx ly lz) as [ms|] eqn:EM; [|discriminate]. unfold create_markers in EM.
  destruct (axis_markers fuel (px (b_min box)) (px (b_max box)) lx) as [xs|] eqn:EX; [|discriminate].
  destruct (axis_markers fuel (py (b_min box)) (py (b_max box)) ly) as [ys|] eqn:EY; [|discriminate].
  destruct (axis_markers fuel (pz (b_min box)) (pz (b_max box)) lz) as [zs|] eqn:EZ; [|discriminate]. injection EM as <-.
  apply axis_markers_grid in EX, EY, EZ.
  assert (REAL : forall (f : p3 spec_float -> spec_float), (forall p, p3_all real_f64 p -> real_f64 (f p)) -> forall x, In x (map f (points3 b m)) -> real_f64 x).
  { intros f Hf x I. apply in_map_iff in I as (p & <- & I). apply Hf. apply (p3_real b m p I). now apply FIN. }
  assert (RX := REAL (@px _) (fun p H => proj1 H)). assert (RY := REAL (@py _) (fun p H => proj1 (proj2 H))). assert (RZ := REAL (@pz _) (fun p H => proj2 (proj2 H))).
  assert (AX : forall f lo hi leaf ms, (forall x, In x (map f (points3 b m)) -> real_f64 x) -> is_least (map f (points3 b m)) lo -> is_greatest (map f (points3 b m)) hi ->
     positive_f64 leaf -> axis_grid lo hi leaf ms -> forall p, In p (points3 b m) -> exists k, find_axis ms (f p) = Ok k /\ nearest ms (f p) k).
  { intros f lo hi leaf ms R (IL & FL) (IG & FG) PL AG p I. rewrite Forall_forall in FL, FG.
    apply (find_axis_nearest lo hi leaf ms (R lo IL) (R hi IG) PL AG (f p)); [apply R|apply FL|apply FG]; now apply in_map. }
  pose proof (AX (@px _) _ _ _ _ RX LX GX PX EX) as NX. pose proof (AX (@py _) _ _ _ _ RY LY GY PY EY) as NY. pose proof (AX (@pz _) _ _ _ _ RZ LZ GZ PZ EZ) as NZ.
  set (ms := mk_markers xs ys zs) in *.
  assert (LEAF : forall p, In p (points3 b m) -> exists x y z, find_leaf ms p = Ok (x, y, z) /\ nearest xs (px p) x /\ nearest ys (py p) y /\ nearest zs (pz p) z).
  { intros p I. destruct (NX p I) as (x & Ex & Nx). destruct (NY p I) as (y & Ey & Ny). destruct (NZ p I) as (z & Ez & Nz). exists x, y, z. split; auto.
    unfold find_leaf. cbn [mk_x mk_y mk_z ms]. rewrite Ex, Ey, Ez. reflexivity. }
  destruct (build_ok b m ms HP) as (vs & EV & OV & PV & NV & CV).
  { intros p I. destruct (LEAF p I) as (x & y & z & Ef & _). eauto. }
  rewrite EV in E. cbn [bind] in E. injection E as <-.
  assert (IDX : forall v i, In v vs -> In i (v_points v) -> i < bf_len b).
  { intros v i I J. assert (K : In i (seq 0 (bf_len b))) by (apply (Permutation_in _ PV), in_concat; exists (v_points v); split; auto; now apply in_map). apply in_seq in K. lia. }
  destruct (all_voxels order b vs out Ho W T IDX NV) as (out' & new & EO & WO & LO & PO & VO). exists out', vs, new. split; [exact EO|]. split; [|exact VO].
  split; auto. split; auto. split; auto. split; [symmetry; exact (AsciiProofs6.Forall2_len _ _ _ VO)|]. exists xs, ys, zs.
  split; [now exists (px (b_min box)), (px (b_max box))|]. split; [now exists (py (b_min box)), (py (b_max box))|]. split; [now exists (pz (b_min box)), (pz (b_max box))|].
  split; [now rewrite (points3_length b m HP)|]. split; [now apply ordered_nodup|]. split; auto. exists (cell_of ms). split.
  - intros p I. destruct (LEAF p I) as (x & y & z & Ef & N). unfold cell_of. rewrite Ef. exact N.
  - intros v i p I J K. now apply (CV v i p).
Qed.

(* the filter ends if the coordinates are not too large for the leaf size *)
Theorem filter_ends order b m lx ly lz out :
  has_positions b m -> bf_len b <> 0 -> (forall p, In p (points3 b m) -> p3_all finite p) ->
  positive_f64 lx -> positive_f64 ly -> positive_f64 lz ->
  small_axis (map (@px _) (points3 b m)) lx -> small_axis (map (@py _) (points3 b m)) ly -> small_axis (map (@pz _) (points3 b m)) lz ->
  exists fuel0, forall fuel, fuel0 <= fuel -> exists r, voxelgrid_filter fuel order b lx ly lz out = Some r.
Proof.
  intros HP NE FIN PX PY PZ SX SY SZ. pose proof HP as (W & Hm & D).
  destruct (box_ok b m HP NE FIN) as (box & EB & (LX & GX) & (LY & GY) & (LZ & GZ)).
  assert (REAL : forall (f : p3 spec_float -> spec_float), (forall p, p3_all real_f64 p -> real_f64 (f p)) -> forall x, In x (map f (points3 b m)) -> real_f64 x).
  { intros f Hf x I. apply in_map_iff in I as (p & <- & I). apply Hf. apply (p3_real b m p I). now apply FIN. }
  assert (RX := REAL (@px _) (fun p H => proj1 H)). assert (RY := REAL (@py _) (fun p H => proj1 (proj2 H))). assert (RZ := REAL (@pz _) (fun p H => proj2 (proj2 H))).
  assert (AX : forall f lo hi leaf, (forall x, In x (map f (points3 b m)) -> real_f64 x) -> is_least (map f (points3 b m)) lo -> is_greatest (map f (points3 b m)) hi ->
     positive_f64 leaf -> small_axis (map f (points3 b m)) leaf -> exists n ms, axis_markers n lo hi leaf = Some ms).
  { intros f lo hi leaf R (IL & FL) (IG & FG) PL S. exists (Z.to_nat (scaled hi - scaled lo)). apply axis_ends; auto. }
  destruct (AX (@px _) _ _ _ RX LX GX PX SX) as (nx & xs & EX). destruct (AX (@py _) _ _ _ RY LY GY PY SY) as (ny & ys & EY). destruct (AX (@pz _) _ _ _ RZ LZ GZ PZ SZ) as (nz & zs & EZ).
  exists (nx + ny + nz). intros fuel F. unfold voxelgrid_filter. destruct (negb _); [eauto|]. rewrite EB. cbn [bind unwrap]. unfold create_markers.
  replace fuel with (nx + (fuel - nx)) by lia. rewrite (axis_markers_more _ _ _ _ _ _ EX). replace (nx + (fuel - nx)) with (ny + (fuel - ny)) by lia. rewrite (axis_markers_more _ _ _ _ _ _ EY).
  replace (ny + (fuel - ny)) with (nz + (fuel - nz)) by lia. rewrite (axis_markers_more _ _ _ _ _ _ EZ). eauto.
Qed.
