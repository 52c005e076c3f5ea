From Coq Require Import String List ZArith Lia Bool Arith SpecFloat Permutation Sorted.
From Verif Require Import Base LayoutModel LayoutProofs BufferModel BufferSpec ListLemmas BufferProofs TraitModel TraitSpec TraitProofs2 NumModel ConvSpec MathModel MathSpec MathProofs MathProofs2
  PntsProofs2 SegModel SegSpec SegProofs VoxModel VoxSpec VoxProofs.
Import ListNotations.
Open Scope nat_scope.

(* ---- cells in order ---- *)
Definition before (a b : nat * nat * nat) : Prop := pos_cmp a b = Lt.
Lemma pos_cmp_spec a b :
  match pos_cmp a b with Eq => a = b | Lt => before a b | Gt => before b a end.
Proof.
  destruct a as ((ax, ay), az), b as ((bx, by_), bz). unfold before, pos_cmp.
  destruct (Nat.compare_spec ax bx), (Nat.compare_spec bx ax); try lia; auto; subst;
  destruct (Nat.compare_spec ay by_), (Nat.compare_spec by_ ay); try lia; auto; subst;
  destruct (Nat.compare_spec az bz), (Nat.compare_spec bz az); try lia; auto; subst; reflexivity.
Qed.
Lemma before_trans a b c : before a b -> before b c -> before a c.
Proof.
  destruct a as ((ax, ay), az), b as ((bx, by_), bz), c as ((cx, cy), cz). unfold before, pos_cmp.
  destruct (Nat.compare_spec ax bx), (Nat.compare_spec bx cx), (Nat.compare_spec ax cx); try lia; try discriminate; auto; subst;
  destruct (Nat.compare_spec ay by_), (Nat.compare_spec by_ cy), (Nat.compare_spec ay cy); try lia; try discriminate; auto; subst;
  rewrite !Nat.compare_lt_iff; lia.
Qed.
Lemma before_irrefl a : ~ before a a.
Proof. destruct a as ((ax, ay), az). unfold before, pos_cmp. rewrite !Nat.compare_refl. discriminate. Qed.

Definition ordered (vs : list voxel) : Prop := StronglySorted before (map v_pos vs).
Lemma ordered_nodup vs : ordered vs -> NoDup (map v_pos vs).
Proof.
  unfold ordered. intros S. induction S as [|a l S IH F]; constructor; auto. intros I. rewrite Forall_forall in F. exact (before_irrefl a (F a I)).
Qed.

Lemma add_positions vs pos i p : In p (map v_pos (add_to_voxels vs pos i)) -> p = pos \/ In p (map v_pos vs).
Proof.
  induction vs as [|v vs IH]; cbn [add_to_voxels map].
  - cbn. intuition.
  - destruct (pos_cmp (v_pos v) pos); cbn [map v_pos In]; intuition.
Qed.
Lemma add_ordered vs pos i : ordered vs -> ordered (add_to_voxels vs pos i).
Proof.
  unfold ordered. induction vs as [|v vs IH]; intros S; cbn [add_to_voxels].
  - cbn. repeat constructor.
  - cbn [map] in S. apply StronglySorted_inv in S as (S & F). pose proof (pos_cmp_spec (v_pos v) pos) as C. destruct (pos_cmp (v_pos v) pos); cbn [map v_pos].
    + constructor; auto.
    + constructor; [now apply IH|]. rewrite Forall_forall in *. intros q Q. apply add_positions in Q as [->|Q]; auto.
    + constructor; [constructor; auto|]. constructor; [exact C|]. rewrite Forall_forall in *. intros q Q. now apply (before_trans _ _ _ C), F.
Qed.
Lemma add_perm vs pos i : Permutation (concat (map v_points (add_to_voxels vs pos i))) (concat (map v_points vs) ++ [i]).
Proof.
  induction vs as [|v vs IH]; cbn [add_to_voxels map concat].
  - cbn. reflexivity.
  - destruct (pos_cmp (v_pos v) pos); cbn [map v_points concat].
    + rewrite <- !app_assoc. apply Permutation_app_head. apply Permutation_app_comm.
    + rewrite <- app_assoc. now apply Permutation_app_head.
    + cbn [app]. apply Permutation_cons_append.
Qed.
Lemma add_nonempty vs pos i : (forall v, In v vs -> v_points v <> []) -> forall v, In v (add_to_voxels vs pos i) -> v_points v <> [].
Proof.
  induction vs as [|v vs IH]; cbn [add_to_voxels]; intros H w.
  - intros [<-|[]]. discriminate.
  - destruct (pos_cmp (v_pos v) pos).
    + intros [<-|I]; [|apply H; now right]. cbn. destruct (v_points v); discriminate.
    + intros [<-|I]; [apply H; now left|]. apply IH; auto. intros u U. apply H. now right.
    + intros [<-|I]; [discriminate|]. now apply H.
Qed.
Lemma add_members vs pos i w j : ordered vs -> In w (add_to_voxels vs pos i) -> In j (v_points w) ->
  (j = i /\ v_pos w = pos) \/ exists u, In u vs /\ In j (v_points u) /\ v_pos u = v_pos w.
Proof.
  induction vs as [|v vs IH]; cbn [add_to_voxels]; intros S.
  - intros [<-|[]]. cbn. intros [->|[]]. now left.
  - unfold ordered in S. cbn [map] in S. apply StronglySorted_inv in S as (S & F). pose proof (pos_cmp_spec (v_pos v) pos) as C. destruct (pos_cmp (v_pos v) pos).
    + intros [<-|I] J.
      * cbn [v_points] in J. apply in_app_or in J as [J|[->|[]]]; [right; exists v; cbn; auto|left; auto].
      * right. exists w. cbn. auto.
    + intros [<-|I] J; [right; exists v; cbn; auto|]. destruct (IH S I J) as [H|(u & U & A & B)]; auto. right. exists u. cbn. auto.
    + intros [<-|I] J; [cbn in J; destruct J as [->|[]]; now left|]. right. now exists w.
Qed.

(* ---- the voxels of a buffer ---- *)
Definition cell_of (ms : markers) (p : p3 spec_float) : nat * nat * nat := match find_leaf ms p with Ok c => c | _ => (0, 0, 0) end.
Lemma build_ok b m ms : has_positions b m -> (forall p, In p (points3 b m) -> exists c, find_leaf ms p = Ok c) ->
  exists vs, build_voxels b ms = Ok vs /\ ordered vs /\ Permutation (concat (map v_points vs)) (seq 0 (bf_len b))
    /\ (forall v, In v vs -> v_points v <> [])
    /\ forall v i p, In v vs -> In i (v_points v) -> nth_error (points3 b m) i = Some p -> v_pos v = cell_of ms p.
Proof.
  intros HP F. unfold build_voxels. rewrite (positions_view b m HP). cbn [bind].
  pose (P := fun k vs => ordered vs /\ Permutation (concat (map v_points vs)) (seq 0 k) /\ (forall v, In v vs -> v_points v <> [])
    /\ forall v i p, In v vs -> In i (v_points v) -> nth_error (points3 b m) i = Some p -> v_pos v = cell_of ms p).
  destruct (foldM_range P (fun vs i => let* p := position_at b i in let* pos := find_leaf ms p in Ok (add_to_voxels vs pos i)) 0 (bf_len b) []) as (vs & E & Q).
  - lia.
  - split; [constructor|]. split; [constructor|]. split; intros v; [intros []|intros i p []].
  - intros i vs I (O & PM & NE & C). assert (EP : exists p, nth_error (points3 b m) i = Some p).
    { destruct (nth_error (points3 b m) i) eqn:E; eauto. apply nth_error_None in E. rewrite (points3_length b m HP) in E. lia. }
    destruct EP as (p & EP). rewrite (position_at_ok b m i p HP EP). cbn [bind]. destruct (F p (nth_error_In _ _ EP)) as (c & Ec). rewrite Ec. cbn [bind].
    eexists. split; [reflexivity|]. split; [now apply add_ordered|]. split; [|split].
    + rewrite (add_perm vs c i). replace (i + 1) with (S i) by lia. rewrite seq_S. now apply Permutation_app_tail.
    + now apply add_nonempty.
    + intros w j q W J Eq. destruct (add_members vs c i w j O W J) as [(-> & ->)|(u & U & A & B)].
      * rewrite EP in Eq. injection Eq as <-. unfold cell_of. now rewrite Ec.
      * rewrite <- B. now apply (C u j).
  - exists vs. split; [exact E|]. exact Q.
Qed.

(* ---- the box ---- *)
Lemma position_points b m : has_positions b m -> map (position m) (bf_points b) = points3 b m.
Proof.
  intros (_ & _ & D). unfold points3. apply map_ext. intros r. unfold position. assert (T : m_type m = Vec3f64) by (unfold m_type; now rewrite D).
  rewrite T, value_as_same. reflexivity.
Qed.
Lemma points3_f64 b m p : In p (points3 b m) -> p3_all is_f64 p.
Proof. unfold points3. rewrite in_map_iff. intros (r & <- & _). apply vec3_f64_ok. Qed.
Lemma le_leb x y : le f64_cmp x y = SFleb x y.
Proof. reflexivity. Qed.

Lemma box_ok b m : has_positions b m -> bf_len b <> 0 -> (forall p, In p (points3 b m) -> p3_all finite p) ->
  exists box, calculate_bounds b = Ok (Some box)
    /\ (is_least (map (@px _) (points3 b m)) (px (b_min box)) /\ is_greatest (map (@px _) (points3 b m)) (px (b_max box)))
    /\ (is_least (map (@py _) (points3 b m)) (py (b_min box)) /\ is_greatest (map (@py _) (points3 b m)) (py (b_max box)))
    /\ (is_least (map (@pz _) (points3 b m)) (pz (b_min box)) /\ is_greatest (map (@pz _) (points3 b m)) (pz (b_max box))).
Proof.
  intros HP NE F. pose proof HP as (W & Hm & D). assert (T : m_type m = Vec3f64) by (unfold m_type; now rewrite D).
  assert (N : m_name m = ad_name POSITION_3D) by (unfold m_name; now rewrite D).
  assert (CV : convertible (m_type m) Vec3f64) by (rewrite T; now left).
  destruct (calculate_bounds_smallest b m W NE Hm N CV) as (r & E & (_ & IN & _) & TG).
  { rewrite (position_points b m HP). exact F. }
  rewrite (position_points b m HP) in IN, TG. exists r. split; [exact E|].
  destruct TG as ((u1 & I1 & E1) & (u2 & I2 & E2) & (u3 & I3 & E3) & (u4 & I4 & E4) & (u5 & I5 & E5) & (u6 & I6 & E6)).
  assert (AX : forall (f : p3 spec_float -> spec_float) lo hi, (exists p, In p (points3 b m) /\ f p = lo) -> (exists p, In p (points3 b m) /\ f p = hi) ->
     (forall p, In p (points3 b m) -> SFleb lo (f p) = true /\ SFleb (f p) hi = true) -> is_least (map f (points3 b m)) lo /\ is_greatest (map f (points3 b m)) hi).
  { intros f lo hi (p & I & <-) (q & J & <-) H. split; (split; [now apply in_map|]); apply Forall_forall; intros x X; apply in_map_iff in X as (u & <- & U); now apply H. }
  split; [|split]; apply AX; eauto; intros p I; destruct (IN p I) as ((A1 & A2) & (A3 & A4) & (A5 & A6)); auto.
Qed.
