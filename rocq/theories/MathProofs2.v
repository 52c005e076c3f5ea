(* Minima and maxima of attributes, bounds of buffers, bit helpers. *)
From Coq Require Import String List ZArith QArith Lia Lqa Bool Arith SpecFloat.
From Verif Require Import Base LayoutModel LayoutSpec LayoutProofs BufferModel BufferSpec ListLemmas BufferProofs BufferSteps3 TraitModel TraitSpec TraitProofs2 BufferFacts
  NumModel ConvModel ConvSpec ConvProofs ConvProofs4 ConvProofs5 MathModel MathSpec MathProofs.
Import ListNotations.
Open Scope Z_scope.

(* ------------------------------------------------------------------ NaN *)

Lemma nan_incomparable : incomparable f64_cmp S754_nan.
Proof. intros []; reflexivity. Qed.
Lemma nan_or_not x : not_nan x \/ incomparable f64_cmp x.
Proof. destruct x; try (left; unfold not_nan; congruence). right. apply nan_incomparable. Qed.
Lemma all_nan_or_not xs : Forall (fun x => not_nan x \/ incomparable f64_cmp x) xs.
Proof. apply Forall_forall. intros x _. apply nan_or_not. Qed.

Lemma f64_limits : not_nan F64_MAX /\ not_nan F64_MIN.
Proof. split; discriminate. Qed.

(* ------------------------------------------------------------------ AABB::from_iter *)

Lemma collect_contains pts : pts <> [] -> (forall p, In p pts -> p3_all not_nan p) ->
  exists b, from_iter f64_cmp F64_MAX F64_MIN pts = Ok b /\ proper f64_cmp not_nan b /\ (forall p, In p pts -> inside f64_cmp b p).
Proof. apply (from_iter_contains f64_cmp not_nan SF_total); apply f64_limits. Qed.

Lemma p3_all_impl {T} (P Q : T -> Prop) p : (forall x, P x -> Q x) -> p3_all P p -> p3_all Q p.
Proof. intros H (A & B & C). repeat split; auto. Qed.

Lemma collect_smallest pts : pts <> [] -> (forall p, In p pts -> p3_all (fun x => finite x /\ is_f64 x) p) ->
  exists b, from_iter f64_cmp F64_MAX F64_MIN pts = Ok b /\ smallest f64_cmp not_nan (fun p => In p pts) b /\ tight pts b.
Proof.
  intros NE H. assert (HN : forall p, In p pts -> p3_all not_nan p).
  { intros p I. apply (p3_all_impl (fun x => finite x /\ is_f64 x)); auto. intros x [F _]. now apply finite_not_nan. }
  destruct (collect_contains pts NE HN) as (b & E & P & C). exists b. split; auto.
  assert (T : tight pts b).
  { apply (from_iter_tight f64_cmp not_nan SF_total F64_MAX F64_MIN pts b); auto; try apply f64_limits.
    intros p I. apply (p3_all_impl (fun x => finite x /\ is_f64 x)); auto. intros x [F V]. now apply finite_bounds. }
  split; auto. now apply (tight_smallest f64_cmp not_nan SF_total).
Qed.

(* the first points of a list keep being inside *)
Lemma collect_monotone pts more : pts <> [] -> (forall p, In p (pts ++ more) -> p3_all not_nan p) ->
  exists b b', from_iter f64_cmp F64_MAX F64_MIN pts = Ok b /\ from_iter f64_cmp F64_MAX F64_MIN (pts ++ more) = Ok b'
    /\ forall p, In p pts -> inside f64_cmp b p /\ inside f64_cmp b' p.
Proof.
  intros NE H. destruct (collect_contains pts NE) as (b & E & _ & C). { intros p I. apply H. apply in_or_app. now left. }
  destruct (collect_contains (pts ++ more)) as (b' & E' & _ & C').
  - intros X. apply app_eq_nil in X. tauto.
  - exact H.
  - exists b, b'. repeat (split; auto); try (now apply C); apply C'; apply in_or_app; now left.
Qed.

(* ------------------------------------------------------------------ bounds_of *)

Lemma not_nan_dec x : not_nan x \/ x = S754_nan.
Proof. destruct x; [left|left|right|left]; try reflexivity; discriminate. Qed.

Lemma axis_bounds xs : let lo := fold_mn' f64_cmp F64_MAX xs in let hi := fold_mx' f64_cmp F64_MIN xs in
  not_nan lo /\ not_nan hi
  /\ (forall x, In x xs -> not_nan x -> le f64_cmp lo x = true /\ le f64_cmp x hi = true)
  /\ ((exists x, In x xs /\ not_nan x) -> le f64_cmp lo hi = true)
  /\ ((forall x, In x xs -> x = S754_nan) -> lo = F64_MAX /\ hi = F64_MIN)
  /\ (xs <> [] -> (forall x, In x xs -> finite x /\ is_f64 x) -> In lo xs /\ In hi xs).
Proof.
  intros lo hi. destruct f64_limits as [LM Lm].
  destruct (fold_mn'_facts f64_cmp not_nan SF_total xs F64_MAX LM (all_nan_or_not xs)) as (A1 & A2 & A3 & A4).
  destruct (fold_mx'_facts f64_cmp not_nan SF_total xs F64_MIN Lm (all_nan_or_not xs)) as (B1 & B2 & B3 & B4).
  fold lo in A1, A2, A3, A4. fold hi in B1, B2, B3, B4. split; [exact A1|]. split; [exact B1|].
  split; [intros x I N; split; auto|]. split.
  { intros (x & I & N). apply (le_trans f64_cmp not_nan SF_total lo x hi); auto. }
  split.
  { intros AN. split; [apply fold_mn'_stays|apply fold_mx'_stays]; intros x I; rewrite (AN x I); reflexivity. }
  intros NE F. destruct xs as [|x xs]; [congruence|]. clear NE.
  assert (HD : forall y, In y (x :: xs) -> not_nan y) by (intros y I; apply finite_not_nan, F; auto).
  split.
  - destruct A4 as [E|I]; [|exact I].
    (* every element equals F64_MAX, literally: the fold only keeps the start value if no element is smaller *)
    assert (Q : le f64_cmp F64_MAX x = true) by (rewrite <- E; apply A3; [now left|apply HD; now left]).
    destruct (F x (or_introl eq_refl)) as (F1 & F2). rewrite E. left. unfold f64_cmp in Q. rewrite sf_le_spec in Q.
    destruct x as [s|s| |s m e]; try contradiction; cbn [sf_le F64_MAX is_f64] in *; try discriminate.
    destruct s; [contradiction|]. change (Z.pos (2 ^ 53 - 1)) with (2 ^ 53 - 1) in Q. 
    assert (e = 971) by lia. subst e. assert (Zpos m = 2 ^ 53 - 1) by lia. unfold F64_MAX. f_equal.
    change (2 ^ 53 - 1) with (Zpos (2 ^ 53 - 1)%positive) in H. now injection H.
  - destruct B4 as [E|I]; [|exact I].
    assert (Q : le f64_cmp x F64_MIN = true) by (rewrite <- E; apply B3; [now left|apply HD; now left]).
    destruct (F x (or_introl eq_refl)) as (F1 & F2). rewrite E. left. unfold f64_cmp in Q. rewrite sf_le_spec in Q.
    destruct x as [s|s| |s m e]; try contradiction; cbn [sf_le F64_MIN is_f64] in *; try discriminate.
    destruct s; [|contradiction]. change (Z.pos (2 ^ 53 - 1)) with (2 ^ 53 - 1) in Q.
    assert (e = 971) by lia. subst e. assert (Zpos m = 2 ^ 53 - 1) by lia. unfold F64_MIN. f_equal.
    change (2 ^ 53 - 1) with (Zpos (2 ^ 53 - 1)%positive) in H. now injection H.
Qed.

(* per axis: inside if the coordinate is not NaN *)
Definition inside_if_number (b : aabb spec_float) (p : p3 spec_float) : Prop :=
  (not_nan (px p) -> le f64_cmp (px (b_min b)) (px p) = true /\ le f64_cmp (px p) (px (b_max b)) = true)
  /\ (not_nan (py p) -> le f64_cmp (py (b_min b)) (py p) = true /\ le f64_cmp (py p) (py (b_max b)) = true)
  /\ (not_nan (pz p) -> le f64_cmp (pz (b_min b)) (pz p) = true /\ le f64_cmp (pz p) (pz (b_max b)) = true).

Lemma bounds_contains pts : (exists p, In p pts /\ not_nan (px p)) -> (exists p, In p pts /\ not_nan (py p)) -> (exists p, In p pts /\ not_nan (pz p)) ->
  exists b, bounds_of f64_cmp F64_MAX F64_MIN pts = Ok b /\ proper f64_cmp not_nan b /\ forall p, In p pts -> inside_if_number b p.
Proof.
  intros NX NY NZ. rewrite bounds_of_axes.
  destruct (axis_bounds (map (@px _) pts)) as (X1 & X2 & X3 & X4 & _), (axis_bounds (map (@py _) pts)) as (Y1 & Y2 & Y3 & Y4 & _), (axis_bounds (map (@pz _) pts)) as (Z1 & Z2 & Z3 & Z4 & _).
  assert (PX : le f64_cmp (fold_mn' f64_cmp F64_MAX (map (@px _) pts)) (fold_mx' f64_cmp F64_MIN (map (@px _) pts)) = true)
    by (apply X4; destruct NX as (p & I & N); exists (px p); split; auto; now apply in_map).
  assert (PY : le f64_cmp (fold_mn' f64_cmp F64_MAX (map (@py _) pts)) (fold_mx' f64_cmp F64_MIN (map (@py _) pts)) = true)
    by (apply Y4; destruct NY as (p & I & N); exists (py p); split; auto; now apply in_map).
  assert (PZ : le f64_cmp (fold_mn' f64_cmp F64_MAX (map (@pz _) pts)) (fold_mx' f64_cmp F64_MIN (map (@pz _) pts)) = true)
    by (apply Z4; destruct NZ as (p & I & N); exists (pz p); split; auto; now apply in_map).
  rewrite (from_min_max_spec f64_cmp not_nan SF_total) by (split; auto). cbn [px py pz]. rewrite PX, PY, PZ. cbn [andb].
  eexists. split; [reflexivity|]. split; [unfold proper, p3_all; cbn [b_min b_max px py pz]; auto 10|].
  intros p I. unfold inside_if_number. cbn [b_min b_max px py pz]. split; [|split]; intros N; [apply X3|apply Y3|apply Z3]; auto; now apply in_map.
Qed.

Lemma bounds_smallest pts : pts <> [] -> (forall p, In p pts -> p3_all (fun x => finite x /\ is_f64 x) p) ->
  exists b, bounds_of f64_cmp F64_MAX F64_MIN pts = Ok b /\ smallest f64_cmp not_nan (fun p => In p pts) b /\ tight pts b.
Proof.
  intros NE H. assert (HN : forall p, In p pts -> p3_all not_nan p).
  { intros p I. apply (p3_all_impl (fun x => finite x /\ is_f64 x)); auto. intros x [F _]. now apply finite_not_nan. }
  assert (EX : exists p, In p pts) by (destruct pts as [|p ?]; [congruence|exists p; now left]). destruct EX as (p0 & I0).
  destruct (HN p0 I0) as (N1 & N2 & N3).
  destruct (bounds_contains pts) as (b & E & P & C); eauto. exists b. split; auto.
  assert (T : tight pts b).
  { rewrite bounds_of_axes in E. unfold from_min_max in E. destruct (_ || _) in E; [discriminate|]. injection E as <-. unfold tight. cbn [b_min b_max px py pz].
    assert (NX : forall f : p3 spec_float -> spec_float, map f pts <> []) by (destruct pts; [congruence|discriminate]).
    assert (AX : forall f : p3 spec_float -> spec_float, (forall p, In p pts -> finite (f p) /\ is_f64 (f p)) ->
       In (fold_mn' f64_cmp F64_MAX (map f pts)) (map f pts) /\ In (fold_mx' f64_cmp F64_MIN (map f pts)) (map f pts)).
    { intros f Hf. apply axis_bounds; [apply NX|]. intros x I. apply in_axis in I. destruct I as (p & I & <-). auto. }
    destruct (AX (@px _)) as [X1 X2]; [intros p I; apply (H p I)|]. destruct (AX (@py _)) as [Y1 Y2]; [intros p I; apply (H p I)|].
    destruct (AX (@pz _)) as [Z1 Z2]; [intros p I; apply (H p I)|]. repeat split; now apply in_axis. }
  split; auto. apply (tight_smallest f64_cmp not_nan SF_total); auto.
  intros p I. destruct (C p I) as (C1 & C2 & C3), (HN p I) as (M1 & M2 & M3). unfold inside. auto.
Qed.

Lemma bounds_panics pts : (forall p, In p pts -> px p = S754_nan) \/ (forall p, In p pts -> py p = S754_nan) \/ (forall p, In p pts -> pz p = S754_nan) ->
  bounds_of f64_cmp F64_MAX F64_MIN pts = Panic.
Proof.
  intros H. rewrite bounds_of_axes. unfold from_min_max. cbn [px py pz].
  assert (A : forall f : p3 spec_float -> spec_float, (forall p, In p pts -> f p = S754_nan) ->
     gt f64_cmp (fold_mn' f64_cmp F64_MAX (map f pts)) (fold_mx' f64_cmp F64_MIN (map f pts)) = true).
  { intros f Hf. destruct (axis_bounds (map f pts)) as (_ & _ & _ & _ & S & _). destruct S as [E1 E2].
    - intros x I. apply in_axis in I. destruct I as (p & I & <-). auto.
    - rewrite E1, E2. reflexivity. }
  destruct H as [H|[H|H]].
  - now rewrite (A (@px _) H).
  - rewrite (A (@py _) H). now rewrite orb_true_r.
  - rewrite (A (@pz _) H). now rewrite !orb_true_r.
Qed.

(* ------------------------------------------------------------------ calculate_bounds *)

Lemma dec_f64 bs : exists f, dec_num PF64 bs = NFlt f /\ is_f64 f.
Proof. eexists. split; [reflexivity|]. apply (float_of_bits_f64 (le_dec bs)). Qed.
Lemma vec3_f64_ok v : p3_all is_f64 (vec3_f64 v).
Proof.
  unfold vec3_f64. destruct (dec_f64 (sub v (0 * 8) 8)) as (f & -> & F), (dec_f64 (sub v (1 * 8) 8)) as (g & -> & G), (dec_f64 (sub v (2 * 8) 8)) as (h & -> & H).
  repeat split; auto.
Qed.

Lemma nth_error_seq_map {A B} (g : A -> B) (l : list A) (f : nat -> res B) :
  (forall i a, nth_error l i = Some a -> f i = Ok (g a)) -> mapM f (seq 0 (length l)) = Ok (map g l).
Proof.
  assert (X : forall l k, (forall i a, nth_error l i = Some a -> f (k + i)%nat = Ok (g a)) -> mapM f (seq k (length l)) = Ok (map g l)).
  { induction l0 as [|a l0 IH]; intros k H; cbn [length seq mapM map]; auto.
    pose proof (H 0%nat a eq_refl) as H0. rewrite Nat.add_0_r in H0. rewrite H0. cbn [bind].
    rewrite (IH (S k)); [reflexivity|]. intros i b Hi. replace (S k + i)%nat with (k + S i)%nat by lia. now apply H. }
  intros H. apply X. exact H.
Qed.

Definition positions (b : buffer) (m : member) : list (p3 spec_float) := map (position m) (bf_points b).

Lemma calculate_bounds_views b m : bf_wf b -> bf_len b <> 0%nat -> In m (l_attrs (bf_layout b)) -> m_name m = ad_name POSITION_3D ->
  convertible (m_type m) Vec3f64 ->
  calculate_bounds b = (let* r := bounds_of f64_cmp F64_MAX F64_MIN (positions b m) in Ok (Some r)).
Proof.
  intros W NE Hm HN CV. pose proof (proj2 (proj2 (proj2 (bf_wf_root b W)))) as G. destruct (bf_points_uniform b W) as (_ & LEN).
  unfold calculate_bounds. destruct (Nat.eqb_spec (bf_len b) 0); [contradiction|].
  rewrite (proj2 (get_by_name_spec (bf_layout b) (ad_name POSITION_3D) m (proj1 (proj2 G))) (conj Hm HN)).
  change (ad_type POSITION_3D) with Vec3f64. destruct (datatype_eqb (m_type m) Vec3f64) eqn:E.
  - pose proof E as ET. apply datatype_eqb_eq in ET.
    assert (DEF : POSITION_3D = m_def m).
    { destruct m as [[nm ty] off sz]. unfold m_name, m_type in *. cbn [m_def ad_name ad_type] in *. subst. reflexivity. }
    unfold attribute_view at 1. change (datatype_eqb Vec3f64 (ad_type POSITION_3D)) with true. cbn [assert bind].
    change (get_attribute (bf_layout b) POSITION_3D) with (member_of (bf_layout b) POSITION_3D). rewrite DEF, (member_of_In _ _ G Hm). cbn [unwrap bind].
    assert (V : view_values b (attribute_view_at b (m_def m) Vec3f64) = Ok (map (attr_value m) (bf_points b))).
    { unfold view_values. rewrite <- LEN. apply nth_error_seq_map. intros i r Hr. rewrite <- ET.
      assert (L : (i < bf_len b)%nat) by (rewrite <- LEN; apply nth_error_Some; congruence).
      rewrite (proj2 (view_at b m i W Hm L)). now rewrite (nth_nth_error _ _ _ _ Hr). }
    rewrite V. cbn [bind]. unfold positions, position. rewrite map_map.
    rewrite (map_ext (fun x => vec3_f64 (attr_value m x)) (fun r => vec3_f64 match value_as (m_type m) Vec3f64 (attr_value m r) with Some v => v | None => [] end)); [reflexivity|].
    intros r. unfold value_as. now rewrite E.
  - assert (V : exists vs, view_values b (converting_view_at b POSITION_3D Vec3f64) = Ok vs /\ map vec3_f64 vs = positions b m).
    { exists (map (fun r => match value_as (m_type m) Vec3f64 (attr_value m r) with Some v => v | None => [] end) (bf_points b)).
      split; [|unfold positions, position; now rewrite map_map].
      unfold view_values. rewrite <- LEN. apply nth_error_seq_map. intros i r Hr.
      destruct (converting_view_ok b m POSITION_3D Vec3f64 i r W Hm HN eq_refl CV Hr) as (v & E1 & E2). now rewrite E1, E2. }
    destruct V as (vs & V & VP).
    assert (NB : exists x, converting_view (bf_layout b) POSITION_3D Vec3f64 = Ok x).
    { destruct (bf_points b) as [|r pts] eqn:P; [simpl in LEN; congruence|].
      assert (Hr : nth_error (bf_points b) 0 = Some r) by now rewrite P.
      destruct (converting_view_ok b m POSITION_3D Vec3f64 0%nat r W Hm HN eq_refl CV Hr) as (v & E1 & _).
      unfold converting_view_at in E1. destruct (converting_view (bf_layout b) POSITION_3D Vec3f64); eauto; discriminate. }
    destruct NB as [x NB]. rewrite NB, V. cbn [bind]. rewrite VP.
    destruct (bounds_of f64_cmp F64_MAX F64_MIN (positions b m)) eqn:B; cbn [bind]; auto.
    unfold bounds_of in B. destruct (fold_left _ _ _) in B. unfold from_min_max in B. destruct (_ || _) in B; discriminate.
Qed.

Lemma calculate_bounds_none b : bf_wf b ->
  bf_len b = 0%nat \/ (forall m, In m (l_attrs (bf_layout b)) -> m_name m <> ad_name POSITION_3D) -> calculate_bounds b = Ok None.
Proof.
  intros W H. pose proof (proj2 (proj2 (proj2 (bf_wf_root b W)))) as G. unfold calculate_bounds. destruct (Nat.eqb_spec (bf_len b) 0); [reflexivity|].
  destruct H as [H|H]; [contradiction|]. destruct (get_attribute_by_name (bf_layout b) (ad_name POSITION_3D)) as [m|] eqn:E; auto.
  apply get_by_name_spec in E; [|apply G]. destruct E. exfalso. now apply (H m).
Qed.

Lemma calculate_bounds_panics b m : bf_wf b -> bf_len b <> 0%nat -> In m (l_attrs (bf_layout b)) -> m_name m = ad_name POSITION_3D ->
  ~ convertible (m_type m) Vec3f64 -> calculate_bounds b = Panic.
Proof.
  intros W NE Hm HN CV. pose proof (proj2 (proj2 (proj2 (bf_wf_root b W)))) as G.
  unfold calculate_bounds. destruct (Nat.eqb_spec (bf_len b) 0); [contradiction|].
  rewrite (proj2 (get_by_name_spec (bf_layout b) (ad_name POSITION_3D) m (proj1 (proj2 G))) (conj Hm HN)).
  change (ad_type POSITION_3D) with Vec3f64. destruct (datatype_eqb (m_type m) Vec3f64) eqn:E.
  - apply datatype_eqb_eq in E. exfalso. apply CV. now left.
  - pose proof (converting_view_panics b POSITION_3D Vec3f64 0 G (or_intror (or_intror (ex_intro _ m (conj Hm (conj HN CV)))))) as P.
    unfold converting_view_at in P. unfold converting_view in P |- *. rewrite (proj2 (get_by_name_spec (bf_layout b) (ad_name POSITION_3D) m (proj1 (proj2 G))) (conj Hm HN)) in P |- *.
    change (ad_type POSITION_3D) with Vec3f64 in P |- *. change (datatype_eqb Vec3f64 Vec3f64) with true in P |- *. cbn [assert bind unwrap] in P |- *. rewrite E in P |- *.
    rewrite (converter_panics (m_def m) (with_custom_datatype POSITION_3D Vec3f64)); [reflexivity|]. right.
    split.
    + intros Q'. change (m_type m = Vec3f64) in Q'. rewrite Q' in E. discriminate.
    + intros S. apply CV. now right.
Qed.

Lemma positions_f64 b m p : In p (positions b m) -> p3_all is_f64 p.
Proof. intros I. apply in_map_iff in I. destruct I as (r & <- & _). apply vec3_f64_ok. Qed.

Lemma calculate_bounds_contains b m : bf_wf b -> bf_len b <> 0%nat -> In m (l_attrs (bf_layout b)) -> m_name m = ad_name POSITION_3D ->
  convertible (m_type m) Vec3f64 ->
  let ps := map (position m) (bf_points b) in
  (exists p, In p ps /\ not_nan (px p)) -> (exists p, In p ps /\ not_nan (py p)) -> (exists p, In p ps /\ not_nan (pz p)) ->
  exists r, calculate_bounds b = Ok (Some r) /\ proper f64_cmp not_nan r /\ forall p, In p ps -> p3_all not_nan p -> inside f64_cmp r p.
Proof.
  intros W NE Hm HN CV ps EX EY EZ. rewrite (calculate_bounds_views b m W NE Hm HN CV).
  destruct (bounds_contains ps EX EY EZ) as (r & E & P & C). unfold positions. fold ps. rewrite E. cbn [bind]. exists r. split; [reflexivity|]. split; auto.
  intros p I (N1 & N2 & N3). destruct (C p I) as (C1 & C2 & C3). unfold inside. auto.
Qed.
Lemma calculate_bounds_smallest b m : bf_wf b -> bf_len b <> 0%nat -> In m (l_attrs (bf_layout b)) -> m_name m = ad_name POSITION_3D ->
  convertible (m_type m) Vec3f64 ->
  let ps := map (position m) (bf_points b) in
  (forall p, In p ps -> p3_all finite p) ->
  exists r, calculate_bounds b = Ok (Some r) /\ smallest f64_cmp not_nan (fun p => In p ps) r /\ tight ps r.
Proof.
  intros W NE Hm HN CV ps F. rewrite (calculate_bounds_views b m W NE Hm HN CV). unfold positions. fold ps.
  destruct (bounds_smallest ps) as (r & E & S & T).
  - destruct (bf_points_uniform b W) as (_ & LEN). unfold ps. intros X. apply map_eq_nil in X. rewrite X in LEN. simpl in LEN. congruence.
  - intros p I. destruct (positions_f64 b m p I) as (V1 & V2 & V3), (F p I) as (F1 & F2 & F3). repeat split; auto.
  - rewrite E. cbn [bind]. eauto.
Qed.
Lemma calculate_bounds_nan b m : bf_wf b -> bf_len b <> 0%nat -> In m (l_attrs (bf_layout b)) -> m_name m = ad_name POSITION_3D ->
  convertible (m_type m) Vec3f64 ->
  let ps := map (position m) (bf_points b) in
  (forall p, In p ps -> px p = S754_nan) \/ (forall p, In p ps -> py p = S754_nan) \/ (forall p, In p ps -> pz p = S754_nan) ->
  calculate_bounds b = Panic.
Proof.
  intros W NE Hm HN CV ps H. rewrite (calculate_bounds_views b m W NE Hm HN CV). unfold positions. fold ps. now rewrite (bounds_panics ps H).
Qed.

(* ------------------------------------------------------------------ minmax_attribute *)

Definition int_num (n : num) : Prop := exists z, n = NInt z.
Definition flt_num (n : num) : Prop := exists f, n = NFlt f /\ not_nan f.

Lemma num_int_total : total_on num_cmp int_num.
Proof.
  destruct Z_total as (A & B & C). split; [|split].
  - intros x [z ->]. cbn [num_cmp]. now apply A.
  - intros x y [z ->] [z' ->]. cbn [num_cmp]. now apply B.
  - intros x y w [z ->] [z' ->] [z'' ->]. now apply (C z z' z'').
Qed.
Lemma num_flt_total : total_on num_cmp flt_num.
Proof.
  destruct SF_total as (A & B & C). split; [|split].
  - intros x (z & -> & N). cbn [num_cmp]. now apply A.
  - intros x y (z & -> & N) (z' & -> & N'). cbn [num_cmp]. now apply B.
  - intros x y w (z & -> & N) (z' & -> & N') (z'' & -> & N''). now apply (C z z' z'').
Qed.

Lemma infimum_mn v lo : infimum v lo = mn' num_cmp lo v.
Proof.
  unfold infimum, mn', infimum_f. destruct v as [a|f], lo as [b|g]; try reflexivity. unfold lt. cbn [num_cmp].
  destruct (Z.compare_spec a b); f_equal; lia.
Qed.
Lemma supremum_mx v hi : supremum v hi = mx' num_cmp hi v.
Proof.
  unfold supremum, mx', supremum_f. destruct v as [a|f], hi as [b|g]; try reflexivity. unfold gt. cbn [num_cmp].
  destruct (Z.compare_spec a b); f_equal; lia.
Qed.

Definition step (acc : option (list num * list num)) (v : list num) : option (list num * list num) :=
  match acc with None => Some (v, v) | Some (lo, hi) => Some (infimums v lo, supremums v hi) end.

Lemma nth_error_combine_map {A B C} (f : A * B -> C) xs ys k : nth_error (map f (combine xs ys)) k =
  match nth_error xs k, nth_error ys k with Some x, Some y => Some (f (x, y)) | _, _ => None end.
Proof.
  revert ys k. induction xs as [|x xs IH]; intros [|y ys] [|k]; simpl; auto.
  - now destruct (nth_error xs k).
Qed.

Lemma step_components n vs : (forall v, In v vs -> length v = n) -> forall lo hi, length lo = n -> length hi = n ->
  exists lo' hi', fold_left step vs (Some (lo, hi)) = Some (lo', hi') /\ length lo' = n /\ length hi' = n
    /\ forall k l h, (k < n)%nat -> nth_error lo k = Some l -> nth_error hi k = Some h ->
       nth_error lo' k = Some (fold_mn' num_cmp l (map (fun v => nth k v (NInt 0)) vs))
       /\ nth_error hi' k = Some (fold_mx' num_cmp h (map (fun v => nth k v (NInt 0)) vs)).
Proof.
  induction vs as [|v vs IH]; intros HL lo hi L1 L2; cbn [fold_left].
  - exists lo, hi. repeat split; auto.
  - cbn [step]. pose proof (HL v (or_introl eq_refl)) as Lv.
    destruct (IH (fun v I => HL v (or_intror I)) (infimums v lo) (supremums v hi)) as (lo' & hi' & E & L3 & L4 & N).
    + unfold infimums. rewrite map_length, combine_length. lia.
    + unfold supremums. rewrite map_length, combine_length. lia.
    + exists lo', hi'. split; auto. split; auto. split; auto. intros k l h Hk Hl Hh.
      assert (V : nth_error v k = Some (nth k v (NInt 0))) by (apply nth_error_nth'; lia).
      specialize (N k (infimum (nth k v (NInt 0)) l) (supremum (nth k v (NInt 0)) h) Hk).
      unfold infimums, supremums in N. rewrite !nth_error_combine_map, V, Hl, Hh in N. destruct (N eq_refl eq_refl) as [N1 N2].
      rewrite N1, N2, infimum_mn, supremum_mx. split; reflexivity.
Qed.

Lemma minmax_size t p n : minmax_type t = Some (p, n) -> (0 < n)%nat.
Proof. destruct t; simpl; intros [= <- <-]; lia. Qed.

Lemma minmax_values b m p n : bf_wf b -> In m (l_attrs (bf_layout b)) -> minmax_type (m_type m) = Some (p, n) ->
  minmax_attribute b (m_def m) (m_type m) = Ok (fold_left step (map (fun r => components p n (attr_value m r)) (bf_points b)) None).
Proof.
  intros W Hm HT. pose proof (proj2 (proj2 (proj2 (bf_wf_root b W)))) as G. destruct (bf_points_uniform b W) as (_ & LEN).
  unfold minmax_attribute.
  assert (HA : has_attribute_with_name (bf_layout b) (ad_name (m_def m)) = true).
  { unfold has_attribute_with_name. apply existsb_exists. exists m. split; auto. apply String.eqb_refl. }
  rewrite HA. cbn [assert bind]. rewrite HT. cbn [unwrap bind]. change (ad_type (m_def m)) with (m_type m). rewrite datatype_eqb_refl.
  unfold attribute_view at 1. change (ad_type (m_def m)) with (m_type m). rewrite datatype_eqb_refl. cbn [assert bind].
  change (get_attribute (bf_layout b) (m_def m)) with (member_of (bf_layout b) (m_def m)). rewrite (member_of_In _ _ G Hm). cbn [unwrap bind].
  assert (V : view_values b (attribute_view_at b (m_def m) (m_type m)) = Ok (map (attr_value m) (bf_points b))).
  { unfold view_values. rewrite <- LEN. apply nth_error_seq_map. intros i r Hr.
    assert (L : (i < bf_len b)%nat) by (rewrite <- LEN; apply nth_error_Some; congruence).
    rewrite (proj2 (view_at b m i W Hm L)). now rewrite (nth_nth_error _ _ _ _ Hr). }
  rewrite V. cbn [bind]. rewrite map_map. reflexivity.
Qed.

Lemma minmax_empty b m p n : bf_wf b -> In m (l_attrs (bf_layout b)) -> minmax_type (m_type m) = Some (p, n) -> bf_len b = 0%nat ->
  minmax_attribute b (m_def m) (m_type m) = Ok None.
Proof.
  intros W Hm HT E. rewrite (minmax_values b m p n W Hm HT). destruct (bf_points_uniform b W) as (_ & LEN).
  destruct (bf_points b); [reflexivity|simpl in LEN; lia].
Qed.

Lemma nth_components p n v k : (k < n)%nat -> nth k (components p n v) (NInt 0) = component_of p k v.
Proof.
  intros H. unfold components. rewrite (nth_indep _ _ (component_of p 0 v)) by (rewrite map_length, seq_length; lia).
  change (component_of p 0 v) with ((fun k => dec_num p (sub v (k * prim_size p)%nat (prim_size p))) 0%nat).
  rewrite map_nth, seq_nth by lia. reflexivity.
Qed.

Lemma component_kind p : (forall k v, int_num (component_of p k v)) \/ (forall k v, exists f, component_of p k v = NFlt f).
Proof.
  unfold component_of, dec_num, int_num. destruct (kind p); [left|right]; intros; eauto.
Qed.

Lemma minmax_components b m p n r0 rest : bf_wf b -> In m (l_attrs (bf_layout b)) -> minmax_type (m_type m) = Some (p, n) -> bf_points b = r0 :: rest ->
  exists lo hi, minmax_attribute b (m_def m) (m_type m) = Ok (Some (lo, hi)) /\ length lo = n /\ length hi = n
  /\ forall k, (k < n)%nat -> exists l h, nth_error lo k = Some l /\ nth_error hi k = Some h /\
     let c r := component_of p k (attr_value m r) in
     l = fold_mn' num_cmp (c r0) (map c rest) /\ h = fold_mx' num_cmp (c r0) (map c rest).
Proof.
  intros W Hm HT EP. rewrite (minmax_values b m p n W Hm HT), EP. cbn [map fold_left]. change (step None (components p n (attr_value m r0))) with
    (Some (components p n (attr_value m r0), components p n (attr_value m r0))).
  assert (LC : forall v, length (components p n v) = n) by (intros v; unfold components; now rewrite map_length, seq_length).
  destruct (step_components n (map (fun r => components p n (attr_value m r)) rest)) with (lo := components p n (attr_value m r0)) (hi := components p n (attr_value m r0))
    as (lo & hi & E & L1 & L2 & N); auto.
  { intros v I. apply in_map_iff in I. destruct I as (r & <- & _). apply LC. }
  exists lo, hi. rewrite E. repeat (split; auto). intros k Hk.
  assert (V : nth_error (components p n (attr_value m r0)) k = Some (component_of p k (attr_value m r0))).
  { rewrite <- (nth_components p n _ k Hk). apply nth_error_nth'. now rewrite LC. }
  destruct (N k _ _ Hk V V) as [N1 N2]. rewrite map_map in N1, N2.
  rewrite (map_ext _ (fun r => component_of p k (attr_value m r))) in N1, N2 by (intros r; now apply nth_components).
  eauto 8.
Qed.

Lemma minmax_spec b m p n r0 rest : bf_wf b -> In m (l_attrs (bf_layout b)) -> minmax_type (m_type m) = Some (p, n) -> bf_points b = r0 :: rest ->
  exists lo hi, minmax_attribute b (m_def m) (m_type m) = Ok (Some (lo, hi)) /\ length lo = n /\ length hi = n
  /\ forall k, (k < n)%nat -> exists l h, nth_error lo k = Some l /\ nth_error hi k = Some h /\
     let c r := component_of p k (attr_value m r) in
     if_number (c r0)
       ((forall r, In r (bf_points b) -> is_number (c r) -> num_le l (c r) /\ num_le (c r) h)
        /\ (exists r, In r (bf_points b) /\ c r = l) /\ (exists r, In r (bf_points b) /\ c r = h))
       (l = NFlt S754_nan /\ h = NFlt S754_nan).
Proof.
  intros W Hm HT EP. destruct (minmax_components b m p n r0 rest W Hm HT EP) as (lo & hi & E & L1 & L2 & N).
  exists lo, hi. repeat (split; auto). intros k Hk. destruct (N k Hk) as (l & h & N1 & N2 & N3 & N4). exists l, h. repeat (split; auto).
  intros c. change (l = fold_mn' num_cmp (c r0) (map c rest)) in N3. change (h = fold_mx' num_cmp (c r0) (map c rest)) in N4. rewrite EP.
  assert (GEN : forall D, total_on num_cmp D -> D (c r0) -> Forall (fun x => D x \/ incomparable num_cmp x) (map c rest) -> (forall r, is_number (c r) -> D (c r)) ->
    (forall r, In r (r0 :: rest) -> is_number (c r) -> num_le l (c r) /\ num_le (c r) h)
    /\ (exists r, In r (r0 :: rest) /\ c r = l) /\ (exists r, In r (r0 :: rest) /\ c r = h)).
  { intros D T D0 F DN. destruct (fold_mn'_facts num_cmp D T _ _ D0 F) as (A1 & A2 & A3 & A4), (fold_mx'_facts num_cmp D T _ _ D0 F) as (B1 & B2 & B3 & B4).
    rewrite <- N3 in A1, A2, A3, A4. rewrite <- N4 in B1, B2, B3, B4. split; [|split].
    - intros r [<-|I] Nr; [split; [exact A2|exact B2]|]. split; [apply A3|apply B3]; auto; now apply (in_map c).
    - destruct A4 as [->|I]; [exists r0; split; auto; now left|]. apply in_map_iff in I. destruct I as (r & Er & I). exists r. split; auto. now right.
    - destruct B4 as [->|I]; [exists r0; split; auto; now left|]. apply in_map_iff in I. destruct I as (r & Er & I). exists r. split; auto. now right. }
  destruct (component_kind p) as [K|K].
  - unfold if_number. destruct (c r0) as [z|f] eqn:C0; [|destruct (K k (attr_value m r0)) as [z Z0]; unfold c in C0; congruence].
    apply (GEN int_num); auto using num_int_total.
    + rewrite <- C0. apply K.
    + apply Forall_forall. intros x I. apply in_map_iff in I. destruct I as (r & <- & _). left. apply K.
    + intros r _. apply K.
  - unfold if_number. destruct (K k (attr_value m r0)) as [f0 C0]. change (c r0 = NFlt f0) in C0. rewrite C0 in *.
    destruct (not_nan_dec f0) as [NN| ->].
    + assert (X : (forall r, In r (r0 :: rest) -> is_number (c r) -> num_le l (c r) /\ num_le (c r) h)
         /\ (exists r, In r (r0 :: rest) /\ c r = l) /\ (exists r, In r (r0 :: rest) /\ c r = h)).
      { apply (GEN flt_num); auto using num_flt_total.
        - exists f0. auto.
        - apply Forall_forall. intros x I. apply in_map_iff in I. destruct I as (r & <- & _). destruct (K k (attr_value m r)) as [f Cf]. change (c r = NFlt f) in Cf.
          destruct (not_nan_dec f) as [NF| ->]; [left; exists f; auto|right; rewrite Cf]. intros [z|g]; [reflexivity|]. now destruct g.
        - intros r Nr. destruct (K k (attr_value m r)) as [f Cf]. change (c r = NFlt f) in Cf. exists f. split; auto. intros ->. now apply Nr. }
      destruct f0; auto. now destruct NN.
    + rewrite N3, N4. split; [apply fold_mn'_stays|apply fold_mx'_stays]; intros x I; apply in_map_iff in I; destruct I as (r & <- & _);
        destruct (K k (attr_value m r)) as [f Cf]; change (c r = NFlt f) in Cf; rewrite Cf; unfold lt, gt; cbn [num_cmp]; now destruct f.
Qed.

Lemma minmax_panics b a t : bf_wf b -> t <> ad_type a \/ member_of (bf_layout b) a = None -> minmax_attribute b a t = Panic.
Proof.
  intros W H. unfold minmax_attribute. destruct (has_attribute_with_name _ _); [|reflexivity]. cbn [assert bind].
  destruct (minmax_type t) as [[p n]|]; [|reflexivity]. cbn [unwrap bind]. destruct (datatype_eqb t (ad_type a)) eqn:E.
  - destruct H as [H|H]; [apply datatype_eqb_eq in E; contradiction|]. unfold attribute_view at 1. rewrite E. cbn [assert bind].
    change (get_attribute (bf_layout b) a) with (member_of (bf_layout b) a). now rewrite H.
  - unfold converting_view. rewrite E. reflexivity.
Qed.

(* ------------------------------------------------------------------ bits *)

Lemma shl64_testbit v k n : 0 <= k -> 0 <= n -> Z.testbit (shl64 v k) n = (n <? 64) && Z.testbit v (n - k).
Proof.
  intros Hk Hn. unfold shl64. destruct (Z.ltb_spec n 64).
  - rewrite Z.mod_pow2_bits_low by lia. rewrite Z.shiftl_spec by lia. reflexivity.
  - now rewrite Z.mod_pow2_bits_high by lia.
Qed.

(* one step on bits *)
Definition spread (k mask : Z) (f : Z -> bool) (n : Z) : bool := Z.testbit mask n && (f n || ((n <? 64) && ((0 <=? n - k) && f (n - k)))).
Lemma spread_ok v f k mask : 0 <= k -> (forall n, 0 <= n -> Z.testbit v n = f n) ->
  forall n, 0 <= n -> Z.testbit (Z.land (Z.lor v (shl64 v k)) mask) n = spread k mask f n.
Proof.
  intros Hk H n Hn. unfold spread. rewrite Z.land_spec, Z.lor_spec, shl64_testbit by lia. rewrite andb_comm. f_equal. rewrite (H n Hn). f_equal. f_equal.
  destruct (Z.leb_spec 0 (n - k)); [apply H; lia|]. now rewrite Z.testbit_neg_r.
Qed.

Lemma small_cases (P : Z -> Prop) : (forall k, (k < 64)%nat -> P (Z.of_nat k)) -> forall n, 0 <= n < 64 -> P n.
Proof. intros H n Hn. rewrite <- (Z2Nat.id n) by lia. apply H. lia. Qed.

Definition expanded (f : Z -> bool) : Z -> bool :=
  spread 2 0x1249249249249249 (spread 4 0x30C30C30C30C30C3 (spread 8 0xF00F00F00F00F00F (spread 16 0x00FF0000FF0000FF (spread 32 0x00FF00000000FFFF
    (fun n => Z.testbit 0x1FFFFF n && f n))))).

Lemma expand_spread v n : 0 <= n -> Z.testbit (expand_bits_by_3 v) n = expanded (Z.testbit v) n.
Proof.
  intros Hn. unfold expand_bits_by_3, expanded. cbv zeta.
  apply spread_ok; [lia| |exact Hn]. intros k1 H1. apply spread_ok; [lia| |exact H1]. intros k2 H2. apply spread_ok; [lia| |exact H2].
  intros k3 H3. apply spread_ok; [lia| |exact H3]. intros k4 H4. apply spread_ok; [lia| |exact H4]. intros k5 H5. rewrite Z.land_spec. apply andb_comm.
Qed.

Lemma expanded_bits f n : 0 <= n < 64 -> expanded f n = (n mod 3 =? 0) && (n <? 63) && f (n / 3).
Proof.
  revert n. apply small_cases. intros k Hk.
  do 64 (destruct k as [|k]; [cbv; try reflexivity; repeat match goal with |- context [f ?i] => destruct (f i) end; reflexivity|]). lia.
Qed.

Lemma expand_bits v n : 0 <= n -> Z.testbit (expand_bits_by_3 v) n = (n mod 3 =? 0) && (n <? 63) && Z.testbit v (n / 3).
Proof.
  intros Hn. rewrite expand_spread by lia. destruct (Z.ltb_spec n 64).
  - now apply expanded_bits.
  - destruct (Z.ltb_spec n 63); [lia|]. rewrite andb_false_r. cbn [andb]. unfold expanded. unfold spread at 1.
    rewrite (Z.bits_above_log2 0x1249249249249249); [reflexivity|lia|]. apply Z.lt_le_trans with 64; [reflexivity|lia].
Qed.

Lemma expand_range v : 0 <= expand_bits_by_3 v < 2 ^ 64.
Proof.
  assert (P : 0 <= expand_bits_by_3 v).
  { unfold expand_bits_by_3. cbv zeta. apply Z.land_nonneg. right. lia. }
  split; auto. destruct (Z.eq_dec (expand_bits_by_3 v) 0) as [->|N]; [reflexivity|].
  apply Z.log2_lt_pow2; [lia|]. destruct (Z.lt_ge_cases (Z.log2 (expand_bits_by_3 v)) 64); auto. exfalso.
  pose proof (Z.bit_log2 (expand_bits_by_3 v) ltac:(lia)) as B. rewrite expand_bits in B by lia.
  destruct (Z.ltb_spec (Z.log2 (expand_bits_by_3 v)) 63); [lia|]. rewrite andb_false_r in B. discriminate.
Qed.

(* reversing one byte *)
Lemma byte_table : forallb (fun b => match nth_error REVERSE_BITS_LOOKUP b with
    | Some r => (0 <=? r) && (r <? 256) && forallb (fun i => Bool.eqb (Z.testbit r (Z.of_nat i)) (Z.testbit (Z.of_nat b) (7 - Z.of_nat i))) (seq 0 8)
    | None => false end) (seq 0 256) = true.
Proof. vm_compute. reflexivity. Qed.

Lemma reverse_byte_ok b : 0 <= b < 256 -> exists r, reverse_byte b = Ok r /\ 0 <= r < 256 /\ forall i, 0 <= i < 8 -> Z.testbit r i = Z.testbit b (7 - i).
Proof.
  intros Hb. pose proof byte_table as T. rewrite forallb_forall in T. specialize (T (Z.to_nat b)). rewrite in_seq in T.
  specialize (T ltac:(lia)). unfold reverse_byte. destruct (nth_error REVERSE_BITS_LOOKUP (Z.to_nat b)) as [r|]; [|discriminate].
  rewrite !andb_true_iff, forallb_forall in T. destruct T as ((T1 & T2) & T3). exists r. split; [reflexivity|]. split; [lia|].
  intros i Hi. specialize (T3 (Z.to_nat i)). rewrite in_seq in T3. specialize (T3 ltac:(lia)). apply Bool.eqb_prop in T3. now rewrite !Z2Nat.id in T3 by lia.
Qed.

Lemma byte_of v k : 0 <= Z.land (Z.shiftr v k) 0xFF < 256.
Proof. change 0xFF with (Z.ones 8). rewrite Z.land_ones by lia. apply Z.mod_pos_bound. lia. Qed.

Lemma byte_bit v k i : 0 <= k -> 0 <= i < 8 -> Z.testbit (Z.land (Z.shiftr v k) 0xFF) i = Z.testbit v (k + i).
Proof.
  intros Hk Hi. change 0xFF with (Z.ones 8). rewrite Z.land_spec, Z.ones_spec_low, andb_true_r, Z.shiftr_spec by lia. f_equal. lia.
Qed.

Lemma small_high r i : 0 <= r < 256 -> 8 <= i -> Z.testbit r i = false.
Proof.
  intros Hr Hi. rewrite <- (Z.mod_small r (2 ^ 8)) by (change (2 ^ 8) with 256; lia). apply Z.mod_pow2_bits_high. lia.
Qed.

Lemma reverse_ok v : exists r, reverse_bits v = Ok r /\ 0 <= r < 2 ^ 64 /\ forall i, 0 <= i < 64 -> Z.testbit r i = Z.testbit v (63 - i).
Proof.
  assert (X0 : Z.land v 0xFF = Z.land (Z.shiftr v 0) 0xFF) by now rewrite Z.shiftr_0_r.
  unfold reverse_bits. rewrite X0.
  destruct (reverse_byte_ok _ (byte_of v 0)) as (r0 & -> & R0 & B0), (reverse_byte_ok _ (byte_of v 8)) as (r1 & -> & R1 & B1),
    (reverse_byte_ok _ (byte_of v 16)) as (r2 & -> & R2 & B2), (reverse_byte_ok _ (byte_of v 24)) as (r3 & -> & R3 & B3),
    (reverse_byte_ok _ (byte_of v 32)) as (r4 & -> & R4 & B4), (reverse_byte_ok _ (byte_of v 40)) as (r5 & -> & R5 & B5),
    (reverse_byte_ok _ (byte_of v 48)) as (r6 & -> & R6 & B6), (reverse_byte_ok _ (byte_of v 56)) as (r7 & -> & R7 & B7).
  cbn [bind]. eexists. split; [reflexivity|].
  assert (BITS : forall i, 0 <= i -> Z.testbit (Z.lor (Z.lor (Z.lor (Z.lor (Z.lor (Z.lor (Z.lor (shl64 r0 56) (shl64 r1 48)) (shl64 r2 40)) (shl64 r3 32))
       (shl64 r4 24)) (shl64 r5 16)) (shl64 r6 8)) r7) i = (i <? 64) && Z.testbit v (63 - i)).
  { intros i Hi. rewrite !Z.lor_spec, !shl64_testbit by lia.
    assert (P : forall r k, 0 <= k -> 0 <= r < 256 -> (forall j, 0 <= j < 8 -> Z.testbit r j = Z.testbit (Z.land (Z.shiftr v k) 0xFF) (7 - j)) ->
       forall j, Z.testbit r j = (0 <=? j) && (j <? 8) && Z.testbit v (k + 7 - j)).
    { intros r k Hk Hr Hj j. destruct (Z.leb_spec 0 j); [|now rewrite Z.testbit_neg_r]. destruct (Z.ltb_spec j 8); [|now apply small_high].
      rewrite Hj, byte_bit by lia. cbn [andb]. f_equal. lia. }
    rewrite (P r0 0), (P r1 8), (P r2 16), (P r3 24), (P r4 32), (P r5 40), (P r6 48), (P r7 56) by (auto; lia).
    destruct (Z.ltb_spec i 64); cbn [andb].
    - replace (0 + 7 - (i - 56)) with (63 - i) by lia. replace (8 + 7 - (i - 48)) with (63 - i) by lia. replace (16 + 7 - (i - 40)) with (63 - i) by lia.
      replace (24 + 7 - (i - 32)) with (63 - i) by lia. replace (32 + 7 - (i - 24)) with (63 - i) by lia. replace (40 + 7 - (i - 16)) with (63 - i) by lia.
      replace (48 + 7 - (i - 8)) with (63 - i) by lia. replace (56 + 7 - i) with (63 - i) by lia.
      destruct (Z.testbit v (63 - i)); rewrite ?andb_true_r, ?andb_false_r; [|reflexivity]. lia.
    - destruct (Z.ltb_spec i 8); [lia|]. now rewrite andb_false_r. }
  split.
  - match goal with |- 0 <= ?r < _ => set (R := r) in * end.
    assert (P : 0 <= R).
    { apply Z.bits_iff_nonneg_ex. exists 64. intros i Hi. rewrite BITS by lia. destruct (Z.ltb_spec i 64); [lia|reflexivity]. }
    split; auto. destruct (Z.eq_dec R 0) as [->|N]; [reflexivity|].
    apply Z.log2_lt_pow2; [lia|]. destruct (Z.lt_ge_cases (Z.log2 R) 64); auto. exfalso.
    pose proof (Z.bit_log2 R ltac:(lia)) as B. rewrite BITS in B by lia. destruct (Z.ltb_spec (Z.log2 R) 64); [lia|discriminate].
  - intros i Hi. rewrite BITS by lia. destruct (Z.ltb_spec i 64); [reflexivity|lia].
Qed.

Lemma reverse_involution v : 0 <= v < 2 ^ 64 -> exists r, reverse_bits v = Ok r /\ reverse_bits r = Ok v.
Proof.
  intros Hv. destruct (reverse_ok v) as (r & E & R & B). destruct (reverse_ok r) as (r' & E' & R' & B').
  exists r. split; auto. rewrite E'. f_equal. apply Z.bits_inj'. intros i Hi. destruct (Z.lt_ge_cases i 64).
  - rewrite B', B by lia. f_equal. lia.
  - rewrite <- (Z.mod_small v (2 ^ 64)), <- (Z.mod_small r' (2 ^ 64)) by lia. now rewrite !Z.mod_pow2_bits_high by lia.
Qed.

(* ------------------------------------------------------------------ as_cubic over exact numbers *)

Lemma q_le x y : le q_cmp x y = true <-> (x <= y)%Q.
Proof.
  unfold le, q_cmp. rewrite Qle_alt. destruct (x ?= y)%Q; split; intros; try discriminate; try reflexivity; congruence.
Qed.
Lemma q_max x y : (x <= (if gt q_cmp x y then x else y) /\ y <= (if gt q_cmp x y then x else y))%Q.
Proof.
  unfold gt, q_cmp. destruct (Qcompare_spec x y) as [E|E|E]; split; lra.
Qed.

Lemma cubic_contains b p : proper q_cmp (fun _ => True) b -> inside q_cmp b p -> inside q_cmp (q_as_cubic b) p.
Proof.
  intros (_ & _ & P1 & P2 & P3) ((A1 & A2) & (A3 & A4) & (A5 & A6)). rewrite q_le in A1, A2, A3, A4, A5, A6, P1, P2, P3. unfold inside. rewrite !q_le.
  unfold q_as_cubic, as_cubic, extent, center. cbn [b_min b_max px py pz].
  set (ex := (px (b_max b) - px (b_min b))%Q) in *. set (ey := (py (b_max b) - py (b_min b))%Q) in *. set (ez := (pz (b_max b) - pz (b_min b))%Q) in *.
  destruct (q_max ey ez) as [Q1 Q2]. set (e1 := if gt q_cmp ey ez then ey else ez) in *. destruct (q_max ex e1) as [Q3 Q4].
  set (e2 := if gt q_cmp ex e1 then ex else e1) in *. unfold ex in Q3. unfold ey in Q1. unfold ez in Q2. clearbody e1 e2.
  assert (H : forall x, (x / 2 == x * (1#2))%Q) by (intros; field). rewrite !H. repeat split; lra.
Qed.
Lemma cubic_is_cubic b : let c := q_as_cubic b in
  let edges x := [px (b_max x) - px (b_min x); py (b_max x) - py (b_min x); pz (b_max x) - pz (b_min x)]%Q in
  exists e, In e (edges b) /\ (forall x, In x (edges b) -> x <= e)%Q /\ (forall x, In x (edges c) -> x == e)%Q
  /\ (px (b_min c) + px (b_max c) == px (b_min b) + px (b_max b))%Q /\ (py (b_min c) + py (b_max c) == py (b_min b) + py (b_max b))%Q
  /\ (pz (b_min c) + pz (b_max c) == pz (b_min b) + pz (b_max b))%Q.
Proof.
  intros c edges. unfold c, q_as_cubic, as_cubic, extent, center, edges. cbn [b_min b_max px py pz].
  set (ex := (px (b_max b) - px (b_min b))%Q). set (ey := (py (b_max b) - py (b_min b))%Q). set (ez := (pz (b_max b) - pz (b_min b))%Q).
  destruct (q_max ey ez) as [Q1 Q2]. assert (M1 : In (if gt q_cmp ey ez then ey else ez) [ey; ez]) by (destruct (gt q_cmp ey ez); simpl; auto).
  set (e1 := if gt q_cmp ey ez then ey else ez) in *. destruct (q_max ex e1) as [Q3 Q4].
  assert (M2 : In (if gt q_cmp ex e1 then ex else e1) [ex; ey; ez]) by (destruct (gt q_cmp ex e1); [now left|now right]).
  set (e2 := if gt q_cmp ex e1 then ex else e1) in *. exists e2. split; [exact M2|].
  assert (H : forall x, (x / 2 == x * (1#2))%Q) by (intros; field).
  split; [|split].
  - intros x [<-|[<-|[<-|[]]]]; lra.
  - intros x [<-|[<-|[<-|[]]]]; rewrite !H; ring.
  - rewrite !H. repeat split; ring.
Qed.
