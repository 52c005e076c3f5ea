From Coq Require Import String List ZArith Reals Lia Lra Bool Arith SpecFloat.
From Flocq Require Import Core BinarySingleNaN.
From Verif Require Import Base ListLemmas MathModel MathSpec SegModel VoxModel VoxSpec FloatReal F64Real.
Import ListNotations.
Open Scope nat_scope.

(* ---- rounding ---- *)
Lemma rnd_mono x y : (x <= y)%R -> (clamp64 (rnd64 x) <= clamp64 (rnd64 y))%R.
Proof. intros H. apply clamp_le. apply (rnd_le 53 1024 H53). exact H. Qed.
Lemma rnd_id x : real_f64 x -> clamp64 (rnd64 (val x)) = val x.
Proof.
  intros (F & V). apply f64_valid in V. unfold rnd64, val. rewrite (rnd_value 53 1024 x V). apply clamp_id.
  apply (value_in_range 53 1024 x V).
Qed.
Lemma rnd_zero : clamp64 (rnd64 0) = 0%R.
Proof. unfold rnd64. rewrite rnd_0. apply clamp_id. unfold in_range. rewrite Rabs_R0. apply bpow_gt_0. Qed.
Lemma rnd_neg x : clamp64 (rnd64 (- x)) = (- clamp64 (rnd64 x))%R.
Proof. unfold rnd64, clamp64. rewrite rnd_opp. apply clamp_opp. Qed.

Lemma sub_mono a b p : is_f64 a -> is_f64 b -> not_nan a -> not_nan b -> real_f64 p -> (- top < rank64 a)%R -> (rank64 a <= rank64 b)%R ->
  (rank64 (f64_sub a p) <= rank64 (f64_sub b p))%R.
Proof.
  intros Va Vb Na Nb P La L. pose proof (rank_range b Vb) as Rb. destruct (Rlt_or_le (rank64 b) top) as [Fb|Fb].
  - assert (A : real_f64 a) by (apply rank_inner; auto; lra). assert (B : real_f64 b) by (apply rank_inner; auto; lra).
    rewrite (proj1 (sub_rank a p A P)), (proj1 (sub_rank b p B P)). apply rnd_mono. rewrite (rank_real a A), (rank_real b B) in L. lra.
  - rewrite (rank_top b Vb Nb) by lra. destruct P as (Fp & Vp). assert (E : f64_sub (S754_infinity false) p = S754_infinity false) by (destruct p; try contradiction; reflexivity).
    rewrite E. apply (rank_range (f64_sub a p)). now apply sub_f64.
Qed.
(* the computed distance from p *)
Definition away (p m : spec_float) : R := rank64 (SFabs (f64_sub p m)).
Lemma away_above p m : is_f64 m -> not_nan m -> real_f64 p -> (val p <= rank64 m)%R -> away p m = rank64 (f64_sub m p) /\ not_nan (f64_sub p m).
Proof.
  intros V N P L. unfold away. rewrite rank_abs64. destruct (Rlt_or_le (rank64 m) top) as [F|F].
  - pose proof (val_range p P). assert (M : real_f64 m) by (apply rank_inner; auto; lra). rewrite (rank_real m M) in L.
    destruct (sub_rank p m P M) as (E & NN). split; auto. rewrite E, (proj1 (sub_rank m p M P)).
    replace (val p - val m)%R with (- (val m - val p))%R by ring. rewrite rnd_neg, Rabs_Ropp. apply Rabs_pos_eq.
    rewrite <- rnd_zero. apply rnd_mono. lra.
  - pose proof (rank_range m V). rewrite (rank_top m V N) by lra. destruct P as (Fp & Vp). assert (E1 : f64_sub p (S754_infinity false) = S754_infinity true) by (destruct p; try contradiction; reflexivity).
    assert (E2 : f64_sub (S754_infinity false) p = S754_infinity false) by (destruct p; try contradiction; reflexivity).
    rewrite E1, E2. split; [|discriminate]. change (rank64 (S754_infinity true)) with (- top)%R. change (rank64 (S754_infinity false)) with top.
    rewrite Rabs_Ropp. apply Rabs_pos_eq. apply Rlt_le, top_positive.
Qed.
Lemma away_below p m : real_f64 m -> real_f64 p -> (val m <= val p)%R ->
  away p m = rank64 (f64_sub p m) /\ away p m = clamp64 (rnd64 (val p - val m)) /\ not_nan (f64_sub p m).
Proof.
  intros M P L. destruct (sub_rank p m P M) as (E & NN). unfold away. rewrite rank_abs64, E.
  rewrite Rabs_pos_eq; [auto|]. rewrite <- rnd_zero. apply rnd_mono. lra.
Qed.
Lemma away_leb p m m' : is_f64 p -> is_f64 m -> is_f64 m' -> not_nan (f64_sub p m) -> not_nan (f64_sub p m') ->
  (away p m <= away p m')%R -> SFleb (SFabs (f64_sub p m)) (SFabs (f64_sub p m')) = true.
Proof.
  intros P M M' N N' L. apply leb_rank; [apply abs_f64; now apply sub_f64|apply abs_f64; now apply sub_f64|now apply (abs_nan)|now apply abs_nan|exact L].
Qed.

(* ---- the markers ---- *)
Lemma marker_succ_r lo leaf k : marker lo leaf (S k) = marker (f64_add lo leaf) leaf k.
Proof. unfold marker. induction k as [|k IH]; [reflexivity|]. cbn [Nat.iter nat_rect] in *. unfold Nat.iter in *. cbn [nat_rect] in *. now rewrite <- IH. Qed.
Lemma axis_markers_grid fuel : forall lo hi leaf ms, axis_markers fuel lo hi leaf = Some ms -> axis_grid lo hi leaf ms.
Proof.
  induction fuel as [|fuel IH]; intros lo hi leaf ms E; cbn [axis_markers] in E; destruct (SFltb lo hi) eqn:L; try discriminate.
  - injection E as <-. split; [intros k H; cbn in H; lia|exact L].
  - destruct (axis_markers fuel (f64_add lo leaf) hi leaf) as [ms'|] eqn:E'; [|discriminate]. cbn in E. injection E as <-.
    apply IH in E'. destruct E' as (G & EN). split.
    + intros [|k] K; [split; [reflexivity|exact L]|]. cbn [length] in K. destruct (G k ltac:(lia)) as (A & C). rewrite !marker_succ_r. cbn [nth_error]. split; auto.
      rewrite <- marker_succ_r. exact A.
    + cbn [length]. rewrite marker_succ_r. exact EN.
  - injection E as <-. split; [intros k H; cbn in H; lia|exact L].
Qed.
Lemma axis_markers_more fuel : forall k lo hi leaf ms, axis_markers fuel lo hi leaf = Some ms -> axis_markers (fuel + k) lo hi leaf = Some ms.
Proof.
  induction fuel as [|fuel IH]; intros k lo hi leaf ms E; cbn [axis_markers] in E; destruct (SFltb lo hi) eqn:L; try discriminate.
  - injection E as <-. destruct k; cbn [axis_markers Nat.add]; now rewrite L.
  - cbn [Nat.add axis_markers]. rewrite L. destruct (axis_markers fuel (f64_add lo leaf) hi leaf) as [ms'|] eqn:E'; [|discriminate].
    now rewrite (IH k _ _ _ _ E').
  - cbn [Nat.add axis_markers]. now rewrite L.
Qed.

Lemma positive_val leaf : positive_f64 leaf -> (0 < val leaf)%R.
Proof.
  intros (R & P). apply ltb_rank in P; [|exact I|apply R|discriminate|now apply real_not_nan].
  rewrite (rank_real leaf R) in P. change (rank64 (S754_zero false)) with 0%R in P. exact P.
Qed.
Lemma step_up c leaf : real_f64 c -> positive_f64 leaf ->
  is_f64 (f64_add c leaf) /\ not_nan (f64_add c leaf) /\ (rank64 c <= rank64 (f64_add c leaf))%R.
Proof.
  intros C P. pose proof (positive_val leaf P) as L. destruct P as (P & _). destruct (add_rank c leaf C P) as (E & N). split; [apply add_f64; [apply C|apply P]|].
  split; auto. rewrite E, (rank_real c C). rewrite <- (rnd_id c C) at 1. apply rnd_mono. lra.
Qed.

Section Axis.
Variables lo hi leaf : spec_float.
Variable ms : list spec_float.
Hypothesis Hlo : real_f64 lo.
Hypothesis Hhi : real_f64 hi.
Hypothesis Hleaf : positive_f64 leaf.
Hypothesis Hg : axis_grid lo hi leaf ms.

Lemma marker_facts k : k <= length ms ->
  is_f64 (marker lo leaf k) /\ not_nan (marker lo leaf k) /\ (rank64 lo <= rank64 (marker lo leaf k))%R /\ (k < length ms -> real_f64 (marker lo leaf k)).
Proof.
  assert (IN : forall k, k < length ms -> is_f64 (marker lo leaf k) -> not_nan (marker lo leaf k) -> (rank64 lo <= rank64 (marker lo leaf k))%R -> real_f64 (marker lo leaf k)).
  { intros j L V N R. destruct (proj1 Hg j L) as (_ & T). apply ltb_rank in T; auto; [|apply Hhi|now apply real_not_nan].
    pose proof (rank_range hi (proj2 Hhi)). pose proof (val_range lo Hlo). rewrite (rank_real lo Hlo) in R. apply rank_inner; auto. lra. }
  induction k as [|k IH]; intros L.
  - assert (A : is_f64 lo) by apply Hlo. assert (N : not_nan lo) by now apply real_not_nan. repeat split; auto using Rle_refl.
    all: intros; now apply Hlo.
  - destruct IH as (V & N & R & F); [lia|]. specialize (F ltac:(lia)). destruct (step_up (marker lo leaf k) leaf F Hleaf) as (V' & N' & R').
    change (f64_add (marker lo leaf k) leaf) with (marker lo leaf (S k)) in *. split; auto. split; auto. assert (Q : (rank64 lo <= rank64 (marker lo leaf (S k)))%R) by lra.
    split; auto.
Qed.
Lemma marker_mono k j : k <= j -> j <= length ms -> (rank64 (marker lo leaf k) <= rank64 (marker lo leaf j))%R.
Proof.
  intros KJ. induction KJ as [|j KJ IH]; intros L; [lra|]. specialize (IH ltac:(lia)).
  destruct (marker_facts j ltac:(lia)) as (_ & _ & _ & F). destruct (step_up (marker lo leaf j) leaf (F ltac:(lia)) Hleaf) as (_ & _ & R).
  change (f64_add (marker lo leaf j) leaf) with (marker lo leaf (S j)) in R. lra.
Qed.
Lemma nth_marker k m : nth_error ms k = Some m -> k < length ms /\ m = marker lo leaf (S k).
Proof.
  intros E. assert (L : k < length ms) by (apply nth_error_Some; congruence). split; auto. destruct (proj1 Hg k L) as (A & _). congruence.
Qed.
Lemma marker_last : (rank64 hi <= rank64 (marker lo leaf (length ms)))%R.
Proof.
  destruct (marker_facts (length ms) ltac:(lia)) as (V & N & _). apply ltb_rank_false; auto; [apply Hhi|now apply real_not_nan|apply (proj2 Hg)].
Qed.

Lemma scan_finds l p : forall i k m, nth_error l k = Some m -> SFltb m p = false ->
  exists j m', scan l p i = Ok (i + j) /\ nth_error l j = Some m' /\ SFltb m' p = false /\ forall k' m'', k' < j -> nth_error l k' = Some m'' -> SFltb m'' p = true.
Proof.
  induction l as [|a l IH]; intros i k m E F; [destruct k; discriminate|]. cbn [scan]. destruct (SFltb a p) eqn:L.
  - destruct k as [|k]; [cbn in E; congruence|]. destruct (IH (S i) k m E F) as (j & m' & A & C & D & G). exists (S j), m'.
    rewrite A. split; [f_equal; lia|]. split; auto. split; auto. intros [|k'] m'' K E'; [cbn in E'; congruence|]. apply (G k'); auto. lia.
  - exists 0, a. rewrite Nat.add_0_r. split; auto. split; auto. split; auto. intros; lia.
Qed.

Lemma find_axis_nearest p : real_f64 p -> SFleb lo p = true -> SFleb p hi = true -> exists k, find_axis ms p = Ok k /\ nearest ms p k.
Proof.
  intros P LO HI. pose proof (real_not_nan p P) as NP. apply leb_rank in LO; auto; [|apply Hlo|apply P|now apply real_not_nan].
  apply leb_rank in HI; auto; [|apply P|apply Hhi|now apply real_not_nan]. pose proof marker_last as ML.
  destruct (Nat.eq_dec (length ms) 0) as [Z|Z].
  - assert (E : ms = []) by (destruct ms; auto; discriminate). exists 0. rewrite E. split; reflexivity.
  - assert (EM : exists m, nth_error ms (length ms - 1) = Some m) by (destruct (nth_error ms (length ms - 1)) eqn:E; [eauto|apply nth_error_None in E; lia]).
    destruct EM as (ml & EM). destruct (nth_marker _ _ EM) as (_ & Eml). replace (S (length ms - 1)) with (length ms) in Eml by lia.
    assert (FL : SFltb ml p = false).
    { subst ml. destruct (marker_facts (length ms) ltac:(lia)) as (V & N & _). apply ltb_rank_false; auto; [apply P|]. lra. }
    destruct (scan_finds ms p 0 _ ml EM FL) as (j & above & SC & EA & FA & BEL). cbn [Nat.add] in SC.
    destruct (nth_marker _ _ EA) as (LJ & Ea). destruct (marker_facts (S j) ltac:(lia)) as (Va & Na & _). rewrite <- Ea in Va, Na.
    assert (RA : (rank64 p <= rank64 above)%R) by (apply ltb_rank_false; auto; apply P).
    assert (UP : forall k m, nth_error ms k = Some m -> j <= k -> (rank64 above <= rank64 m)%R /\ is_f64 m /\ not_nan m /\ (rank64 p <= rank64 m)%R).
    { intros k m E JK. destruct (nth_marker _ _ E) as (LK & Em). destruct (marker_facts (S k) ltac:(lia)) as (Vm & Nm & _). rewrite <- Em in Vm, Nm.
      pose proof (marker_mono (S j) (S k) ltac:(lia) ltac:(lia)) as MM. rewrite <- Ea, <- Em in MM. repeat split; auto. lra. }
    assert (AW : forall k m, nth_error ms k = Some m -> j <= k -> not_nan (f64_sub p m) /\ (away p above <= away p m)%R).
    { intros k m E JK. destruct (UP k m E JK) as (R & Vm & Nm & R2). rewrite (rank_real p P) in R2, RA.
      destruct (away_above p m Vm Nm P R2) as (A1 & A2). destruct (away_above p above Va Na P RA) as (A3 & _). split; auto. rewrite A1, A3.
      apply sub_mono; auto. pose proof (val_range p P). lra. }
    assert (UNF : find_axis ms p = if Nat.ltb 0 j then
       (let* below := unwrap (nth_error ms (j - 1)) in if SFltb (f64_sub p below) (f64_sub above p) then Ok (j - 1) else Ok j) else Ok j).
    { unfold find_axis. destruct ms as [|m0 rest] eqn:Ems; [cbn in Z; lia|]. rewrite <- Ems in *. rewrite SC. cbn [bind]. destruct (Nat.ltb 0 j); auto. rewrite EA. cbn [unwrap].
      destruct (nth_error ms (j - 1)); reflexivity. }
    assert (NE : forall k, nearest ms p k <-> exists m, nth_error ms k = Some m /\ forall m', In m' ms -> SFleb (SFabs (f64_sub p m)) (SFabs (f64_sub p m')) = true).
    { intros k. unfold nearest. destruct ms; [cbn in Z; lia|]. tauto. }
    destruct (Nat.ltb_spec 0 j) as [J|J].
    + assert (EB : exists m, nth_error ms (j - 1) = Some m) by (destruct (nth_error ms (j - 1)) eqn:E; [eauto|apply nth_error_None in E; lia]).
      destruct EB as (below & EB). rewrite EB in UNF. cbn [unwrap bind] in UNF.
      assert (DN : forall k m, nth_error ms k = Some m -> k < j -> real_f64 m /\ (val m <= val below)%R /\ (val m < val p)%R).
      { intros k m E K. destruct (nth_marker _ _ E) as (_ & Em). destruct (nth_marker _ _ EB) as (_ & Eb).
        destruct (marker_facts (S k) ltac:(lia)) as (Vm & Nm & _ & Fm). specialize (Fm ltac:(lia)). rewrite <- Em in *.
        destruct (marker_facts (S (j - 1)) ltac:(lia)) as (_ & _ & _ & Fb). specialize (Fb ltac:(lia)). rewrite <- Eb in Fb.
        pose proof (marker_mono (S k) (S (j - 1)) ltac:(lia) ltac:(lia)) as MM. rewrite <- Em, <- Eb, (rank_real m Fm), (rank_real below Fb) in MM.
        pose proof (BEL k m K E) as T. apply ltb_rank in T; auto; [|apply P]. rewrite (rank_real m Fm), (rank_real p P) in T. auto. }
      destruct (DN _ _ EB ltac:(lia)) as (Fb & _ & Lb).
      destruct (away_below p below Fb P (Rlt_le _ _ Lb)) as (B1 & B2 & B3).
      assert (AB : forall k m, nth_error ms k = Some m -> k < j -> is_f64 m /\ not_nan (f64_sub p m) /\ (away p below <= away p m)%R).
      { intros k m E K. destruct (DN k m E K) as (Fm & L1 & L2). destruct (away_below p m Fm P (Rlt_le _ _ L2)) as (_ & M2 & M3). split; [apply Fm|]. split; auto.
        rewrite B2, M2. apply rnd_mono. lra. }
      assert (RA' : (val p <= rank64 above)%R) by (rewrite <- (rank_real p P); exact RA).
      destruct (away_above p above Va Na P RA') as (A1 & A2).
      assert (VS : is_f64 (f64_sub above p)) by (apply sub_f64; auto; apply P).
      assert (NS : not_nan (f64_sub above p)).
      { destruct P as (Fp & Vp). destruct (Rlt_or_le (rank64 above) top) as [F|F].
        - assert (real_f64 above) by (apply rank_inner; auto; pose proof (val_range p (conj Fp Vp)); lra). now apply sub_rank.
        - pose proof (rank_range above Va). rewrite (rank_top above Va Na) by lra. destruct p; try contradiction; discriminate. }
      destruct (SFltb (f64_sub p below) (f64_sub above p)) eqn:C.
      * apply ltb_rank in C; auto; [|apply sub_f64; [apply P|apply Fb]]. rewrite <- A1, <- B1 in C.
        exists (j - 1). rewrite UNF. split; auto. apply NE. exists below. split; auto. intros m' I. apply In_nth_error in I as (k & E).
        destruct (le_lt_dec j k) as [JK|JK].
        -- destruct (AW k m' E JK) as (N' & W). destruct (UP k m' E JK) as (_ & Vm & _). apply away_leb; auto; [apply P|apply Fb|lra].
        -- destruct (AB k m' E JK) as (Vm & N' & W). apply away_leb; auto; [apply P|apply Fb].
      * apply ltb_rank_false in C; auto; [|apply sub_f64; [apply P|apply Fb]]. rewrite <- A1, <- B1 in C.
        exists j. rewrite UNF. split; auto. apply NE. exists above. split; auto. intros m' I. apply In_nth_error in I as (k & E).
        destruct (le_lt_dec j k) as [JK|JK].
        -- destruct (AW k m' E JK) as (N' & W). destruct (UP k m' E JK) as (_ & Vm & _). apply away_leb; auto. apply P.
        -- destruct (AB k m' E JK) as (Vm & N' & W). apply away_leb; auto; [apply P|lra].
    + exists j. rewrite UNF. split; auto. apply NE. exists above. split; auto. intros m' I. apply In_nth_error in I as (k & E).
      destruct (AW k m' E ltac:(lia)) as (N' & W). destruct (UP k m' E ltac:(lia)) as (_ & Vm & _).
      destruct (AW j above EA ltac:(lia)) as (N2 & _). apply away_leb; auto. apply P.
Qed.
End Axis.

(* ---- the loop ends ---- *)
Lemma axis_ends lo hi leaf : real_f64 lo -> real_f64 hi -> positive_f64 leaf ->
  (Z.abs (scaled lo) < 2 ^ 53 * scaled leaf)%Z -> (Z.abs (scaled hi) < 2 ^ 53 * scaled leaf)%Z ->
  exists ms, axis_markers (Z.to_nat (scaled hi - scaled lo)) lo hi leaf = Some ms.
Proof.
  intros L H P BL BH. remember (Z.to_nat (scaled hi - scaled lo)) as f eqn:Ef. revert lo L BL Ef.
  pose proof (positive_val leaf P) as PV. assert (Pr : real_f64 leaf) by apply P.
  assert (LAST : forall c n, is_f64 c -> not_nan c -> (rank64 hi <= rank64 c)%R -> axis_markers n c hi leaf = Some []).
  { intros c n Vc Nc Rc. destruct n; cbn [axis_markers]; rewrite (proj2 (ltb_rank_false c hi Vc (proj2 H) Nc (real_not_nan hi H)) Rc); reflexivity. }
  induction f as [f IH] using lt_wf_ind. intros lo L BL Ef.
  destruct (Rlt_or_le (val lo) (val hi)) as [LT|GE].
  2:{ exists []. apply LAST; [apply L|now apply real_not_nan|]. rewrite (rank_real lo L), (rank_real hi H). exact GE. }
  assert (ZL : (scaled lo < scaled hi)%Z) by (apply scaled_lt; auto; [apply L|apply H]).
  destruct f as [|f]; [lia|]. cbn [axis_markers].
  rewrite (proj2 (ltb_rank lo hi (proj2 L) (proj2 H) (real_not_nan _ L) (real_not_nan _ H))) by (rewrite (rank_real lo L), (rank_real hi H); exact LT).
  destruct (step_up lo leaf L P) as (V & N & R). destruct (Rlt_or_le (rank64 (f64_add lo leaf)) (rank64 hi)) as [MORE|ENOUGH].
  2:{ rewrite (LAST _ f V N ENOUGH). now exists [f64_add lo leaf]. }
  assert (C : real_f64 (f64_add lo leaf)).
  { apply rank_inner; auto. pose proof (val_range lo L). pose proof (rank_range hi (proj2 H)). rewrite (rank_real lo L) in R. lra. }
  assert (PR : (val lo < val (f64_add lo leaf))%R).
  { rewrite <- (rank_real _ C). destruct (add_rank lo leaf L Pr) as (E & _). rewrite E.
    pose proof (add_progress 53 1024 H53 lo leaf (proj1 (f64_valid lo) (proj2 L)) (proj1 (finite_SF lo) (proj1 L)) (proj1 (f64_valid leaf) (proj2 Pr)) (proj1 (finite_SF leaf) (proj1 Pr)) PV) as A.
    fold (val lo) in A. fold (val leaf) in A. fold (rnd64 (val lo + val leaf)) in A.
    assert (BB : (Rabs (val lo) < val leaf * bpow radix2 53)%R).
    { rewrite (val_scaled lo (proj2 L)), (val_scaled leaf (proj2 Pr)). rewrite Rabs_mult, <- abs_IZR. rewrite (Rabs_pos_eq (bpow radix2 (-1074))) by apply bpow_ge_0.
      pose proof (bpow_gt_0 radix2 (-1074)) as Q. apply IZR_lt in BL. rewrite mult_IZR in BL. change (IZR (2 ^ 53)) with (bpow radix2 53) in BL.
      apply Rmult_lt_compat_r with (r := bpow radix2 (-1074)) in BL; auto. lra. }
    specialize (A BB). destruct (Rlt_or_le (rnd64 (val lo + val leaf)) top) as [IR|IR].
    - unfold clamp64. rewrite clamp_id; auto. unfold in_range. apply Rabs_lt. pose proof (val_range lo L). lra.
    - unfold clamp64. rewrite clamp_high by exact IR. apply (val_range lo L). }
  assert (SC : (scaled lo < scaled (f64_add lo leaf))%Z) by (apply scaled_lt; auto; apply L).
  assert (MH : (scaled (f64_add lo leaf) < scaled hi)%Z).
  { apply scaled_lt; auto; [apply H|]. rewrite <- (rank_real _ C), <- (rank_real hi H). exact MORE. }
  destruct (IH (Z.to_nat (scaled hi - scaled (f64_add lo leaf))) ltac:(lia) (f64_add lo leaf) C ltac:(lia) eq_refl) as (ms & Ems).
  exists (f64_add lo leaf :: ms).
  replace f with (Z.to_nat (scaled hi - scaled (f64_add lo leaf)) + (f - Z.to_nat (scaled hi - scaled (f64_add lo leaf)))) by lia.
  now rewrite (axis_markers_more _ _ _ _ _ _ Ems).
Qed.
