(* The iterations of the convex hull in f64 arithmetic take the same decisions as in exact arithmetic. *)
From Coq Require Import List ZArith Reals Lia Lra SpecFloat Psatz Permutation Bool Arith.
From Flocq Require Import Core.
From Verif Require ViewsProofs.
From Verif Require Import Base BufferModel BufferSpec TraitModel MathModel MathSpec SegModel SegSpec SegProofs LasGridSpec VoxSpec F64Real NormSpec TilesBoxSpec HullModel HullSpec HullProofs2 HullReal HullFloatSpec HullFloat.
Import ListNotations.
Open Scope R_scope.

Section Sim.
Variable e : Z.
Hypothesis E : (-200 <= e <= 200)%Z.
Variable n : nat.
Variable fpos : nat -> res (p3 spec_float).
Variable rpos : nat -> res (p3 R).
Hypothesis Hpos : forall i, (i < n)%nat -> exists f r, fpos i = Ok f /\ rpos i = Ok r /\ on3 e (2 ^ 15) f r.

Definition sim (t : triangle spec_float) (u : triangle R) : Prop :=
  t_a t = t_a u /\ t_b t = t_b u /\ t_c t = t_c u /\ on3 (e + e) (2 ^ 33) (t_n t) (t_n u).
Lemma normal_sim fa fb fc a b c : on3 e (2 ^ 15) fa a -> on3 e (2 ^ 15) fb b -> on3 e (2 ^ 15) fc c ->
  on3 (e + e) (2 ^ 33) (calc_normal f64_hops fa fb fc) (calc_normal r_hops a b c).
Proof.
  clear Hpos fpos rpos n. intros A B C. change (2 ^ 33)%Z with (2 ^ 16 * 2 ^ 16 + 2 ^ 16 * 2 ^ 16)%Z. unfold calc_normal. change (h_ops f64_hops) with f64_ops. change (h_ops r_hops) with r_ops.
  apply cross_on; try lia; change (2 ^ 16)%Z with (2 ^ 15 + 2 ^ 15)%Z; apply sub3; auto; lia.
Qed.
Definition vsim (s : visible spec_float) (v : visible R) : Prop :=
  Forall2 sim (vi_kept s) (vi_kept v) /\ vi_edges s = vi_edges v /\ Forall2 sim (vi_planar s) (vi_planar v).
Lemma retain_step_sim fp p s v t u : on3 e (2 ^ 15) fp p -> vsim s v -> sim t u -> (t_a u < n)%nat ->
  exists s' v', retain_step f64_hops fpos fp s t = Ok s' /\ retain_step r_hops rpos p v u = Ok v' /\ vsim s' v'.
Proof.
  intros P (K & ED & PL) (Ta & Tb & Tc & Tn) L. unfold retain_step. rewrite Ta, Tb, Tc. destruct (Hpos (t_a u) L) as (f & r & -> & -> & O). cbn [bind].
  assert (D : on (e + (e + e)) (2 ^ 16 * 2 ^ 33 + 2 ^ 16 * 2 ^ 33 + 2 ^ 16 * 2 ^ 33) (v_dot f64_ops (v_sub f64_ops f fp) (t_n t)) (v_dot r_ops (v_sub r_ops r p) (t_n u))).
  { apply dot_on; try lia; auto. change (2 ^ 16)%Z with (2 ^ 15 + 2 ^ 15)%Z. apply sub3; auto; lia. }
  change (h_ops f64_hops) with f64_ops. change (h_ops r_hops) with r_ops. change (o_lt f64_ops) with SFltb. change (h_eq f64_hops) with SFeqb. change (h_zero f64_hops) with (S754_zero false).
  change (o_lt r_ops) with (fun x y => if Rlt_dec x y then true else false). change (h_eq r_hops) with (fun x y => if Req_EM_T x y then true else false). change (h_zero r_hops) with 0. cbv beta.
  rewrite (lt0 _ _ _ _ D), (eq0 _ _ _ _ D).
  assert (ST : sim t u) by exact (conj Ta (conj Tb (conj Tc Tn))).
  destruct (Rlt_dec _ 0); [|destruct (Req_EM_T _ 0)]; eexists; eexists; (split; [reflexivity|]); (split; [reflexivity|]); unfold vsim; cbn [vi_kept vi_edges vi_planar]; rewrite ?ED;
    (split; [|split]); auto; apply Forall2_app; auto.
Qed.
Lemma retain_sim fp p ts us : on3 e (2 ^ 15) fp p -> Forall2 sim ts us -> Forall (fun u => (t_a u < n)%nat) us -> forall s v, vsim s v ->
  exists s' v', foldM (retain_step f64_hops fpos fp) ts s = Ok s' /\ foldM (retain_step r_hops rpos p) us v = Ok v' /\ vsim s' v'.
Proof.
  intros P F. induction F as [|t u ts us T F IH]; intros B s v V; cbn [foldM].
  - exists s, v. auto.
  - inversion B; subst. destruct (retain_step_sim fp p s v t u P V T) as (s' & v' & -> & -> & V'); auto. cbn [bind]. auto.
Qed.
Lemma add_faces_sim id fp p es : on3 e (2 ^ 15) fp p -> (forall d, In d es -> (e_a d < n)%nat /\ (e_b d < n)%nat) -> forall ts us, Forall2 sim ts us ->
  exists ts' us', add_faces f64_hops fpos id fp es ts = Ok ts' /\ add_faces r_hops rpos id p es us = Ok us' /\ Forall2 sim ts' us'.
Proof.
  intros P. unfold add_faces. induction es as [|d es IH]; intros B ts us F; cbn [foldM].
  - exists ts, us. auto.
  - destruct (B d (or_introl eq_refl)) as (B1 & B2). destruct (Hpos _ B1) as (fa & ra & -> & -> & OA). destruct (Hpos _ B2) as (fb & rb & -> & -> & OB). cbn [bind].
    apply IH; [intros; apply B; now right|]. apply Forall2_app; auto. constructor; [|constructor]. split; [reflexivity|]. split; [reflexivity|]. split; [reflexivity|]. cbn [t_n]. now apply normal_sim.
Qed.
Lemma planar_none {T} (h : hops T) pos id p ts : grow_planar h pos id p [] ts = Ok ts.
Proof. reflexivity. Qed.
(* one iteration, if no triangle is in a plane with the point *)
Lemma iteration_sim order id fp p ts us kept edges :
  (forall s, Permutation (order s) s) ->
  on3 e (2 ^ 15) fp p -> Forall2 sim ts us -> Forall (fun u => (t_a u < n)%nat) us -> (forall u, us <> [u]) -> id <> 0%nat ->
  retain r_hops rpos p us = Ok (mk_visible kept edges []) -> (forall d, In d (fst edges) -> (e_a d < n)%nat /\ (e_b d < n)%nat) ->
  exists ts' us', iteration f64_hops fpos order ts id fp = Ok ts' /\ iteration r_hops rpos order us id p = Ok us' /\ Forall2 sim ts' us'.
Proof.
  intros RO P F B NS N0 RR BE.
  assert (G : exists ts' us',
    (let* s := retain f64_hops fpos fp ts in let '(outer, inner) := vi_edges s in match outer, inner with [], [] => grow_planar f64_hops fpos id fp (vi_planar s) (vi_kept s) | _, _ => add_faces f64_hops fpos id fp (order outer) (vi_kept s) end) = Ok ts'
    /\ (let* s := retain r_hops rpos p us in let '(outer, inner) := vi_edges s in match outer, inner with [], [] => grow_planar r_hops rpos id p (vi_planar s) (vi_kept s) | _, _ => add_faces r_hops rpos id p (order outer) (vi_kept s) end) = Ok us'
    /\ Forall2 sim ts' us').
  { unfold retain in *. destruct (retain_sim fp p ts us P F B (mk_visible [] ([], []) []) (mk_visible [] ([], []) [])) as (s' & v' & -> & R2 & K & ED & PL).
    { split; [constructor|]. split; [reflexivity|constructor]. }
    rewrite R2 in RR |- *. injection RR as ->. cbn [vi_kept vi_edges vi_planar bind] in *. rewrite ED. destruct edges as (outer, inner). cbn [fst] in BE. inversion PL as [PN|].
    assert (AF : exists ts' us', add_faces f64_hops fpos id fp (order outer) (vi_kept s') = Ok ts' /\ add_faces r_hops rpos id p (order outer) kept = Ok us' /\ Forall2 sim ts' us').
    { apply add_faces_sim; auto. intros d J. apply BE. apply (Permutation_in _ (RO outer) J). }
    destruct outer; [destruct inner|]; auto. exists (vi_kept s'), kept. rewrite !planar_none. auto. }
  unfold iteration. rewrite (proj2 (Nat.eqb_neq id 0) N0). destruct F as [|t u ts1 us1 T [|t2 u2 ts2 us2 T2 F]]; auto. exfalso. now apply (NS u).
Qed.
End Sim.

Section Run.
Variable e : Z.
Hypothesis E : (-200 <= e <= 200)%Z.
Variable ps : list (p3 R).
Hypothesis GP : general_position ps.
Variable fs : list (p3 spec_float).
Hypothesis FS : Forall2 (on3 e (2 ^ 15)) fs ps.
Variable fpos : nat -> res (p3 spec_float).
Hypothesis Fpos : forall i f, nth_error fs i = Some f -> fpos i = Ok f.
Let rpos i := vec_at ps i.
Let n := length ps.

Lemma pos_both i : (i < n)%nat -> exists f, nth_error fs i = Some f /\ fpos i = Ok f /\ rpos i = Ok (point ps i) /\ on3 e (2 ^ 15) f (point ps i).
Proof.
  intros L. assert (X : nth_error ps i = Some (point ps i)) by (apply nth_error_nth'; exact L). unfold rpos, vec_at. rewrite X. cbn [unwrap].
  clear GP. revert X. generalize (point ps i). intros p X. unfold n in L. clear n rpos L. revert i X Fpos. generalize fpos. intros g i X HF.
  destruct (nth_error fs i) as [f|] eqn:EF.
  - exists f. split; auto. split; auto. split; auto. clear HF. revert i X EF. induction FS as [|a b l l' AB F IH]; intros [|i] X EF; cbn in *; try discriminate.
    + injection X as ->. injection EF as ->. exact AB.
    + now apply (IH F i).
  - exfalso. clear HF. revert i X EF. induction FS as [|a b l l' AB F IH]; intros [|i] X EF; cbn in *; try discriminate. now apply (IH F i).
Qed.
Lemma rpos_ok i : (i < n)%nat -> rpos i = Ok (point ps i).
Proof. intros L. destruct (pos_both i L) as (f & _ & _ & X & _). exact X. Qed.
Lemma pos_sim i : (i < n)%nat -> exists f r, fpos i = Ok f /\ rpos i = Ok r /\ on3 e (2 ^ 15) f r.
Proof. intros L. destruct (pos_both i L) as (f & _ & A & B & C). eauto. Qed.

Lemma step_sim order m fp ts us : (forall s, Permutation (order s) s) -> (3 <= m)%nat -> (m < n)%nat -> inv ps m us -> Forall2 (sim e) ts us -> nth_error fs m = Some fp ->
  exists ts' us', iteration f64_hops fpos order ts m fp = Ok ts' /\ iteration r_hops rpos order us m (point ps m) = Ok us' /\ Forall2 (sim e) ts' us' /\ inv ps (S m) us'.
Proof.
  intros RO M3 MN I F EF. destruct (pos_both m MN) as (fp' & EF' & _ & _ & OF). rewrite EF in EF'. injection EF' as <-.
  destruct (step_run ps GP m us M3 MN I rpos rpos_ok order RO) as (es & PE & SR).
  destruct (iteration_sim e E n fpos rpos pos_sim order m fp (point ps m) ts us (back ps m us) (fold_left add_edge (edges (front ps m us)) ([], []))) as (ts' & us' & A & B & C); auto.
  - apply Forall_forall. intros u J. destruct (i_tri _ _ _ I u J) as ((X & _) & _). lia.
  - intros u. apply (two_faces ps m us I).
  - lia.
  - unfold retain. rewrite (retain_run ps GP m us M3 MN I rpos rpos_ok us (fun t J => J)). reflexivity.
  - intros [a b] J. change (In (mk_edge a b) (HullReal.O ps m us)) in J. destruct (O_bounds ps m us I a b J) as (X & Y & _). cbn. lia.
  - exists ts', us'. split; auto. split; auto. split; auto. rewrite SR in B. injection B as <-. apply (step_inv ps GP m us M3 MN I rpos rpos_ok es PE).
Qed.

Lemma run_sim order : any_edge_order order -> forall frest rest m ts us, (3 <= m)%nat -> (m + length rest = n)%nat ->
  (forall k, nth_error rest k = nth_error ps (m + k)) -> (forall k, nth_error frest k = nth_error fs (m + k)) -> length frest = length rest -> inv ps m us -> Forall2 (sim e) ts us ->
  exists ts' us', iterate f64_hops fpos order m frest ts = Ok ts' /\ iterate r_hops rpos order m rest us = Ok us' /\ Forall2 (sim e) ts' us'.
Proof.
  intros RO. induction frest as [|fp frest IH]; intros [|p rest] m ts us M3 ML HR HF LL I F; try discriminate; cbn [iterate].
  - exists ts, us. auto.
  - cbn [length] in *. pose proof (HR 0%nat) as H0. pose proof (HF 0%nat) as F0. rewrite Nat.add_0_r in H0, F0. cbn [nth_error] in H0, F0.
    assert (EP : p = point ps m) by (unfold point; symmetry; apply nth_error_nth; auto). subst p.
    destruct (step_sim (order m) m fp ts us (RO m) M3 ltac:(lia) I F (eq_sym F0)) as (ts' & us' & -> & -> & F' & I'). cbn [bind]. apply IH; auto; try lia.
    + intros k. specialize (HR (S k)). cbn [nth_error] in HR. rewrite HR. f_equal. lia.
    + intros k. specialize (HF (S k)). cbn [nth_error] in HF. rewrite HF. f_equal. lia.
Qed.
Lemma third_sim f0 f1 f2 : wide_angle (point ps 0) (point ps 1) (point ps 2) ->
  nth_error fs 0 = Some f0 -> nth_error fs 1 = Some f1 -> nth_error fs 2 = Some f2 ->
  exists ts, grow_line f64_hops fpos 2 f2 (mk_tri 0 1 0 f0) = Ok ts /\ Forall2 (sim e) ts (start ps).
Proof.
  intros WA E0 E1 E2. pose proof (n4 ps GP) as N4. pose proof (not_on_line ps GP) as NL.
  destruct (pos_both 0 ltac:(unfold n; lia)) as (g0 & G0 & P0 & _ & O0). destruct (pos_both 1 ltac:(unfold n; lia)) as (g1 & G1 & P1 & _ & O1). destruct (pos_both 2 ltac:(unfold n; lia)) as (g2 & G2 & _ & _ & O2).
  rewrite E0 in G0. rewrite E1 in G1. rewrite E2 in G2. injection G0 as <-. injection G1 as <-. injection G2 as <-.
  unfold grow_line. cbn [Nat.eqb t_a t_b t_c t_n]. rewrite P0, P1. cbn [bind]. change (h_ops f64_hops) with f64_ops.
  change (h_eq f64_hops) with SFeqb. change (h_zero f64_hops) with (S754_zero false). change (o_abs f64_ops) with SFabs.
  set (fu := v_sub f64_ops f1 f0). set (fw := v_sub f64_ops f2 f0). set (u := v_sub r_ops (point ps 1) (point ps 0)). set (w := v_sub r_ops (point ps 2) (point ps 0)).
  assert (OU : on3 e (2 ^ 16) fu u) by (change (2 ^ 16)%Z with (2 ^ 15 + 2 ^ 15)%Z; apply sub3; auto; lia).
  assert (OW : on3 e (2 ^ 16) fw w) by (change (2 ^ 16)%Z with (2 ^ 15 + 2 ^ 15)%Z; apply sub3; auto; lia).
  assert (NX : forall v, v = u \/ v = w -> dotr v v <> 0).
  { intros v V D. rewrite dotr_eq in D. apply sum_squares_0 in D. destruct D as (D1 & D2 & D3). apply NL. unfold volume.
    destruct V as [->| ->]; unfold u, w, v_sub in D1, D2, D3; cbn [px py pz] in D1, D2, D3; change (o_sub r_ops) with Rminus in *; rewrite D1, D2, D3; ring. }
  assert (NU : dotr u u <> 0) by auto. assert (NW : dotr w w <> 0) by auto.
  assert (DU : on (e + e) (2 ^ 16 * 2 ^ 16 + 2 ^ 16 * 2 ^ 16 + 2 ^ 16 * 2 ^ 16) (v_sq f64_hops fu) (dotr u u)) by (apply dot_on; auto; lia).
  rewrite (eq0 _ _ _ _ DU). destruct (Req_EM_T (dotr u u) 0) as [|_]; [contradiction|].
  rewrite (not_line e fu fw u w E OU OW NU NW).
  - eexists. split; [reflexivity|]. unfold start, normal_of. pose proof (normal_sim e E f0 f1 f2 _ _ _ O0 O1 O2) as NS.
    constructor; [|constructor; [|constructor]]; (split; [reflexivity|]); (split; [reflexivity|]); (split; [reflexivity|]); cbn [t_n]; [exact NS|now apply neg3].
  - unfold wide_angle in WA. change (minus3 (point ps 1) (point ps 0)) with u in WA. change (minus3 (point ps 2) (point ps 0)) with w in WA. cbv zeta in WA.
    unfold dot3, cross3 in WA. cbn [px py pz] in WA. rewrite !dotr_eq. lra.
Qed.
Lemma hull_sim order : any_edge_order order -> wide_angle (point ps 0) (point ps 1) (point ps 2) ->
  exists ts us, iterate f64_hops fpos order 0 fs [] = Ok ts /\ iterate r_hops rpos order 0 ps [] = Ok us /\ Forall2 (sim e) ts us.
Proof.
  intros RO WA. pose proof (n4 ps GP) as N4. pose proof (third ps GP rpos rpos_ok) as T.
  pose proof (third_sim) as TS. pose proof (run_sim order RO) as RS.
  assert (LF : length fs = length ps) by exact (Verif.ViewsProofs.Forall2_same_length _ _ _ FS).
  destruct fs as [|f0 [|f1 [|f2 frest]]] eqn:EFS; cbn [length] in LF; try lia. destruct (TS f0 f1 f2 WA eq_refl eq_refl eq_refl) as (ts & TE & TF).
  assert (EP : exists rest, ps = point ps 0 :: point ps 1 :: point ps 2 :: rest).
  { unfold point. destruct ps as [|a [|b [|c rest]]]; cbn in N4; try lia. exists rest. reflexivity. }
  destruct EP as (rest & EP). assert (LR : length ps = (3 + length rest)%nat) by (rewrite EP; reflexivity).
  destruct (RS frest rest 3%nat ts (start ps)) as (ts' & us' & A & B & C); auto.
  - intros k. rewrite EP at 1. reflexivity.
  - lia.
  - apply start_inv.
  - exists ts', us'. split; [|split]; auto.
    + cbn [iterate]. change (iteration f64_hops fpos (order 0%nat) [] 0 f0) with (Ok [mk_tri 0 0 0 f0]). cbn [bind].
      change (iteration f64_hops fpos (order 1%nat) [mk_tri 0 0 0 f0] 1 f1) with (Ok [mk_tri 0 1 0 f0]). cbn [bind].
      change (iteration f64_hops fpos (order 2%nat) [mk_tri 0 1 0 f0] 2 f2) with (grow_line f64_hops fpos 2 f2 (mk_tri 0 1 0 f0)). rewrite TE. exact A.
    + rewrite EP at 1. cbn [iterate].
      change (iteration r_hops rpos (order 0%nat) [] 0 (point ps 0)) with (Ok [mk_tri 0 0 0 (point ps 0)]). cbn [bind].
      change (iteration r_hops rpos (order 1%nat) [mk_tri 0 0 0 (point ps 0)] 1 (point ps 1)) with (Ok [mk_tri 0 1 0 (point ps 0)]). cbn [bind].
      change (iteration r_hops rpos (order 2%nat) [mk_tri 0 1 0 (point ps 0)] 2 (point ps 2)) with (grow_line r_hops rpos 2 (point ps 2) (mk_tri 0 1 0 (point ps 0))). rewrite T. exact B.
Qed.
Lemma sim_indices ts us : Forall2 (sim e) ts us -> indices ts = indices us.
Proof. unfold indices. induction 1 as [|t u ts us (A & B & C & _) F IH]; cbn [map]; [reflexivity|]. now rewrite A, B, C, IH. Qed.
End Run.

Lemma grid_on e p : grid_point e p -> on3 e (2 ^ 15) p (real_point p).
Proof. intros (A & B & C). split; [|split]; [destruct A as (R & X)|destruct B as (R & X)|destruct C as (R & X)]; (split; [exact R|]); (split; [reflexivity|exact X]). Qed.
Lemma float_hull order b m e : has_positions b m -> any_edge_order order -> (-200 <= e <= 200)%Z -> Forall (grid_point e) (points3 b m) ->
  let ps := map real_point (points3 b m) in
  general_position ps -> wide_angle (point ps 0) (point ps 1) (point ps 2) ->
  exists ts, convex_hull_as_triangle_mesh order b = Ok ts
    /\ (forall i j k, facet ps i j k <-> exists t, In t ts /\ rotated (i, j, k) t) /\ closed_surface ts.
Proof.
  intros H RO E G ps GP WA. unfold convex_hull_as_triangle_mesh. rewrite (create_f64 order b m H).
  destruct (exact_facets ps GP order RO) as (us & EU & FC & CL).
  destruct (hull_sim e E ps GP (points3 b m)) with (fpos := position_at b) (order := order) as (ts & us' & ET & EU' & S); auto.
  - unfold ps. clear -G. induction G; cbn [map]; constructor; auto. now apply grid_on.
  - intros i f X. now apply (position_at_ok b m).
  - rewrite EU in EU'. injection EU' as <-. rewrite ET. cbn [bind]. pose proof (sim_indices e ts us S) as IX.
    destruct (Nat.ltb_spec (length ts) 2) as [L|L].
    + exfalso. assert (L2 : length us = length ts). { apply (f_equal (@length _)) in IX. unfold indices in IX. rewrite !map_length in IX. auto. }
      destruct (exact_hull ps GP order RO) as (us2 & EU2 & I). rewrite EU in EU2. injection EU2 as <-. pose proof (i_some _ _ _ I) as N1. pose proof (two_faces ps _ us I) as N2.
      destruct us as [|t [|]]; [contradiction|now apply (N2 t)|cbn in L2; lia].
    + exists (indices ts). split; [reflexivity|]. rewrite IX. auto.
Qed.
