(* The convex hull in exact arithmetic, for points in general position: the iterations compute exactly the facets. *)
From Coq Require Import String List ZArith Lia Bool Arith Permutation Reals Lra Psatz.
From Verif Require Import Base ListLemmas PntsProofs5 MathModel SegModel SegSpec HullModel HullSpec.
Import ListNotations.
Open Scope nat_scope.

Local Notation tri := (triangle R).

(* ------------------------------------------------------------------ edges *)

Definition swap (e : edge) : edge := mk_edge (e_b e) (e_a e).
Lemma swap_swap e : swap (swap e) = e.
Proof. now destruct e. Qed.
Lemma edge_eqb_spec e f : edge_eqb e f = true <-> e = f \/ f = swap e.
Proof.
  destruct e as [a b], f as [c d]. unfold edge_eqb, swap. cbn [e_a e_b]. rewrite orb_true_iff, !andb_true_iff, !Nat.eqb_eq. split.
  - intros [(-> & ->)|(-> & ->)]; auto.
  - intros [H|H]; injection H as -> ->; auto.
Qed.
Lemma set_has_spec s e : set_has s e = true <-> In e s \/ In (swap e) s.
Proof.
  unfold set_has. rewrite existsb_exists. split.
  - intros (f & I & E). apply edge_eqb_spec in E. destruct E as [->| ->]; auto.
  - intros [I|I]; [exists e|exists (swap e)]; (split; [exact I|]); apply edge_eqb_spec; auto.
Qed.
Lemma set_del_spec s e f : In f (set_del s e) <-> In f s /\ f <> e /\ f <> swap e.
Proof.
  unfold set_del. rewrite filter_In, negb_true_iff. split.
  - intros (I & E). split; auto. split; intros ->; rewrite (proj2 (edge_eqb_spec e _)) in E; auto; discriminate.
  - intros (I & N1 & N2). split; auto. destruct (edge_eqb e f) eqn:E; auto. apply edge_eqb_spec in E. destruct E; congruence.
Qed.

(* the edges of D whose opposite is not in D *)
Definition horizon (D O : list edge) : Prop := NoDup O /\ forall f, In f O <-> In f D /\ ~ In (swap f) D.
Lemma edge_dec (e f : edge) : {e = f} + {e <> f}.
Proof. decide equality; apply Nat.eq_dec. Qed.
Lemma add_edges_gen D : forall D0 s, horizon D0 (fst s) -> NoDup (D0 ++ D) -> (forall e, In e (D0 ++ D) -> e_a e <> e_b e) -> (D0 <> [] -> s <> ([], [])) ->
  horizon (D0 ++ D) (fst (fold_left add_edge D s)) /\ (D0 ++ D <> [] -> fold_left add_edge D s <> ([], [])).
Proof.
  induction D as [|e D IH]; intros D0 s (NO & HO) ND IR NE; cbn [fold_left].
  - rewrite app_nil_r in *. split; [split|]; auto.
  - replace (D0 ++ e :: D) with ((D0 ++ [e]) ++ D) in * by (rewrite <- app_assoc; reflexivity).
    assert (NI : ~ In e D0). { intros I. rewrite <- app_assoc in ND. cbn in ND. apply NoDup_remove_2 in ND. apply ND. apply in_or_app. now left. }
    assert (NS : swap e <> e).
    { intros X. apply (IR e); [apply in_or_app; left; apply in_or_app; right; now left|]. destruct e as [a b]. unfold swap in X. cbn in *. injection X as -> _. reflexivity. }
    destruct s as (outer, inner). cbn [fst] in *. apply IH; auto.
    + unfold add_edge. destruct (set_has outer e) eqn:SH; cbn [fst].
      * apply set_has_spec in SH. assert (SI : In (swap e) D0) by (destruct SH as [SH|SH]; apply HO in SH; [now elim NI|tauto]).
        split; [apply NoDup_filter, NO|]. intros f. rewrite set_del_spec, HO. rewrite !in_app_iff. cbn [In]. split.
        -- intros ((I & N) & N1 & N2). split; auto. intros [X|[X|[]]]; auto. apply N2. rewrite X. now rewrite swap_swap.
        -- intros ([I|[<-|[]]] & N).
           ++ split; [split; auto|]. split; intros ->; auto. apply N. right. left. now rewrite swap_swap.
           ++ elim N. now left.
      * assert (NIS : ~ In (swap e) D0).
        { intros X. assert (set_has outer e = true); [|congruence]. apply set_has_spec. right. apply HO. split; auto. now rewrite swap_swap. }
        unfold set_add. rewrite SH. split.
        -- apply (Permutation_NoDup (Permutation_cons_append outer e)). constructor; auto. intros X. apply HO in X. tauto.
        -- intros f. rewrite !in_app_iff, HO. cbn [In]. split.
           ++ intros [(I & N)|[<-|[]]]; [split; auto; intros [X|[X|[]]]; auto; apply NIS; rewrite X; now rewrite swap_swap|]. split; auto. intros [X|[X|[]]]; auto.
           ++ intros ([I|[<-|[]]] & N); auto. left. split; auto.
    + intros _. unfold add_edge. destruct (set_has outer e) eqn:SH.
      * intros X. injection X as _ X. unfold set_add in X. destruct (set_has inner e) eqn:S2; [|destruct inner; discriminate]. rewrite X in S2. discriminate.
      * intros X. injection X as X _. unfold set_add in X. rewrite SH in X. destruct outer; discriminate.
Qed.
Lemma add_edges D : NoDup D -> (forall e, In e D -> e_a e <> e_b e) ->
  horizon D (fst (fold_left add_edge D ([], []))) /\ (D <> [] -> fold_left add_edge D ([], []) <> ([], [])).
Proof.
  intros ND IR. apply (add_edges_gen D [] ([], [])); auto. cbn. split; [constructor|]. intros f. cbn. tauto.
Qed.

(* ------------------------------------------------------------------ geometry *)

Open Scope R_scope.

Lemma volume_rot a b c q : volume b c a q = volume a b c q.
Proof. unfold volume. ring. Qed.
(* twice the area of x and y seen along the line a b *)
Definition turn (a b x y : p3 R) : R := volume a b x y.
Lemma turn_anti a b x y : turn a b y x = - turn a b x y.
Proof. unfold turn, volume. ring. Qed.
Lemma turn_back a b x y : volume b a x y = - turn a b x y.
Proof. unfold turn, volume. ring. Qed.
Lemma plucker a b c d p q : turn a b c d * turn a b p q - turn a b c p * turn a b d q + turn a b c q * turn a b d p = 0.
Proof. unfold turn, volume. ring. Qed.
Lemma volume_at a b c : volume a b c a = 0 /\ volume a b c b = 0 /\ volume a b c c = 0.
Proof. unfold volume. repeat split; ring. Qed.

(* q is behind the planes (a b c) and (b a d); p is in front of the first and behind the second; then q is behind (a b p) *)
Lemma wedge a b c d p q : volume a b c p > 0 -> volume b a d p < 0 -> volume a b c q <= 0 -> volume b a d q <= 0 -> volume a b c d < 0 -> volume a b p q <= 0.
Proof.
  intros H1 H2 H3 H4 H5. rewrite (turn_back a b d p) in H2. rewrite (turn_back a b d q) in H4. pose proof (plucker a b c d p q) as PL.
  change (volume a b c p) with (turn a b c p) in *. change (volume a b c q) with (turn a b c q) in *. change (volume a b c d) with (turn a b c d) in *.
  change (volume a b p q) with (turn a b p q). revert H1 H2 H3 H4 H5 PL.
  generalize (turn a b c p) (turn a b d p) (turn a b c q) (turn a b d q) (turn a b c d) (turn a b p q). clear. intros x1 x2 x3 x4 x5 x6 H1 H2 H3 H4 H5 PL.
  assert (A : 0 <= x1 * x4) by (apply Rmult_le_pos; lra). assert (B : 0 <= (- x3) * x2) by (apply Rmult_le_pos; lra).
  destruct (Rle_dec x6 0) as [|N]; auto. exfalso. assert (C : 0 < (- x5) * x6) by (apply Rmult_lt_0_compat; lra). lra.
Qed.

Definition total {A} (f : A -> R) (l : list A) : R := fold_right (fun e s => f e + s) 0 l.
Lemma total_app {A} (f : A -> R) l l' : total f (l ++ l') = total f l + total f l'.
Proof. unfold total. induction l; cbn [app fold_right]; [lra|]. rewrite IHl. lra. Qed.
Lemma total_perm {A} (f : A -> R) l l' : Permutation l l' -> total f l = total f l'.
Proof. unfold total. induction 1; cbn [fold_right]; lra. Qed.

(* the third point, if the three are not on a line *)
Lemma sum_squares_0 x y z : x * x + y * y + z * z = 0 -> x = 0 /\ y = 0 /\ z = 0.
Proof. intros H. pose proof (Rle_0_sqr x) as A. pose proof (Rle_0_sqr y) as B. pose proof (Rle_0_sqr z) as C. unfold Rsqr in *. repeat split; apply Rsqr_0_uniq; unfold Rsqr; lra. Qed.
Lemma third_point pos (a b c x : p3 R) : pos 0%nat = Ok a -> pos 1%nat = Ok b -> v_cross r_ops (v_sub r_ops b a) (v_sub r_ops c a) <> mk_p3 0 0 0 ->
  grow_line r_hops pos 2 c (mk_tri 0 1 0 x) = Ok [mk_tri 0 1 2 (calc_normal r_hops a b c); mk_tri 0 2 1 (v_neg r_hops (calc_normal r_hops a b c))].
Proof.
  intros PA PB NL'. unfold grow_line. cbn [Nat.eqb t_a t_b t_c t_n]. rewrite PA, PB. cbn [bind]. change (h_ops r_hops) with r_ops. change (h_zero r_hops) with 0.
  change (h_eq r_hops) with (fun x y => if Req_EM_T x y then true else false). cbv beta.
  set (u := v_sub r_ops b a) in *. set (w := v_sub r_ops c a) in *.
  assert (SQ : v_sq r_hops u <> 0).
  { intros E. apply NL'. unfold v_sq, v_dot in E. change (o_add (h_ops r_hops)) with Rplus in E. change (o_mul (h_ops r_hops)) with Rmult in E. apply sum_squares_0 in E. destruct E as (E1 & E2 & E3).
    unfold v_cross. rewrite E1, E2, E3. change (o_sub r_ops) with Rminus. change (o_mul r_ops) with Rmult. f_equal; ring. }
  destruct (Req_EM_T (v_sq r_hops u) 0) as [|_]; [contradiction|].
  destruct (Req_EM_T (o_abs r_ops (v_dot r_ops w (v_normalize r_hops u))) (v_norm r_ops w)) as [E|_]; [|reflexivity]. exfalso. apply NL'.
  assert (SP : 0 < v_sq r_hops u).
  { unfold v_sq, v_dot in *. change (o_add (h_ops r_hops)) with Rplus in *. change (o_mul (h_ops r_hops)) with Rmult in *.
    pose proof (Rle_0_sqr (px u)) as A. pose proof (Rle_0_sqr (py u)) as B. pose proof (Rle_0_sqr (pz u)) as C. unfold Rsqr in *. lra. }
  set (s := sqrt (v_sq r_hops u)). assert (S0 : 0 < s) by now apply sqrt_lt_R0. assert (SS : s * s = v_sq r_hops u) by (apply sqrt_sqrt; lra).
  assert (N : v_normalize r_hops u = mk_p3 (px u / s) (py u / s) (pz u / s)) by reflexivity.
  rewrite N in E. unfold v_norm in E. change (o_abs r_ops) with Rabs in E. change (o_sqrt r_ops) with sqrt in E.
  assert (DW : v_dot r_ops w (mk_p3 (px u / s) (py u / s) (pz u / s)) = v_dot r_ops w u / s).
  { unfold v_dot. cbn [px py pz]. change (o_add r_ops) with Rplus. change (o_mul r_ops) with Rmult. field. lra. }
  rewrite DW in E.
  assert (WP : 0 <= v_dot r_ops w w).
  { unfold v_dot. change (o_add r_ops) with Rplus. change (o_mul r_ops) with Rmult. pose proof (Rle_0_sqr (px w)) as A. pose proof (Rle_0_sqr (py w)) as B. pose proof (Rle_0_sqr (pz w)) as C. unfold Rsqr in *. lra. }
  assert (E2 : (v_dot r_ops w u / s) * (v_dot r_ops w u / s) = v_dot r_ops w w).
  { transitivity (Rabs (v_dot r_ops w u / s) * Rabs (v_dot r_ops w u / s)).
    - rewrite <- Rabs_mult. symmetry. apply Rabs_right. apply Rle_ge, Rle_0_sqr.
    - rewrite E. apply sqrt_sqrt. exact WP. }
  assert (E3 : v_dot r_ops w u * v_dot r_ops w u = v_dot r_ops w w * v_sq r_hops u).
  { rewrite <- E2, <- SS. field. lra. }
  unfold v_sq, v_dot in E3. change (o_add r_ops) with Rplus in E3. change (o_mul r_ops) with Rmult in E3. change (o_add (h_ops r_hops)) with Rplus in E3. change (o_mul (h_ops r_hops)) with Rmult in E3.
  unfold v_cross. change (o_sub r_ops) with Rminus. change (o_mul r_ops) with Rmult.
  destruct (sum_squares_0 (py u * pz w - pz u * py w) (pz u * px w - px u * pz w) (px u * py w - py u * px w)) as (Z1 & Z2 & Z3).
  - revert E3. generalize (px u) (py u) (pz u) (px w) (py w) (pz w). clear. intros. nra.
  - now rewrite Z1, Z2, Z3.
Qed.

Section Exact.
Variable ps : list (p3 R).
Hypothesis GP : general_position ps.
Let n := length ps.
Let P := point ps.
Let vol i j k l := volume (P i) (P j) (P k) (P l).

Lemma gp i j k l : (i < n)%nat -> (j < n)%nat -> (k < n)%nat -> (l < n)%nat -> distinct3 i j k -> l <> i -> l <> j -> l <> k -> vol i j k l <> 0.
Proof. apply GP. Qed.

Definition tvol (t : tri) (q : nat) : R := vol (t_a t) (t_b t) (t_c t) q.
Definition edges_of (t : tri) : list edge := [mk_edge (t_a t) (t_b t); mk_edge (t_b t) (t_c t); mk_edge (t_c t) (t_a t)].
Definition edges (ts : list tri) : list edge := flat_map edges_of ts.
Definition normal_of (i j k : nat) : p3 R := calc_normal r_hops (P i) (P j) (P k).

(* the triangle, turned so that it starts with a given edge *)
Lemma edge_tri t a b : In (mk_edge a b) (edges_of t) -> exists c, rotated (a, b, c) (t_a t, t_b t, t_c t) /\ forall q, tvol t q = vol a b c q.
Proof.
  unfold edges_of, tvol, vol, rotated. cbn [In]. intros [H|[H|[H|[]]]]; injection H as <- <-.
  - exists (t_c t). split; auto.
  - exists (t_a t). split; auto. intros q. symmetry. apply volume_rot.
  - exists (t_b t). split; auto. intros q. apply volume_rot.
Qed.
Lemma rotated_edge t a b c : rotated (a, b, c) (t_a t, t_b t, t_c t) -> In (mk_edge a b) (edges_of t) /\ forall q, tvol t q = vol a b c q.
Proof.
  unfold rotated, edges_of, tvol, vol. intros [H|[H|H]]; injection H as -> -> ->; cbn [In]; split; auto; intros q.
  - apply volume_rot.
  - symmetry. apply volume_rot.
Qed.

Record inv (m : nat) (ts : list tri) : Prop := mk_inv {
  i_tri : forall t, In t ts -> ((t_a t < m)%nat /\ (t_b t < m)%nat /\ (t_c t < m)%nat) /\ distinct3 (t_a t) (t_b t) (t_c t) /\ t_n t = normal_of (t_a t) (t_b t) (t_c t);
  i_nodup : NoDup (edges ts);
  i_twin : forall e, In e (edges ts) -> In (swap e) (edges ts);
  i_below : forall t q, In t ts -> (q < m)%nat -> tvol t q <= 0;
  i_some : ts <> [];
  i_all : forall i j k, (i < m)%nat -> (j < m)%nat -> (k < m)%nat -> distinct3 i j k ->
    (forall q, (q < m)%nat -> q <> i -> q <> j -> q <> k -> vol i j k q < 0) -> exists t, In t ts /\ rotated (i, j, k) (t_a t, t_b t, t_c t) }.

Section Step.
Variables (m : nat) (ts : list tri).
Hypothesis Hm : (3 <= m)%nat.
Hypothesis Hn : (m < n)%nat.
Hypothesis I : inv m ts.

Definition seen (t : tri) : bool := if Rlt_dec 0 (tvol t m) then true else false.
Definition front := filter seen ts.
Definition back := filter (fun t => negb (seen t)) ts.

Lemma vol_m t : In t ts -> tvol t m <> 0.
Proof. intros J. destruct (i_tri _ _ I t J) as ((A & B & C) & D & _). apply gp; auto; lia. Qed.
Lemma front_in t : In t front <-> In t ts /\ tvol t m > 0.
Proof. unfold front, seen. rewrite filter_In. destruct (Rlt_dec 0 (tvol t m)); intuition; try lra; discriminate. Qed.
Lemma back_in t : In t back <-> In t ts /\ tvol t m < 0.
Proof.
  unfold back, seen. rewrite filter_In. split.
  - intros (J & H). split; auto. destruct (Rlt_dec 0 (tvol t m)); [discriminate|]. pose proof (vol_m t J). lra.
  - intros (J & H). split; auto. destruct (Rlt_dec 0 (tvol t m)); [lra|reflexivity].
Qed.
Lemma split_edges : Permutation (edges ts) (edges front ++ edges back).
Proof.
  unfold edges, front, back. clear. induction ts as [|t l IH]; [constructor|]. cbn [flat_map filter]. destruct (seen t); cbn [negb flat_map].
  - rewrite <- app_assoc. now apply Permutation_app_head.
  - rewrite IH. apply Permutation_app_swap_app.
Qed.
Lemma edges_nodup : NoDup (edges front) /\ NoDup (edges back) /\ forall e, In e (edges front) -> In e (edges back) -> False.
Proof.
  pose proof (Permutation_NoDup split_edges (i_nodup _ _ I)) as N. revert N. generalize (edges front) as A. intros A. induction A as [|x A IH]; cbn [app]; intros N.
  - split; [constructor|]. split; auto.
  - inversion N as [|? ? N1 N2]. subst. destruct (IH N2) as (X1 & X2 & X3). split; [constructor; auto; intros J; apply N1; apply in_or_app; auto|]. split; auto.
    intros e [<-|J] K; [apply N1; apply in_or_app; auto|eauto].
Qed.
Lemma edge_in e : In e (edges ts) <-> In e (edges front) \/ In e (edges back).
Proof.
  split; intros J; [apply in_app_or, (Permutation_in _ split_edges J)|apply (Permutation_in _ (Permutation_sym split_edges)), in_or_app, J].
Qed.
Lemma edge_bounds e : In e (edges ts) -> (e_a e < m)%nat /\ (e_b e < m)%nat /\ e_a e <> e_b e.
Proof.
  intros J. apply in_flat_map in J as (t & J & K). destruct (i_tri _ _ I t J) as ((A & B & C) & (D1 & D2 & D3) & _).
  cbn in K. destruct K as [<-|[<-|[<-|[]]]]; cbn; auto.
Qed.

(* ------------------------------------------------------------------ the faces seen from the new point *)

Variable pos : nat -> res (p3 R).
Hypothesis Hpos : forall i, (i < n)%nat -> pos i = Ok (P i).

Lemma seen_dot t : t_n t = normal_of (t_a t) (t_b t) (t_c t) -> v_dot r_ops (v_sub r_ops (P (t_a t)) (P m)) (t_n t) = - tvol t m.
Proof. intros ->. unfold tvol, vol, volume, normal_of, calc_normal, v_dot, v_sub, v_cross. cbn. ring. Qed.
Lemma retain_one t s : In t ts -> retain_step r_hops pos (P m) s t
  = Ok (if seen t then mk_visible (vi_kept s) (fold_left add_edge (edges_of t) (vi_edges s)) (vi_planar s) else mk_visible (vi_kept s ++ [t]) (vi_edges s) (vi_planar s)).
Proof.
  intros J. destruct (i_tri _ _ I t J) as ((A & B & C) & D & N). unfold retain_step. rewrite Hpos by lia. cbn [bind]. change (h_ops r_hops) with r_ops. change (h_zero r_hops) with 0.
  rewrite (seen_dot t N). change (o_lt r_ops) with (fun x y => if Rlt_dec x y then true else false). change (h_eq r_hops) with (fun x y => if Req_EM_T x y then true else false). cbv beta.
  pose proof (vol_m t J) as NZ. unfold seen. destruct (Rlt_dec 0 (tvol t m)) as [L|L].
  - destruct (Rlt_dec (- tvol t m) 0); [|lra]. reflexivity.
  - destruct (Rlt_dec (- tvol t m) 0); [lra|]. destruct (Req_EM_T (- tvol t m) 0); [lra|]. reflexivity.
Qed.
Lemma retain_run l : (forall t, In t l -> In t ts) -> forall s,
  foldM (retain_step r_hops pos (P m)) l s
  = Ok (mk_visible (vi_kept s ++ filter (fun t => negb (seen t)) l) (fold_left add_edge (edges (filter seen l)) (vi_edges s)) (vi_planar s)).
Proof.
  induction l as [|t l IH]; intros S s; cbn [foldM filter].
  - destruct s. cbn. now rewrite app_nil_r.
  - rewrite retain_one by (apply S; now left). cbn [bind]. rewrite IH by (intros x Jx; apply S; now right). destruct (seen t); cbn [negb vi_kept vi_edges vi_planar].
    + unfold edges. cbn [flat_map]. rewrite fold_left_app. reflexivity.
    + now rewrite <- app_assoc.
Qed.

Definition O := fst (fold_left add_edge (edges front) ([], [])).
Lemma O_horizon : horizon (edges front) O.
Proof.
  apply add_edges; [apply edges_nodup|]. intros e J. apply edge_bounds. apply edge_in. auto.
Qed.

(* the new faces have all the old points behind them *)
Lemma face_below a b q : In (mk_edge a b) O -> (q < m)%nat -> vol a b m q <= 0.
Proof.
  intros J Q. apply (proj2 O_horizon) in J. destruct J as (J & K). pose proof J as J'. apply in_flat_map in J' as (t & Jt & Je). apply front_in in Jt. destruct Jt as (Jt & V1).
  assert (X : In (mk_edge b a) (edges back)).
  { assert (Y : In (swap (mk_edge a b)) (edges ts)) by (apply (i_twin _ _ I), edge_in; auto). apply edge_in in Y. destruct Y; [contradiction|auto]. }
  apply in_flat_map in X as (u & Ju & Ke). apply back_in in Ju. destruct Ju as (Ju & V2).
  destruct (edge_tri _ _ _ Je) as (c & R1 & E1). destruct (edge_tri _ _ _ Ke) as (d & R2 & E2).
  pose proof (i_below _ _ I t q Jt Q) as B1. pose proof (i_below _ _ I u q Ju Q) as B2. rewrite E1 in V1, B1. rewrite E2 in V2, B2.
  assert (Dm : (d < m)%nat /\ distinct3 b a d).
  { destruct (i_tri _ _ I u Ju) as ((A & B & C) & (D1 & D2 & D3) & _). unfold rotated in R2. unfold distinct3. clear GP Hpos. destruct R2 as [Q2|[Q2|Q2]]; injection Q2 as X1 X2 X3; lia. }
  assert (Cm : ((a < m) /\ (b < m) /\ (c < m))%nat /\ distinct3 a b c).
  { destruct (i_tri _ _ I t Jt) as ((A & B & C) & (D1 & D2 & D3) & _). unfold rotated in R1. unfold distinct3. clear GP Hpos. destruct R1 as [Q2|[Q2|Q2]]; injection Q2 as X1 X2 X3; lia. }
  destruct Dm as (Dm & Db & Dba & Dad), Cm as ((Am & Bm & Cm) & DC).
  destruct (Nat.eq_dec c d) as [->|NE].
  - (* the two faces of the first triangle *)
    assert (Z : vol a b d q = 0). { unfold vol in *. rewrite turn_back in B2. unfold turn in B2. lra. }
    destruct (Nat.eq_dec q a) as [->|Na]; [unfold vol; destruct (volume_at (P a) (P b) (P m)); lra|].
    destruct (Nat.eq_dec q b) as [->|Nb]; [unfold vol; destruct (volume_at (P a) (P b) (P m)) as (_ & ? & _); lra|].
    destruct (Nat.eq_dec q d) as [->|Nd].
    + unfold vol in *. pose proof (turn_anti (P a) (P b) (P d) (P m)) as X. unfold turn in X. lra.
    + exfalso. apply (gp a b d q); auto; lia.
  - unfold vol in *. apply (wedge (P a) (P b) (P c) (P d)); auto.
    assert (X : tvol t d <= 0) by (apply (i_below _ _ I); auto). rewrite E1 in X. unfold vol in X.
    assert (Y : vol a b c d <> 0) by (apply gp; auto; lia). unfold vol in Y. lra.
Qed.
Lemma O_bounds a b : In (mk_edge a b) O -> (a < m)%nat /\ (b < m)%nat /\ a <> b.
Proof. intros J. apply (proj2 O_horizon) in J. apply (edge_bounds (mk_edge a b)). apply edge_in. left. apply J. Qed.
Lemma face_strict a b q : In (mk_edge a b) O -> (q < m)%nat -> q <> a -> q <> b -> vol a b m q < 0.
Proof.
  intros J Q Na Nb. pose proof (face_below a b q J Q). destruct (O_bounds _ _ J) as (A & B & C).
  assert (vol a b m q <> 0) by (apply gp; try lia; unfold distinct3; lia). lra.
Qed.
Lemma O_start v x y : In (mk_edge v x) O -> In (mk_edge v y) O -> x = y.
Proof.
  intros J K. destruct (Nat.eq_dec x y) as [|NE]; auto. exfalso. destruct (O_bounds _ _ J) as (A & B & C), (O_bounds _ _ K) as (_ & D & E).
  pose proof (face_strict v x y J D ltac:(lia) ltac:(lia)). pose proof (face_strict v y x K B ltac:(lia) ltac:(lia)).
  assert (vol v y m x = - vol v x m y) by (unfold vol, volume; ring). lra.
Qed.
Lemma O_end v x y : In (mk_edge x v) O -> In (mk_edge y v) O -> x = y.
Proof.
  intros J K. destruct (Nat.eq_dec x y) as [|NE]; auto. exfalso. destruct (O_bounds _ _ J) as (A & B & C), (O_bounds _ _ K) as (D & _ & E).
  pose proof (face_strict x v y J D ltac:(lia) ltac:(lia)). pose proof (face_strict y v x K A ltac:(lia) ltac:(lia)).
  assert (vol y v m x = - vol x v m y) by (unfold vol, volume; ring). lra.
Qed.

Lemma all_swapped (l D : list edge) : (forall e, In e l -> In (swap e) D) \/ exists e, In e l /\ ~ In (swap e) D.
Proof.
  induction l as [|x l IH]; [left; intros e []|]. destruct (in_dec edge_dec (swap x) D) as [Y|Y]; [|right; exists x; split; auto; now left].
  destruct IH as [IH|(e & J & K)]; [left; intros e [<-|J]; auto|right; exists e; split; auto; now right].
Qed.
(* as many edges enter a vertex as leave it *)
Definition leaving (v : nat) (D : list edge) := filter (fun e => Nat.eqb (e_a e) v) D.
Definition entering (v : nat) (D : list edge) := filter (fun e => Nat.eqb (e_b e) v) D.
Lemma balanced v l : (forall t, In t l -> In t ts) -> length (leaving v (edges l)) = length (entering v (edges l)).
Proof.
  unfold leaving, entering, edges. induction l as [|t l IH]; intros S; auto. cbn [flat_map]. rewrite !filter_app, !app_length, IH by (intros; apply S; now right). f_equal.
  cbn [edges_of filter e_a e_b]. destruct (Nat.eqb (t_a t) v), (Nat.eqb (t_b t) v), (Nat.eqb (t_c t) v); reflexivity.
Qed.
Lemma front_sub t : In t front -> In t ts.
Proof. intros J. now apply front_in in J. Qed.
Lemma NoDup_snoc {A} (l : list A) x : NoDup l -> ~ In x l -> NoDup (l ++ [x]).
Proof. intros N J. apply (Permutation_NoDup (Permutation_cons_append l x)). constructor; auto. Qed.
Lemma NoDup_swap l : NoDup l -> NoDup (map swap l).
Proof.
  induction 1; cbn; constructor; auto. intros J. apply in_map_iff in J as (y & E & J). apply H. rewrite <- (swap_swap x), <- E, swap_swap. exact J.
Qed.
Lemma O_next a b : In (mk_edge a b) O -> exists c, In (mk_edge b c) O.
Proof.
  intros J. pose proof (proj1 (proj2 O_horizon _) J) as (J1 & J2). destruct edges_nodup as (ND & _ & _).
  destruct (all_swapped (leaving b (edges front)) (edges front)) as [S|(e & X1 & X2)].
  2: { apply filter_In in X1. destruct X1 as (X1 & X3). apply Nat.eqb_eq in X3. destruct e as [x c]. cbn in X3. subst x. exists c. apply (proj2 O_horizon). split; auto. }
  exfalso.
    assert (L : (length (map swap (leaving b (edges front)) ++ [mk_edge a b]) <= length (entering b (edges front)))%nat).
    { apply NoDup_incl_length.
      - apply NoDup_snoc; [apply NoDup_swap, NoDup_filter, ND|]. intros K. apply in_map_iff in K as (e & E & K). apply J2. rewrite <- E, swap_swap. apply filter_In in K. apply K.
      - intros e K. apply in_app_or in K. apply filter_In. destruct K as [K|[<-|[]]].
        + apply in_map_iff in K as (f & <- & K). split; [apply S; auto|]. apply filter_In in K. cbn. apply K.
        + split; auto. cbn. apply Nat.eqb_refl. }
    rewrite app_length, map_length in L. cbn in L. rewrite (balanced b front front_sub) in L. lia.
Qed.
Lemma O_prev b c : In (mk_edge b c) O -> exists a, In (mk_edge a b) O.
Proof.
  intros J. pose proof (proj1 (proj2 O_horizon _) J) as (J1 & J2). destruct edges_nodup as (ND & _ & _).
  destruct (all_swapped (entering b (edges front)) (edges front)) as [S|(e & X1 & X2)].
  2: { apply filter_In in X1. destruct X1 as (X1 & X3). apply Nat.eqb_eq in X3. destruct e as [a x]. cbn in X3. subst x. exists a. apply (proj2 O_horizon). split; auto. }
  exfalso.
    assert (L : (length (map swap (entering b (edges front)) ++ [mk_edge b c]) <= length (leaving b (edges front)))%nat).
    { apply NoDup_incl_length.
      - apply NoDup_snoc; [apply NoDup_swap, NoDup_filter, ND|]. intros K. apply in_map_iff in K as (e & E & K). apply J2. rewrite <- E, swap_swap. apply filter_In in K. apply K.
      - intros e K. apply in_app_or in K. apply filter_In. destruct K as [K|[<-|[]]].
        + apply in_map_iff in K as (f & <- & K). split; [apply S; auto|]. apply filter_In in K. cbn. apply K.
        + split; auto. cbn. apply Nat.eqb_refl. }
    rewrite app_length, map_length in L. cbn in L. rewrite (balanced b front front_sub) in L. lia.
Qed.

(* ------------------------------------------------------------------ some face is not seen *)

Definition weight (e : edge) : p3 R := v_cross r_ops (P (e_a e)) (P (e_b e)).
Definition along (x : p3 R) (e : edge) : R := v_dot r_ops x (weight e).
Lemma along_swap x e : along x (swap e) = - along x e.
Proof. unfold along, weight, swap, v_dot, v_cross. cbn. ring. Qed.
Lemma total_swap x l : total (along x) (map swap l) = - total (along x) l.
Proof. induction l as [|e l IH]; cbn [map total fold_right]; [lra|]. fold (total (along x) l) (total (along x) (map swap l)). rewrite IH, along_swap. lra. Qed.
Lemma balance x : total (along x) (edges ts) = 0.
Proof.
  assert (PE : Permutation (map swap (edges ts)) (edges ts)).
  { apply NoDup_Permutation; [apply NoDup_swap, I|apply I|]. intros e. rewrite in_map_iff. split.
    - intros (f & <- & J). now apply (i_twin _ _ I).
    - intros J. exists (swap e). rewrite swap_swap. split; auto. now apply (i_twin _ _ I). }
  pose proof (total_perm (along x) _ _ PE) as E. rewrite total_swap in E. lra.
Qed.
Definition const (t : tri) : R := v_dot r_ops (P (t_a t)) (v_cross r_ops (P (t_b t)) (P (t_c t))).
Lemma tvol_split t q : tvol t q = total (along (P q)) (edges_of t) - const t.
Proof. unfold tvol, vol, volume, const, edges_of, total, along, weight, v_dot, v_cross. cbn. ring. Qed.
Lemma total_tvol l q : total (fun t => tvol t q) l = total (along (P q)) (edges l) - total const l.
Proof.
  induction l as [|t l IH]; [cbn [edges flat_map total fold_right]; lra|]. unfold edges in *. cbn [flat_map]. rewrite total_app. cbn [total fold_right]. fold (total (fun t => tvol t q) l) (total const l).
  rewrite IH, tvol_split. cbn [total fold_right edges_of]. lra.
Qed.
Lemma total_pos l (f : tri -> R) : l <> [] -> (forall t, In t l -> f t > 0) -> total f l > 0.
Proof.
  intros N H. destruct l as [|t l]; [contradiction|]. clear N. revert t H. induction l as [|u l IH]; intros t H.
  - cbn [total fold_right]. pose proof (H t (or_introl eq_refl)). lra.
  - cbn [total fold_right]. specialize (IH u (fun x J => H x (or_intror J))). cbn [total fold_right] in IH. pose proof (H t (or_introl eq_refl)). lra.
Qed.
Lemma total_neg l (f : tri -> R) : (forall t, In t l -> f t <= 0) -> total f l <= 0.
Proof.
  induction l as [|t l IH]; intros H; cbn [total fold_right]; [lra|]. pose proof (H t (or_introl eq_refl)). specialize (IH (fun x J => H x (or_intror J))). unfold total in IH. lra.
Qed.
Lemma back_some : back <> [].
Proof.
  intros B. assert (A : forall t, In t ts -> tvol t m > 0).
  { intros t J. destruct (Rlt_dec 0 (tvol t m)) as [|L]; auto. exfalso. assert (In t back); [|rewrite B in H; contradiction]. apply back_in. split; auto. pose proof (vol_m t J). lra. }
  pose proof (total_pos ts (fun t => tvol t m) (i_some _ _ I) A) as X. pose proof (total_neg ts (fun t => tvol t 0%nat) (fun t J => i_below _ _ I t 0%nat J ltac:(lia))) as Y.
  rewrite total_tvol, balance in X, Y. lra.
Qed.

(* ------------------------------------------------------------------ the new faces *)

Definition new_face (e : edge) : tri := mk_tri (e_a e) (e_b e) m (normal_of (e_a e) (e_b e) m).
Lemma add_faces_run es : (forall e, In e es -> (e_a e < m)%nat /\ (e_b e < m)%nat) -> forall l, add_faces r_hops pos m (P m) es l = Ok (l ++ map new_face es).
Proof.
  unfold add_faces. induction es as [|e es IH]; intros S l; cbn [foldM map]; [now rewrite app_nil_r|]. destruct (S e (or_introl eq_refl)) as (A & B).
  rewrite !Hpos by lia. cbn [bind]. rewrite IH by (intros f J; apply S; now right). now rewrite <- app_assoc.
Qed.
Lemma two_faces t : ts <> [t].
Proof.
  intros E. destruct (i_tri _ _ I t) as (_ & (D1 & D2 & D3) & _); [rewrite E; now left|].
  pose proof (i_twin _ _ I (mk_edge (t_a t) (t_b t))) as T. rewrite E in T. cbn in T. destruct T as [T|[T|[T|[]]]]; auto; unfold swap in T; cbn in T; injection T; congruence.
Qed.
Lemma step_run order : (forall s, Permutation (order s) s) -> exists es, Permutation es O /\ iteration r_hops pos order ts m (P m) = Ok (back ++ map new_face es).
Proof.
  intros RO. pose proof two_faces as TF. unfold iteration. destruct (Nat.eqb_spec m 0); [lia|].
  assert (G : exists es, Permutation es O /\ (let* s := retain r_hops pos (P m) ts in let '(outer, inner) := vi_edges s in
      match outer, inner with [], [] => grow_planar r_hops pos m (P m) (vi_planar s) (vi_kept s) | _, _ => add_faces r_hops pos m (P m) (order outer) (vi_kept s) end) = Ok (back ++ map new_face es)).
  { unfold retain. rewrite (retain_run ts (fun t J => J)). cbn [bind vi_kept vi_edges vi_planar app]. fold front back.
    pose proof (proj2 (add_edges (edges front) (proj1 edges_nodup) (fun e J => proj2 (proj2 (edge_bounds e (proj2 (edge_in e) (or_introl J))))))) as NE.
    destruct (fold_left add_edge (edges front) ([], [])) as (outer, inner) eqn:F. assert (EO : O = outer) by (unfold O; now rewrite F).
    assert (AF : exists es, Permutation es O /\ add_faces r_hops pos m (P m) (order outer) back = Ok (back ++ map new_face es)).
    { exists (order outer). rewrite EO. split; [apply RO|]. apply add_faces_run. intros e J. apply (Permutation_in _ (RO _)) in J. rewrite <- EO in J. destruct e as [a b]. destruct (O_bounds a b J) as (? & ? & _). auto. }
    destruct outer as [|e0 outer]; [destruct inner|]; auto. exists []. rewrite EO. split; [constructor|].
    assert (FE : edges front = []) by (destruct (edges front) as [|e l]; auto; exfalso; apply NE; [discriminate|reflexivity]).
    cbn. now rewrite app_nil_r. }
  revert G TF. generalize (back ++ map new_face []). generalize back O. clear. intros k o _ G TF. destruct ts as [|t [|u l]]; auto. exfalso. now apply (TF t).
Qed.

Variable es : list edge.
Hypothesis Hes : Permutation es O.
Let ts' := back ++ map new_face es.

Lemma es_in e : In e es <-> In e O.
Proof. split; apply Permutation_in; [|symmetry]; exact Hes. Qed.
Lemma ts'_in t : In t ts' <-> In t back \/ exists e, In e O /\ t = new_face e.
Proof.
  unfold ts'. rewrite in_app_iff, in_map_iff. split; (intros [J|(e & X & Y)]; [now left|right]); [exists e; split; [now apply es_in|auto]|exists e; split; [auto|now apply es_in]].
Qed.
Lemma edges_app l l' : edges (l ++ l') = edges l ++ edges l'.
Proof. unfold edges. now rewrite flat_map_app. Qed.
Lemma edges' e : In e (edges ts') <-> In e (edges back) \/ In e O \/ (exists x, In (mk_edge x (e_a e)) O /\ e_b e = m) \/ (exists x, In (mk_edge (e_b e) x) O /\ e_a e = m).
Proof.
  unfold ts'. rewrite edges_app, in_app_iff. apply or_iff_compat_l. unfold edges. rewrite in_flat_map. split.
  - intros (t & J & K). apply in_map_iff in J as (f & <- & J). apply es_in in J. destruct f as [a b]. cbn in K. destruct K as [<-|[<-|[<-|[]]]]; cbn; eauto.
  - destruct e as [a b]. cbn [e_a e_b]. intros [J|[(x & J & ->)|(x & J & ->)]].
    + exists (new_face (mk_edge a b)). split; [apply in_map, es_in, J|]. cbn. auto.
    + exists (new_face (mk_edge x a)). split; [apply in_map, es_in, J|]. cbn. auto.
    + exists (new_face (mk_edge b x)). split; [apply in_map, es_in, J|]. cbn. auto.
Qed.
Lemma NoDup_flat {A B} (f : A -> list B) l : NoDup l -> (forall x, In x l -> NoDup (f x)) -> (forall x y b, In x l -> In y l -> In b (f x) -> In b (f y) -> x = y) -> NoDup (flat_map f l).
Proof.
  induction 1 as [|x l N D IH]; intros F U; cbn [flat_map]; [constructor|]. apply NoDup_app_intro.
  - apply F. now left.
  - apply IH; [intros; apply F; now right|]. intros u v b Hu Hv. apply U; now right.
  - intros b J K. apply in_flat_map in K as (y & K & L). apply N. rewrite (U x y b); auto; [now left|now right].
Qed.
Lemma new_edges_nodup : NoDup (edges (map new_face es)).
Proof.
  unfold edges. rewrite flat_map_concat_map, map_map, <- flat_map_concat_map. apply NoDup_flat.
  - apply (Permutation_NoDup (Permutation_sym Hes)), O_horizon.
  - intros [a b] J. apply es_in in J. destruct (O_bounds a b J) as (A & B & C). cbn. repeat constructor; cbn; intros X; repeat (destruct X as [X|X]; [pose proof (f_equal e_a X) as X1; pose proof (f_equal e_b X) as X2; cbn in X1, X2; lia|]); auto.
  - intros [a b] [c d] e J K X Y. apply es_in in J, K. destruct (O_bounds a b J) as (A & B & C). destruct (O_bounds c d K) as (A' & B' & C'). cbn in X, Y.
    destruct X as [X|[X|[X|[]]]], Y as [Y|[Y|[Y|[]]]]; rewrite <- X in Y; pose proof (f_equal e_a Y) as Y1; pose proof (f_equal e_b Y) as Y2; cbn in Y1, Y2; try lia.
    + now rewrite Y1, Y2.
    + subst d. now rewrite (O_end b a c J K).
    + subst c. now rewrite (O_start a b d J K).
Qed.
Lemma back_sub e : In e (edges back) -> (e_a e < m)%nat /\ (e_b e < m)%nat.
Proof. intros J. destruct (edge_bounds e) as (A & B & _); auto. apply edge_in. auto. Qed.

Lemma step_nodup : NoDup (edges ts').
Proof.
  unfold ts'. rewrite edges_app. apply NoDup_app_intro; [apply edges_nodup|apply new_edges_nodup|].
  intros e J K. destruct (back_sub e J) as (A & B). unfold edges in K. apply in_flat_map in K as (t & K & L). apply in_map_iff in K as (f & <- & K). apply es_in in K. cbn in L.
  destruct L as [L|[L|[L|[]]]]; subst e; cbn in A, B; try lia. destruct f as [a b]. apply (proj2 O_horizon) in K. destruct edges_nodup as (_ & _ & X). now apply (X (mk_edge a b)).
Qed.
Lemma step_twin e : In e (edges ts') -> In (swap e) (edges ts').
Proof.
  rewrite !edges'. destruct e as [a b]. cbn [swap e_a e_b]. change (swap (mk_edge a b)) with (mk_edge b a). intros [J|[J|[(x & J & ->)|(x & J & ->)]]].
  - assert (K : In (mk_edge b a) (edges ts)) by (apply (i_twin _ _ I (mk_edge a b)), edge_in; auto). apply edge_in in K. destruct K as [K|K]; [|now left].
    right. left. apply (proj2 O_horizon). split; auto. intros X. destruct edges_nodup as (_ & _ & Y). apply (Y (mk_edge a b)); auto.
  - left. apply (proj2 O_horizon) in J. destruct J as (J & K). assert (X : In (mk_edge b a) (edges ts)) by (apply (i_twin _ _ I (mk_edge a b)), edge_in; auto).
    apply edge_in in X. destruct X as [X|X]; auto. now elim K.
  - right. right. right. destruct (O_next x a J) as (c & C). exists c. auto.
  - right. right. left. destruct (O_prev b x J) as (c & C). exists c. auto.
Qed.
Lemma step_tri t : In t ts' -> ((t_a t < S m)%nat /\ (t_b t < S m)%nat /\ (t_c t < S m)%nat) /\ distinct3 (t_a t) (t_b t) (t_c t) /\ t_n t = normal_of (t_a t) (t_b t) (t_c t).
Proof.
  rewrite ts'_in. intros [J|([a b] & J & ->)].
  - apply back_in in J. destruct (i_tri _ _ I t (proj1 J)) as ((A & B & C) & D & N). split; [lia|auto].
  - destruct (O_bounds a b J) as (A & B & C). cbn. split; [lia|]. split; auto. unfold distinct3. lia.
Qed.
Lemma step_below t q : In t ts' -> (q < S m)%nat -> tvol t q <= 0.
Proof.
  rewrite ts'_in. intros J Q. destruct (Nat.eq_dec q m) as [->|NE].
  - destruct J as [J|([a b] & J & ->)]; [apply back_in in J; lra|]. unfold tvol, vol. cbn. destruct (volume_at (P a) (P b) (P m)) as (_ & _ & X). lra.
  - destruct J as [J|([a b] & J & ->)]; [apply back_in in J; apply (i_below _ _ I); [apply J|lia]|]. unfold tvol. cbn [t_a t_b t_c new_face e_a e_b]. apply face_below; auto. lia.
Qed.

(* ------------------------------------------------------------------ no facet is missed *)

(* a greatest and a least element of a list of points, in the order of their angles about the line a b *)
Lemma extreme a b p (sgn : R) l : l <> [] -> (forall x, In x l -> turn a b p (P x) < 0) -> sgn = 1 \/ sgn = -1 ->
  exists x, In x l /\ forall y, In y l -> sgn * turn a b (P x) (P y) <= 0.
Proof.
  intros NE H SG. destruct l as [|x0 l]; [contradiction|]. clear NE. revert x0 H. induction l as [|x1 l IH]; intros x0 H.
  - exists x0. split; [now left|]. intros y [<-|[]]. pose proof (turn_anti a b (P x0) (P x0)). destruct SG; subst; lra.
  - destruct (IH x1 (fun x J => H x (or_intror J))) as (x & J & G).
    pose proof (turn_anti a b (P x0) (P x)) as T. pose proof (turn_anti a b (P x0) (P x0)) as T0.
    destruct (Rle_dec (sgn * turn a b (P x) (P x0)) 0) as [L|L].
    + exists x. split; [now right|]. intros y [<-|K]; auto.
    + exists x0. split; [now left|]. intros y [<-|K]; [destruct SG; subst; lra|]. specialize (G y K).
      pose proof (plucker a b p (P x0) (P x) (P y)) as PL. pose proof (H x0 (or_introl eq_refl)) as H0. pose proof (H x (or_intror J)) as H1. pose proof (H y (or_intror K)) as H2.
      assert (A : sgn * turn a b (P x0) (P x) <= 0) by (destruct SG; subst; lra).
      revert PL H0 H1 H2 A G SG. clear. generalize (turn a b p (P x0)) (turn a b p (P x)) (turn a b p (P y)) (turn a b (P x) (P y)) (turn a b (P x0) (P y)) (turn a b (P x0) (P x)).
      intros u v w r s t PL H0 H1 H2 A G SG.
      (* u * r - v * s + w * t = 0 *)
      destruct (Rle_dec (sgn * s) 0) as [|N]; auto. exfalso.
      assert (E1 : 0 <= (- u) * (- (sgn * r))) by (apply Rmult_le_pos; lra).
      assert (E2 : 0 <= (- w) * (- (sgn * t))) by (apply Rmult_le_pos; lra).
      assert (E3 : 0 < (- v) * (sgn * s)) by (apply Rmult_lt_0_compat; lra).
      destruct SG; subst sgn; lra.
Qed.
Lemma facet_new a b : (a < m)%nat -> (b < m)%nat -> a <> b -> (forall q, (q < m)%nat -> q <> a -> q <> b -> vol a b m q < 0) -> In (mk_edge a b) O.
Proof.
  intros A B AB F. set (l := filter (fun q => negb (Nat.eqb q a) && negb (Nat.eqb q b)) (seq 0 m)).
  assert (IL : forall q, In q l <-> (q < m)%nat /\ q <> a /\ q <> b).
  { intros q. unfold l. rewrite filter_In, in_seq, andb_true_iff, !negb_true_iff, !Nat.eqb_neq. intuition lia. }
  assert (NL : l <> []).
  { intros E. assert (X : exists q, (q < 3)%nat /\ q <> a /\ q <> b).
    { destruct (Nat.eq_dec a 0), (Nat.eq_dec b 0), (Nat.eq_dec a 1), (Nat.eq_dec b 1); try (exists 0%nat; lia); try (exists 1%nat; lia); exists 2%nat; lia. }
    destruct X as (q & X1 & X2 & X3). assert (In q l) by (apply IL; lia). rewrite E in H. contradiction. }
  assert (HP : forall x, In x l -> turn (P a) (P b) (P m) (P x) < 0) by (intros x J; apply IL in J; destruct J as (J1 & J2 & J3); now apply F).
  destruct (extreme (P a) (P b) (P m) 1 l NL HP (or_introl eq_refl)) as (x & Jx & Gx). destruct (extreme (P a) (P b) (P m) (-1) l NL HP (or_intror eq_refl)) as (y & Jy & Gy).
  pose proof (proj1 (IL x) Jx) as (X1 & X2 & X3). pose proof (proj1 (IL y) Jy) as (Y1 & Y2 & Y3).
  destruct (i_all _ _ I a b x) as (t & T1 & T2); auto; [unfold distinct3; auto| |].
  { intros q Q1 Q2 Q3 Q4. assert (Jq : In q l) by now apply IL. specialize (Gx q Jq). assert (NZ : vol a b x q <> 0) by (apply gp; auto; try lia; unfold distinct3; auto).
    unfold vol in *. unfold turn in Gx. lra. }
  destruct (i_all _ _ I b a y) as (u & U1 & U2); auto; [unfold distinct3; auto| |].
  { intros q Q1 Q2 Q3 Q4. assert (Jq : In q l) by now apply IL. specialize (Gy q Jq). assert (NZ : vol b a y q <> 0) by (apply gp; auto; try lia; unfold distinct3; auto).
    unfold vol in *. rewrite turn_back in NZ |- *. lra. }
  destruct (rotated_edge _ _ _ _ T2) as (T3 & T4). destruct (rotated_edge _ _ _ _ U2) as (U3 & U4).
  apply (proj2 O_horizon). split.
  - unfold edges. apply in_flat_map. exists t. split; auto. apply front_in. split; auto. rewrite T4. pose proof (HP x Jx). pose proof (turn_anti (P a) (P b) (P m) (P x)) as TA. unfold vol. unfold turn in *. lra.
  - intros K. destruct edges_nodup as (_ & _ & Z). apply (Z (mk_edge b a)); auto. unfold edges. apply in_flat_map. exists u. split; auto. apply back_in. split; auto. rewrite U4.
    pose proof (HP y Jy). pose proof (turn_anti (P a) (P b) (P m) (P y)) as TA. unfold vol. rewrite turn_back. lra.
Qed.
Lemma new_rotated a b c : In (mk_edge a b) O -> rotated c (a, b, m) -> exists t, In t ts' /\ rotated c (t_a t, t_b t, t_c t).
Proof. intros J K. exists (new_face (mk_edge a b)). split; [apply ts'_in; eauto|exact K]. Qed.
Lemma step_all i j k : (i < S m)%nat -> (j < S m)%nat -> (k < S m)%nat -> distinct3 i j k ->
  (forall q, (q < S m)%nat -> q <> i -> q <> j -> q <> k -> vol i j k q < 0) -> exists t, In t ts' /\ rotated (i, j, k) (t_a t, t_b t, t_c t).
Proof.
  intros Hi Hj Hk (D1 & D2 & D3) F.
  destruct (Nat.eq_dec k m) as [->|Nk].
  { apply (new_rotated i j (i, j, m)); [|cbn; auto]. apply facet_new; try lia. intros q Q1 Q2 Q3. apply F; lia. }
  destruct (Nat.eq_dec i m) as [->|Ni].
  { apply (new_rotated j k (m, j, k)); [|cbn; auto]. apply facet_new; try lia. intros q Q1 Q2 Q3. unfold vol in *. rewrite (volume_rot (P m) (P j) (P k)). apply F; lia. }
  destruct (Nat.eq_dec j m) as [->|Nj].
  { apply (new_rotated k i (i, m, k)); [|cbn; auto]. apply facet_new; try lia. intros q Q1 Q2 Q3. unfold vol in *. rewrite (volume_rot (P m) (P k) (P i)), (volume_rot (P i) (P m) (P k)). apply F; lia. }
  destruct (i_all _ _ I i j k) as (t & T1 & T2); try lia; [unfold distinct3; auto|intros; apply F; lia|].
  exists t. split; auto. apply ts'_in. left. apply back_in. split; auto. destruct (rotated_edge _ _ _ _ T2) as (_ & T4). rewrite T4. apply F; lia.
Qed.
Lemma step_inv : inv (S m) ts'.
Proof.
  constructor; [exact step_tri|exact step_nodup|exact step_twin|exact step_below| |exact step_all].
  unfold ts'. intros X. apply app_eq_nil in X. now apply back_some.
Qed.
End Step.

(* ------------------------------------------------------------------ the first three points *)

Lemma n4 : (4 <= n)%nat.
Proof. apply GP. Qed.
Lemma not_on_line : vol 0 1 2 3 <> 0.
Proof. pose proof n4. apply gp; unfold distinct3; lia. Qed.
Lemma third pos : (forall i, (i < n)%nat -> pos i = Ok (P i)) ->
  grow_line r_hops pos 2 (P 2) (mk_tri 0 1 0 (P 0)) = Ok [mk_tri 0 1 2 (normal_of 0 1 2); mk_tri 0 2 1 (v_neg r_hops (normal_of 0 1 2))].
Proof.
  intros Hpos. pose proof n4. pose proof not_on_line as NL. apply third_point; [apply Hpos; lia|apply Hpos; lia|].
  intros E. apply NL. unfold vol, volume. unfold v_cross, v_sub in E. cbn [px py pz] in E. injection E as E1 E2 E3.
  change (o_sub r_ops) with Rminus in *. change (o_mul r_ops) with Rmult in *. rewrite E1, E2, E3. ring.
Qed.
Definition start : list tri := [mk_tri 0 1 2 (normal_of 0 1 2); mk_tri 0 2 1 (v_neg r_hops (normal_of 0 1 2))].
Lemma neg_normal : v_neg r_hops (normal_of 0 1 2) = normal_of 0 2 1.
Proof.
  unfold v_neg, normal_of, calc_normal, v_cross. change (h_ops r_hops) with r_ops. change (o_sub r_ops) with Rminus. change (o_mul r_ops) with Rmult. change (o_neg r_ops) with Ropp. cbn [px py pz]. f_equal; ring.
Qed.
Lemma start_inv : inv 3 start.
Proof.
  unfold start. rewrite neg_normal. constructor.
  - intros t [<-|[<-|[]]]; cbn [t_a t_b t_c t_n]; unfold distinct3; repeat split; lia.
  - cbn. repeat constructor; cbn; intros X; repeat (destruct X as [X|X]; [discriminate|]); auto.
  - cbn. intros e J. repeat (destruct J as [<-|J]; [cbn; unfold swap; cbn; tauto|]). contradiction.
  - intros t q J Q. assert (Z : tvol t q = 0); [|lra]. unfold tvol, vol. destruct q as [|[|[|q]]]; [| | |lia]; destruct J as [<-|[<-|[]]]; cbn [t_a t_b t_c]; apply volume_at.
  - discriminate.
  - intros i j k Hi Hj Hk (D1 & D2 & D3) _.
    destruct i as [|[|[|]]]; try lia; destruct j as [|[|[|]]]; try lia; destruct k as [|[|[|]]]; try lia.
    all: try (exists (mk_tri 0 1 2 (normal_of 0 1 2)); cbn; tauto). all: exists (mk_tri 0 2 1 (normal_of 0 2 1)); cbn; tauto.
Qed.

Lemma run_inv pos order : (forall i, (i < n)%nat -> pos i = Ok (P i)) -> any_edge_order order -> forall rest m ts, (3 <= m)%nat -> (m + length rest = n)%nat ->
  (forall k, (k < length rest)%nat -> nth k rest (mk_p3 0 0 0) = P (m + k)) -> inv m ts -> exists ts', iterate r_hops pos order m rest ts = Ok ts' /\ inv n ts'.
Proof.
  intros Hpos RO. induction rest as [|p rest IH]; intros m ts Hm Hl Hr I; cbn [iterate].
  - cbn in Hl. replace n with m by lia. eauto.
  - cbn [length] in Hl. assert (E : p = P m) by (specialize (Hr 0%nat ltac:(cbn; lia)); cbn in Hr; rewrite Nat.add_0_r in Hr; exact Hr). subst p.
    destruct (step_run m ts Hm ltac:(lia) I pos Hpos (order m) (RO m)) as (es & Pe & ->). cbn [bind]. apply IH; try lia.
    + intros k Hk. specialize (Hr (S k) ltac:(cbn; lia)). cbn [nth] in Hr. rewrite Hr. f_equal. lia.
    + apply (step_inv m ts Hm ltac:(lia) I pos Hpos es Pe).
Qed.
Lemma first_one pos o p : iteration r_hops (fun i => pos i) o [] 0 p = Ok [mk_tri 0 0 0 p].
Proof. reflexivity. Qed.
Lemma first_two pos o p q : iteration r_hops (fun i => pos i) o [mk_tri 0 0 0 p] 1 q = Ok [mk_tri 0 1 0 p].
Proof. reflexivity. Qed.
Lemma exact_hull order : any_edge_order order -> exists ts, iterate r_hops (fun i => vec_at ps i) order 0 ps [] = Ok ts /\ inv n ts.
Proof.
  intros RO. pose proof n4 as N4. assert (Hpos : forall i, (i < n)%nat -> vec_at ps i = Ok (P i)).
  { intros i H. unfold vec_at, P, point. rewrite (nth_error_nth' ps (mk_p3 0 0 0) H). reflexivity. }
  assert (EP : exists rest, ps = P 0 :: P 1 :: P 2 :: rest).
  { unfold P, point, n in *. destruct ps as [|a [|b [|c rest]]]; cbn in N4; try lia. exists rest. reflexivity. }
  destruct EP as (rest & EP). pose proof (third (fun i => vec_at ps i) Hpos) as T. fold start in T.
  destruct (run_inv (fun i => vec_at ps i) order Hpos RO rest 3 start) as (ts & E & I); auto.
  - assert (X : length ps = length (P 0 :: P 1 :: P 2 :: rest)) by now rewrite <- EP. cbn in X. unfold n. lia.
  - intros k Hk. unfold P at 1, point. replace (nth k rest (mk_p3 0 0 0)) with (nth (3 + k) (P 0 :: P 1 :: P 2 :: rest) (mk_p3 0 0 0)) by reflexivity. now rewrite <- EP.
  - apply start_inv.
  - exists ts. split; auto. rewrite <- E. generalize (vec_at ps) T. intros pos T'. rewrite EP. cbn [iterate].
    rewrite first_one. cbn [bind]. rewrite first_two. cbn [bind].
    change (iteration r_hops (fun i => pos i) (order 2%nat) [mk_tri 0 1 0 (P 0)] 2 (P 2)) with (grow_line r_hops (fun i => pos i) 2 (P 2) (mk_tri 0 1 0 (P 0))). rewrite T'. reflexivity.
Qed.

Lemma edges_directed (l : list tri) : directed (indices l) = map (fun e => (e_a e, e_b e)) (edges l).
Proof. unfold directed, indices, edges. induction l as [|t l IH]; [reflexivity|]. cbn [map flat_map app edges_of e_a e_b]. now rewrite IH. Qed.
Lemma exact_facets order : any_edge_order order ->
  exists ts, iterate r_hops (fun i => vec_at ps i) order 0 ps [] = Ok ts
    /\ (forall i j k, facet ps i j k <-> exists t, In t (indices ts) /\ rotated (i, j, k) t) /\ closed_surface (indices ts).
Proof.
  intros RO. destruct (exact_hull order RO) as (ts & E & I). exists ts. split; auto. split; [|split].
  - intros i j k. split.
    + intros (Hi & Hj & Hk & D & F). destruct (i_all _ _ I i j k Hi Hj Hk D F) as (t & T1 & T2). exists (t_a t, t_b t, t_c t). split; auto. unfold indices. apply in_map_iff. eauto.
    + intros (t & T1 & T2). unfold indices in T1. apply in_map_iff in T1 as (u & <- & U). destruct (i_tri _ _ I u U) as ((A & B & C) & (D1 & D2 & D3) & _).
      assert (X : (i < n)%nat /\ (j < n)%nat /\ (k < n)%nat /\ distinct3 i j k).
      { unfold rotated in T2. unfold distinct3. destruct T2 as [Q|[Q|Q]]; injection Q as X1 X2 X3; lia. }
      destruct X as (Hi & Hj & Hk & D). split; auto. split; auto. split; auto. split; auto. intros l L N1 N2 N3.
      destruct (rotated_edge _ _ _ _ T2) as (_ & TV). pose proof (i_below _ _ I u l U L) as BL. rewrite TV in BL. assert (NZ : vol i j k l <> 0) by (apply gp; auto). unfold vol in *. fold P. lra.
  - rewrite edges_directed. apply FinFun.Injective_map_NoDup; [|apply I]. intros [a b] [c d] X. cbn in X. injection X as -> ->. reflexivity.
  - intros i j J. rewrite edges_directed in *. apply in_map_iff in J as (e & X & J). destruct e as [a b]. cbn in X. injection X as -> ->. apply (i_twin _ _ I) in J. apply in_map_iff. eexists. split; [|exact J]. reflexivity.
Qed.
End Exact.
