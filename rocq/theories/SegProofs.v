(* Proofs about the RANSAC segmentation: drawing, counting, searching. *)
From Coq Require Import String Ascii List ZArith Lia Bool Arith SpecFloat Sorted.
From Verif Require Import Base LayoutModel LayoutSpec LayoutProofs BufferModel BufferSpec ListLemmas BufferProofs TraitModel TraitSpec TraitProofs TraitProofs2 TraitProofs3
  NumModel ConvProofs BufferFacts ConvModel ConvSpec MathModel MathSpec MathProofs MathProofs2 SegModel SegSpec.
Import ListNotations.
Open Scope nat_scope.

(* ------------------------------------------------------------------ drawing *)

Lemma draw_until_run u l x rest : Forall (fun r => u r = true) l -> u x = false -> draw_until u (l ++ x :: rest) = Some (x, rest).
Proof. induction 1; intros X; cbn [app draw_until]; [now rewrite X|]. rewrite H. auto. Qed.
Lemma draw_until_inv u l x rest : draw_until u l = Some (x, rest) -> exists again, l = again ++ x :: rest /\ Forall (fun r => u r = true) again /\ u x = false.
Proof.
  induction l as [|r l IH]; cbn [draw_until]; [discriminate|]. destruct (u r) eqn:E; intros H.
  - destruct (IH H) as (ag & -> & F & X). exists (r :: ag). repeat split; auto.
  - injection H as -> ->. exists []. repeat split; auto.
Qed.

Lemma draw3_run n d t rest : sample3 n d t -> draw3 (d ++ rest) = Some (t, rest).
Proof.
  destruct t as ((i, j), k). intros (a1 & a2 & -> & F1 & NJ & F2 & NK1 & NK2 & _). cbn [app draw3].
  rewrite <- !app_assoc. cbn [app]. rewrite <- !app_assoc. cbn [app].
  rewrite (draw_until_run (fun r => Nat.eqb i r) a1 j).
  - rewrite (draw_until_run (fun r => Nat.eqb j r || Nat.eqb i r) a2 k); [reflexivity| |].
    + eapply Forall_impl; [|exact F2]. cbv beta. intros r [->| ->]; rewrite Nat.eqb_refl; auto using orb_true_r.
    + rewrite (proj2 (Nat.eqb_neq j k)), (proj2 (Nat.eqb_neq i k)); auto.
  - eapply Forall_impl; [|exact F1]. cbv beta. intros r ->. apply Nat.eqb_refl.
  - apply Nat.eqb_neq. auto.
Qed.
Lemma draw3_inv n d t rest : Forall (fun r => r < n) d -> draw3 d = Some (t, rest) -> exists run, d = run ++ rest /\ sample3 n run t.
Proof.
  intros FD. unfold draw3. destruct d as [|i d]; [discriminate|].
  destruct (draw_until (fun r => Nat.eqb i r) d) as [(j, d2)|] eqn:E1; [|discriminate].
  destruct (draw_until (fun r => Nat.eqb j r || Nat.eqb i r) d2) as [(k, d3)|] eqn:E2; [|discriminate].
  intros H. injection H as <- <-. apply draw_until_inv in E1. destruct E1 as (a1 & -> & F1 & X1). apply draw_until_inv in E2. destruct E2 as (a2 & -> & F2 & X2).
  exists (i :: a1 ++ j :: a2 ++ [k]). split; [cbn [app]; f_equal; rewrite <- app_assoc; cbn [app]; now rewrite <- app_assoc|].
  rewrite Forall_forall in FD. exists a1, a2. apply Nat.eqb_neq in X1. apply orb_false_elim in X2. destruct X2 as (X2 & X3). apply Nat.eqb_neq in X2, X3.
  split; [reflexivity|]. repeat split; auto.
  - eapply Forall_impl; [|exact F1]. cbv beta. intros r Hr. apply Nat.eqb_eq in Hr. auto.
  - eapply Forall_impl; [|exact F2]. cbv beta. intros r Hr. apply orb_prop in Hr. destruct Hr as [Hr|Hr]; apply Nat.eqb_eq in Hr; auto.
  - apply FD. now left.
  - apply FD. right. apply in_or_app. right. now left.
  - apply FD. right. apply in_or_app. right. right. apply in_or_app. right. now left.
Qed.
Lemma draw2_run n d t rest : sample2 n d t -> draw2 (d ++ rest) = Some (t, rest).
Proof.
  destruct t as (i, j). intros (a1 & -> & F1 & NJ & _). cbn [app draw2]. rewrite <- !app_assoc. cbn [app].
  rewrite (draw_until_run (fun r => Nat.eqb i r) a1 j); [reflexivity| |apply Nat.eqb_neq; auto].
  eapply Forall_impl; [|exact F1]. cbv beta. intros r ->. apply Nat.eqb_refl.
Qed.
Lemma draw2_inv n d t rest : Forall (fun r => r < n) d -> draw2 d = Some (t, rest) -> exists run, d = run ++ rest /\ sample2 n run t.
Proof.
  intros FD. unfold draw2. destruct d as [|i d]; [discriminate|].
  destruct (draw_until (fun r => Nat.eqb i r) d) as [(j, d2)|] eqn:E1; [|discriminate].
  intros H. injection H as <- <-. apply draw_until_inv in E1. destruct E1 as (a1 & -> & F1 & X1).
  exists (i :: a1 ++ [j]). split; [cbn [app]; f_equal; now rewrite <- app_assoc|].
  rewrite Forall_forall in FD. exists a1. apply Nat.eqb_neq in X1.
  split; [reflexivity|]. repeat split; auto.
  - eapply Forall_impl; [|exact F1]. cbv beta. intros r Hr. apply Nat.eqb_eq in Hr. auto.
  - apply FD. now left.
  - apply FD. right. apply in_or_app. right. now left.
Qed.

(* ------------------------------------------------------------------ positions *)

Lemma points3_length b m : has_positions b m -> length (points3 b m) = bf_len b.
Proof. intros (W & _). unfold points3. rewrite map_length. apply (bf_points_uniform b W). Qed.
Lemma position_at_ok b m i p : has_positions b m -> nth_error (points3 b m) i = Some p -> position_at b i = Ok p.
Proof.
  intros (W & Hm & D) E. unfold points3 in E. rewrite nth_error_map in E. destruct (nth_error (bf_points b) i) as [r|] eqn:Hr; [|discriminate].
  cbn in E. injection E as <-. destruct (bf_points_uniform b W) as (_ & LEN).
  assert (L : i < bf_len b) by (rewrite <- LEN; apply nth_error_Some; congruence).
  unfold position_at. pose proof (proj2 (view_at b m i W Hm L)) as V. assert (T : m_type m = Vec3f64) by (unfold m_type; now rewrite D).
  rewrite D, T in V. rewrite V. cbn [bind]. now rewrite (nth_nth_error _ _ _ _ Hr).
Qed.
Lemma positions_view b m : has_positions b m -> attribute_view (bf_layout b) POSITION_3D Vec3f64 = Ok m.
Proof.
  intros (W & Hm & D). pose proof (proj2 (proj2 (proj2 (bf_wf_root b W)))) as G. unfold attribute_view.
  change (datatype_eqb Vec3f64 (ad_type POSITION_3D)) with true. cbn [assert bind].
  change (get_attribute (bf_layout b) POSITION_3D) with (member_of (bf_layout b) POSITION_3D). rewrite <- D, (member_of_In _ _ G Hm). reflexivity.
Qed.

(* ------------------------------------------------------------------ counting *)

Section Counting.
Variable M : Type.
Variable dist : p3 spec_float -> M -> spec_float.
Variable thr : spec_float.
Variable pts : list (p3 spec_float).
Variable m : M.

Definition chosen (i : nat) : bool := match nth_error pts i with Some p => SFltb (dist p m) thr | None => false end.
Definition chosen_of (n : nat) : list nat := filter chosen (seq 0 n).

Lemma chosen_sorted a n : StronglySorted Peano.lt (filter chosen (seq a n)).
Proof.
  revert a. induction n as [|n IH]; intros a; cbn [seq filter]; [constructor|].
  destruct (chosen a); auto. constructor; auto. apply Forall_forall. intros x Hx. apply filter_In in Hx. destruct Hx as (Hx & _). apply in_seq in Hx. lia.
Qed.
Lemma chosen_inliers : inliers pts dist thr m (chosen_of (length pts)).
Proof.
  split; [apply chosen_sorted|]. intros i. unfold chosen_of. rewrite filter_In, in_seq. unfold chosen. split.
  - intros (_ & H). destruct (nth_error pts i) as [p|] eqn:E; [|discriminate]. exists p. auto.
  - intros (p & E & H). rewrite E. assert (L := E). apply nth_error_lt in L. split; [lia|auto].
Qed.
End Counting.

Lemma sorted_unique l l' : StronglySorted Peano.lt l -> StronglySorted Peano.lt l' -> (forall i, In i l <-> In i l') -> l = l'.
Proof.
  intros S. revert l'. induction S as [|a l S IH F]; intros l' S' E.
  - destruct l' as [|b l']; auto. exfalso. apply (proj2 (E b)). now left.
  - destruct S' as [|b l' S' F'].
    + exfalso. apply (proj1 (E a)). now left.
    + rewrite Forall_forall in F, F'. assert (a = b).
      { destruct (proj1 (E a) (or_introl eq_refl)) as [X|X]; [auto|]. destruct (proj2 (E b) (or_introl eq_refl)) as [Y|Y]; [auto|].
        specialize (F' a X). specialize (F b Y). lia. }
      subst b. f_equal. apply IH; auto. intros i. split; intros H.
      * destruct (proj1 (E i) (or_intror H)) as [<-|]; auto. specialize (F a H). lia.
      * destruct (proj2 (E i) (or_intror H)) as [<-|]; auto. specialize (F' a H). lia.
Qed.
Lemma inliers_unique {M} pts dist thr (m : M) l l' : inliers pts dist thr m l -> inliers pts dist thr m l' -> l = l'.
Proof. intros (S & H) (S' & H'). apply sorted_unique; auto. intros i. rewrite H, H'. tauto. Qed.

(* the hypothesis for a model *)
Definition hyp_of {M} (dist : p3 spec_float -> M -> spec_float) thr pts (m : M) : hypothesis M :=
  mk_hyp m (length (chosen_of M dist thr pts m (length pts))) (chosen_of M dist thr pts m (length pts)).

Lemma count_inliers_ok {M} b m (dist : p3 spec_float -> M -> spec_float) thr x : has_positions b m ->
  count_inliers b dist thr x = Ok (hyp_of dist thr (points3 b m) x).
Proof.
  intros H. unfold count_inliers. rewrite (positions_view b m H). cbn [bind]. rewrite <- (points3_length b m H).
  set (body := fun h i => _). set (pts := points3 b m). unfold hyp_of.
  assert (X : forall k, k <= length pts -> foldM body (range 0 k) (mk_hyp x 0 []) = Ok (mk_hyp x (length (chosen_of M dist thr pts x k)) (chosen_of M dist thr pts x k))).
  { induction k as [|k IH]; intros L; [reflexivity|]. unfold range in *. rewrite Nat.sub_0_r in *. rewrite seq_S, foldM_snoc, IH by lia. cbn [bind].
    unfold body. cbn [h_model h_ranking h_inliers Nat.add]. destruct (nth_error pts k) as [p|] eqn:E; [|apply nth_error_None in E; lia].
    rewrite (position_at_ok b m k p H E). cbn [bind]. unfold chosen_of. rewrite seq_S, filter_app. cbn [filter Nat.add]. assert (CE : chosen M dist thr pts x k = SFltb (dist p x) thr) by (unfold chosen; now rewrite E). rewrite CE.
    destruct (SFltb (dist p x) thr) eqn:C; rewrite ?app_nil_r, ?app_length; reflexivity. }
  apply X. reflexivity.
Qed.

Lemma generate_plane_ok b m thr run t rest : has_positions b m -> sample3 (bf_len b) run t ->
  exists pl, is_plane_of (points3 b m) t pl
    /\ generate_plane_model b thr (run ++ rest) = Some (Ok (hyp_of (distance_point_plane f64_ops) thr (points3 b m) pl), rest).
Proof.
  intros H S. unfold generate_plane_model. rewrite (draw3_run _ _ _ rest S). destruct t as ((i, j), k).
  destruct S as (a1 & a2 & _ & _ & _ & _ & _ & _ & Li & Lj & Lk). rewrite <- (points3_length b m H) in Li, Lj, Lk.
  apply nth_error_Some in Li, Lj, Lk.
  destruct (nth_error (points3 b m) i) as [p|] eqn:Ei; [|congruence]. destruct (nth_error (points3 b m) j) as [q|] eqn:Ej; [|congruence].
  destruct (nth_error (points3 b m) k) as [r|] eqn:Ek; [|congruence].
  exists (plane_of f64_ops p q r). split; [exists p, q, r; auto|].
  unfold generate_rng_plane. rewrite (position_at_ok b m i p H Ei), (position_at_ok b m j q H Ej), (position_at_ok b m k r H Ek). cbn [bind].
  now rewrite (count_inliers_ok b m _ thr _ H).
Qed.
Lemma generate_line_ok b m thr run t rest : has_positions b m -> sample2 (bf_len b) run t ->
  exists l, is_line_of (points3 b m) t l
    /\ generate_line_model b thr (run ++ rest) = Some (Ok (hyp_of (distance_point_line f64_ops) thr (points3 b m) l), rest).
Proof.
  intros H S. unfold generate_line_model. rewrite (draw2_run _ _ _ rest S). destruct t as (i, j).
  destruct S as (a1 & _ & _ & _ & Li & Lj). rewrite <- (points3_length b m H) in Li, Lj. apply nth_error_Some in Li, Lj.
  destruct (nth_error (points3 b m) i) as [p|] eqn:Ei; [|congruence]. destruct (nth_error (points3 b m) j) as [q|] eqn:Ej; [|congruence].
  exists (mk_line p q). split; [exists p, q; auto|].
  unfold generate_rng_line. rewrite (position_at_ok b m i p H Ei), (position_at_ok b m j q H Ej). cbn [bind].
  now rewrite (count_inliers_ok b m _ thr _ H).
Qed.

(* ------------------------------------------------------------------ searching *)

Section Searching.
Variable M : Type.
Notation hyp := (hypothesis M).

(* x is the last best hypothesis of l *)
Definition last_best (l : list hyp) (x : hyp) : Prop :=
  exists k, nth_error l k = Some x /\ forall k' y, nth_error l k' = Some y -> h_ranking y <= h_ranking x /\ (k < k' -> h_ranking y < h_ranking x).

Lemma last_best_one x : last_best [x] x.
Proof.
  exists 0. split; [reflexivity|]. intros [|k'] y E; cbn in E; [injection E as ->; lia|]. destruct k'; discriminate.
Qed.
Lemma last_best_app l l' x y : last_best l x -> last_best l' y -> last_best (l ++ l') (better x y).
Proof.
  intros (k & E & B) (k2 & E2 & B2). unfold better.
  assert (K := nth_error_lt _ _ _ E). destruct (Nat.compare_spec (h_ranking x) (h_ranking y)) as [C|C|C].
  - exists (length l + k2). split; [rewrite nth_error_app2 by lia; now replace (length l + k2 - length l) with k2 by lia|].
    intros k' z Ez. destruct (Nat.lt_ge_cases k' (length l)) as [L|L].
    + rewrite nth_error_app1 in Ez by auto. specialize (B _ _ Ez). lia.
    + rewrite nth_error_app2 in Ez by auto. specialize (B2 _ _ Ez). lia.
  - exists (length l + k2). split; [rewrite nth_error_app2 by lia; now replace (length l + k2 - length l) with k2 by lia|].
    intros k' z Ez. destruct (Nat.lt_ge_cases k' (length l)) as [L|L].
    + rewrite nth_error_app1 in Ez by auto. specialize (B _ _ Ez). lia.
    + rewrite nth_error_app2 in Ez by auto. specialize (B2 _ _ Ez). lia.
  - exists k. split; [now rewrite nth_error_app1|].
    intros k' z Ez. destruct (Nat.lt_ge_cases k' (length l)) as [L|L].
    + rewrite nth_error_app1 in Ez by auto. specialize (B _ _ Ez). lia.
    + rewrite nth_error_app2 in Ez by auto. specialize (B2 _ _ Ez). lia.
Qed.
Lemma last_best_unique l x y : last_best l x -> last_best l y -> x = y.
Proof.
  intros (k & E & B) (k2 & E2 & B2). pose proof (B _ _ E2). pose proof (B2 _ _ E).
  destruct (Nat.lt_trichotomy k k2) as [L|[->|L]]; [lia| congruence|lia].
Qed.

Variable generate : list nat -> option (res hyp * list nat).
Variable S : Type.
Variable sample : list nat -> S -> Prop.
Variable made : S -> hyp -> Prop.
Hypothesis generate_ok : forall run t rest, sample run t -> exists h, made t h /\ generate (run ++ rest) = Some (Ok h, rest).
Hypothesis made_unique : forall t h h', made t h -> made t h' -> h = h'.

Lemma serial_max_ok runs ts rest : Forall2 sample runs ts ->
  exists hs, Forall2 made ts hs /\
    (forall pre x, last_best pre x -> exists y, serial_max generate (length runs) (concat runs ++ rest) (Some x) = Some (Ok (Some y)) /\ last_best (pre ++ hs) y)
    /\ (hs <> [] -> exists y, serial_max generate (length runs) (concat runs ++ rest) None = Some (Ok (Some y)) /\ last_best hs y).
Proof.
  induction 1 as [|run t runs ts HS F (hs & FM & IH & _)].
  - exists []. split; [constructor|]. split; [|intros []; reflexivity].
    intros pre x L. exists x. rewrite app_nil_r. auto.
  - destruct (generate_ok run t (concat runs ++ rest) HS) as (h & MH & G).
    exists (h :: hs). split; [constructor; auto|]. cbn [length concat serial_max]. rewrite <- app_assoc. split; rewrite G.
    + intros pre x L. destruct (IH (pre ++ [h]) (better x h)) as (y & E & B); [apply last_best_app; auto using last_best_one|].
      exists y. split; auto. now rewrite <- app_assoc in B.
    + intros _. destruct (IH [h] h) as (y & E & B); [apply last_best_one|]. exists y. auto.
Qed.

Lemma tree_max_ok s ts : Forall2 (fun d t => exists run rest, d = run ++ rest /\ sample run t) (iterations s) ts ->
  exists hs y, Forall2 made ts hs /\ tree_max generate s = Some (Ok y) /\ last_best hs y.
Proof.
  revert ts. induction s as [d|l IHl r IHr]; intros ts F; cbn [iterations tree_max] in *.
  - inversion F as [|? t ? ? (run & rest & -> & HS) F2]; subst. inversion F2; subst. destruct (generate_ok run t rest HS) as (h & MH & G).
    exists [h], h. rewrite G. repeat split; auto using last_best_one.
  - apply Forall2_app_inv_l in F. destruct F as (t1 & t2 & F1 & F2 & ->). destruct (IHl _ F1) as (h1 & y1 & A1 & E1 & B1). destruct (IHr _ F2) as (h2 & y2 & A2 & E2 & B2).
    exists (h1 ++ h2), (better y1 y2). split; [now apply Forall2_app|]. rewrite E1, E2. split; [reflexivity|]. now apply last_best_app.
Qed.

Lemma made_list ts hs hs' : Forall2 made ts hs -> Forall2 made ts hs' -> hs = hs'.
Proof.
  intros F. revert hs'. induction F as [|t h ts hs MH F IH]; intros hs' F'; inversion F'; subst; auto. f_equal; [eapply made_unique; eauto|auto].
Qed.

Variable n_ok : list nat -> Prop.
Hypothesis n_ok_app : forall run rest, n_ok (run ++ rest) -> n_ok rest.
Hypothesis generate_inv : forall d r rest, n_ok d -> generate d = Some (r, rest) -> exists run t, d = run ++ rest /\ sample run t.
Lemma serial_max_inv n d best r : n_ok d -> serial_max generate n d best = Some r ->
  exists runs ts rest, d = concat runs ++ rest /\ length runs = n /\ Forall2 sample runs ts.
Proof.
  revert d best. induction n as [|n IH]; intros d best OK; cbn [serial_max].
  - intros _. exists [], [], d. auto.
  - destruct (generate d) as [(x, rest)|] eqn:G; [|discriminate]. destruct (generate_inv d x rest OK G) as (run & t & -> & HS).
    destruct (generate_ok run t rest HS) as (h & _ & G2). rewrite G in G2. injection G2 as ->.
    intros E. destruct (IH rest _ (n_ok_app _ _ OK) E) as (runs & ts & rest' & -> & L & F).
    exists (run :: runs), (t :: ts), rest'. cbn [concat length]. rewrite <- app_assoc. auto.
Qed.
End Searching.

(* from the last best hypothesis to the specification *)
Lemma last_best_spec {M} pts (dist : p3 spec_float -> M -> spec_float) thr models x :
  last_best M (map (hyp_of dist thr pts) models) x -> best_of pts dist thr models x.
Proof.
  intros (k & E & B). rewrite nth_error_map in E. destruct (nth_error models k) as [mo|] eqn:Ek; [|discriminate]. injection E as <-.
  split; [apply chosen_inliers|]. split; [reflexivity|]. exists k. split; [exact Ek|]. intros k' m' l' E' I'.
  specialize (B k' (hyp_of dist thr pts m')). rewrite nth_error_map, E' in B. specialize (B eq_refl).
  rewrite (inliers_unique _ _ _ _ _ _ I' (chosen_inliers _ dist thr pts m')). exact B.
Qed.
