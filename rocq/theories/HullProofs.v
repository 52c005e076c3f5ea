(* Proofs about the convex hull: the iterations do not panic and the triangles refer to points that have been seen. *)
From Coq Require Import String Ascii List ZArith Lia Bool Arith SpecFloat Permutation.
From Verif Require Import Base LayoutModel BufferModel ListLemmas TraitModel NumModel MathModel SegModel HullModel HullSpec.
Import ListNotations.
Open Scope nat_scope.

Lemma vec_at_ok {A} (l : list A) i : i < length l -> exists x, vec_at l i = Ok x /\ In x l /\ nth_error l i = Some x.
Proof.
  intros H. unfold vec_at. destruct (nth_error l i) as [x|] eqn:E; [|apply nth_error_None in E; lia]. exists x. split; [reflexivity|]. split; auto. eapply nth_error_In; eauto.
Qed.
Lemma vec_remove_ok {A} (l : list A) i : i < length l ->
  exists l', vec_remove l i = Ok l' /\ S (length l') = length l /\ firstn i l' = firstn i l /\ forall x, In x l' -> In x l.
Proof.
  intros H. unfold vec_remove. rewrite (proj2 (Nat.ltb_lt _ _) H). cbn [assert bind]. eexists. split; [reflexivity|].
  rewrite app_length, firstn_length, skipn_length. split; [lia|]. split.
  - rewrite firstn_app, firstn_length, Nat.min_l, Nat.sub_diag, firstn_O, app_nil_r, firstn_firstn, Nat.min_id by lia. reflexivity.
  - intros x I. apply in_app_or in I. rewrite <- (firstn_skipn i l). apply in_or_app. destruct I as [I|I]; auto. right.
    assert (E : skipn i l = firstn 1 (skipn i l) ++ skipn (S i) l) by (rewrite <- (firstn_skipn 1 (skipn i l)) at 1; f_equal; rewrite ListLemmas.skipn_skipn; f_equal; lia).
    rewrite E. apply in_or_app. auto.
Qed.

Section Safe.
Variable T : Type.
Variable h : hops T.
Variable pos : nat -> res (p3 T).
Local Notation tri := (triangle T).

Definition tri_below (n : nat) (t : tri) : Prop := t_a t < n /\ t_b t < n /\ t_c t < n.
Definition edge_below (n : nat) (e : edge) : Prop := e_a e < n /\ e_b e < n.
Definition known (n : nat) : Prop := forall i, i < n -> exists p, pos i = Ok p.

Lemma tri_below_le n n' t : n <= n' -> tri_below n t -> tri_below n' t.
Proof. unfold tri_below. lia. Qed.

Lemma set_add_in s e f : In f (set_add s e) -> In f s \/ f = e.
Proof. unfold set_add. destruct (set_has s e); auto. intros H. apply in_app_or in H. cbn in H. intuition. Qed.
Lemma set_add_below n s e : Forall (edge_below n) s -> edge_below n e -> Forall (edge_below n) (set_add s e).
Proof. intros F E. apply Forall_forall. intros f H. apply set_add_in in H. rewrite Forall_forall in F. destruct H as [H| ->]; auto. Qed.
Lemma set_del_below n s e : Forall (edge_below n) s -> Forall (edge_below n) (set_del s e).
Proof. intros F. apply Forall_forall. intros f H. apply filter_In in H. rewrite Forall_forall in F. now apply F. Qed.
Lemma add_edge_below n s e : Forall (edge_below n) (fst s) -> edge_below n e -> Forall (edge_below n) (fst (add_edge s e)).
Proof.
  destruct s as (o, i). cbn [fst]. intros F E. unfold add_edge. destruct (set_has o e); cbn [fst]; auto using set_add_below, set_del_below.
Qed.

Lemma grow_line_ok n id p first : known n -> tri_below n first -> n <= S id ->
  exists ts', grow_line h pos id p first = Ok ts' /\ ts' <> [] /\ Forall (tri_below (S id)) ts'.
Proof.
  intros K (A & B & C) L. unfold grow_line.
  destruct (K _ A) as (pa & ->). destruct (K _ B) as (pb & ->). cbn [bind].
  assert (Q : forall x y z w, x < S id -> y < S id -> z < S id -> exists ts', @Ok (list tri) [mk_tri x y z w] = Ok ts' /\ ts' <> [] /\ Forall (tri_below (S id)) ts').
  { intros x y z w X Y Z. eexists. split; [reflexivity|]. split; [discriminate|]. constructor; [|constructor]. unfold tri_below. cbn. lia. }
  destruct (Nat.eqb id 1); [apply Q; lia|].
  destruct (h_eq h _ _); [apply Q; lia|]. destruct (h_eq h _ _).
  - destruct (ge_ h _ _); [|apply Q; lia]. destruct (gt_ h _ _); [apply Q; lia|]. destruct first as [x y z w]. cbn in *. apply Q; lia.
  - eexists. split; [reflexivity|]. split; [discriminate|]. apply Forall_cons; [|apply Forall_cons; [|apply Forall_nil]]; unfold tri_below; cbn; lia.
Qed.

Record safe_visible (n : nat) (s : visible T) : Prop := mk_safe {
  sv_kept : Forall (tri_below n) (vi_kept s); sv_edges : Forall (edge_below n) (fst (vi_edges s)); sv_planar : Forall (tri_below n) (vi_planar s) }.
Lemma retain_step_ok n p s t : known n -> safe_visible n s -> tri_below n t -> exists s', retain_step h pos p s t = Ok s' /\ safe_visible n s'.
Proof.
  intros K [S1 S2 S3] B. pose proof B as (A & B' & C). unfold retain_step. destruct (K _ A) as (pa & ->). cbn [bind].
  destruct (o_lt _ _ _).
  - eexists. split; [reflexivity|]. constructor; cbn; auto. repeat apply add_edge_below; auto; split; auto.
  - destruct (h_eq h _ _); eexists; (split; [reflexivity|]); constructor; cbn; auto; apply Forall_app; auto.
Qed.
Lemma retain_fold_ok n p ts : known n -> Forall (tri_below n) ts -> forall s, safe_visible n s -> exists s', foldM (retain_step h pos p) ts s = Ok s' /\ safe_visible n s'.
Proof.
  intros K. induction 1 as [|t ts B F IH]; intros s S; [exists s; auto|]. cbn [foldM]. destruct (retain_step_ok n p s t K S B) as (s1 & -> & S1). cbn [bind]. auto.
Qed.
Lemma retain_ok n p ts : known n -> Forall (tri_below n) ts -> exists s, retain h pos p ts = Ok s /\ safe_visible n s.
Proof. intros K F. unfold retain. apply retain_fold_ok with (n := n); auto. constructor; constructor. Qed.

Lemma add_faces_ok n id p es : known n -> n <= id -> Forall (edge_below n) es -> forall ts, Forall (tri_below (S id)) ts ->
  exists ts', add_faces h pos id p es ts = Ok ts' /\ Forall (tri_below (S id)) ts'.
Proof.
  intros K L. unfold add_faces. induction 1 as [|e es (A & B) F IH]; intros ts S; [exists ts; auto|]. cbn [foldM].
  destruct (K _ A) as (pa & ->). destruct (K _ B) as (pb & ->). cbn [bind]. apply IH. apply Forall_app. split; auto. constructor; auto. repeat split; cbn; lia.
Qed.

Lemma facing_ok n p all : known n -> Forall (tri_below n) all -> forall i pl es ids, i + length pl = length all -> Forall (tri_below n) pl ->
  Forall (edge_below n) es -> length es = length ids -> Forall (fun k => k < length all) ids ->
  exists es' ids', facing h pos p i pl es ids = Ok (es', ids') /\ Forall (edge_below n) es' /\ length es' <= length ids' /\ Forall (fun k => k < length all) ids'.
Proof.
  intros K FA i pl. revert i. induction pl as [|t pl IH]; intros i es ids LI FP FE LE FI; cbn [facing].
  - exists es, ids. repeat split; auto. lia.
  - inversion FP as [|? ? (A & B & C) FP']. subst. destruct (K _ A) as (pa & ->). destruct (K _ B) as (pb & ->). destruct (K _ C) as (pc & ->). cbn [bind].
    cbn [length] in LI.
    set (add := add_facing h i).
    assert (ADD : forall d e s, edge_below n e -> Forall (edge_below n) (fst s) -> length (fst s) = length (snd s) -> Forall (fun k => k < length all) (snd s) ->
      Forall (edge_below n) (fst (add d e s)) /\ length (fst (add d e s)) = length (snd (add d e s)) /\ Forall (fun k => k < length all) (snd (add d e s))).
    { intros d e s E1 E2 E3 E4. unfold add, add_facing. destruct (ge_ h d (h_zero h)); auto. cbn [fst snd]. rewrite !app_length. repeat split; try (apply Forall_app; split; auto); auto.
      constructor; auto. lia. }
    destruct (ADD (dist_point_to_edge h p pa pb (t_n t)) (mk_edge (t_a t) (t_b t)) (es, ids)) as (X1 & X2 & X3); [split; auto|auto|auto|auto|].
    set (s1 := add _ _ (es, ids)) in *.
    destruct (ADD (dist_point_to_edge h p pb pc (t_n t)) (mk_edge (t_b t) (t_c t)) s1) as (Y1 & Y2 & Y3); [split; auto|auto|auto|auto|].
    set (s2 := add _ _ s1) in *.
    destruct (ADD (dist_point_to_edge h p pc pa (t_n t)) (mk_edge (t_c t) (t_a t)) s2) as (Z1 & Z2 & Z3); [split; auto|auto|auto|auto|].
    set (s3 := add _ _ s2) in *. destruct s3 as (es3, ids3). cbn [fst snd] in *.
    destruct (_ && _).
    + exists [], ids3. repeat split; auto. apply Nat.le_0_l.
    + apply IH; auto. lia.
Qed.

Lemma occluded_ok n p planar es ids i ea eb nn : known n -> Forall (edge_below n) es -> length es <= length ids -> Forall (fun k => k < length planar) ids ->
  forall others, Forall (fun k => k < length es) others -> exists b, occluded h pos p planar es ids i ea eb nn others = Ok b.
Proof.
  intros K FE LE FI. induction 1 as [|k others Hk F IH]; cbn [occluded]; [eexists; reflexivity|]. destruct (Nat.eqb k i); auto.
  destruct (vec_at_ok ids k) as (id & -> & I1 & _); [lia|]. cbn [bind]. rewrite Forall_forall in FI. destruct (vec_at_ok planar id (FI _ I1)) as (ot & -> & _ & _). cbn [bind].
  destruct (vec_at_ok es k Hk) as (oe & -> & I2 & _). cbn [bind]. rewrite Forall_forall in FE. destruct (FE _ I2) as (A & B).
  destruct (K _ A) as (pa & ->). destruct (K _ B) as (pb & ->). cbn [bind]. destruct (occludes h p ea eb nn pa pb (t_n ot)); eauto.
Qed.
Lemma seq_below k : Forall (fun i => i < k) (seq 0 k).
Proof. apply Forall_forall. intros i H. apply in_seq in H. lia. Qed.
Lemma remove_occluded_ok n p planar : known n -> Forall (tri_below n) planar -> forall k es ids ns, k <= length es -> length es = k + length ns -> Forall (edge_below n) es ->
  length es <= length ids -> Forall (fun k => k < length planar) ids ->
  exists es' ns', remove_occluded h pos p planar k es ids ns = Ok (es', ns') /\ Forall (edge_below n) es' /\ length es' = length ns'.
Proof.
  intros K FP. induction k as [|i IH]; intros es ids ns LK LN FE LE FI; cbn [remove_occluded]; [exists es, ns; auto|].
  destruct (vec_at_ok es i) as (e & -> & I1 & _); [lia|]. cbn [bind]. pose proof FE as FE'. rewrite Forall_forall in FE'. destruct (FE' _ I1) as (A & B).
  destruct (K _ A) as (pa & ->). destruct (K _ B) as (pb & ->). cbn [bind].
  destruct (vec_at_ok ids i) as (id & -> & I2 & _); [lia|]. cbn [bind]. pose proof FI as FI'. rewrite Forall_forall in FI'.
  destruct (vec_at_ok planar id (FI' _ I2)) as (t & -> & _ & _). cbn [bind].
  destruct (occluded_ok n p planar es ids i pa pb (t_n t) K FE LE FI (seq 0 (length es)) (seq_below _)) as (g & ->). cbn [bind]. destruct g.
  - destruct (vec_remove_ok es i) as (es' & -> & L1 & _ & S1); [lia|]. cbn [bind]. destruct (vec_remove_ok ids i) as (ids' & -> & L2 & _ & S2); [lia|]. cbn [bind].
    apply IH; try lia.
    + apply Forall_forall. auto.
    + apply Forall_forall. auto.
  - apply IH; auto; cbn [length]; lia.
Qed.

Record safe_open (n : nat) (s : opened T) : Prop := mk_so {
  so_kept : Forall (tri_below n) (op_kept s); so_edges : Forall (edge_below n) (op_edges s); so_len : length (op_edges s) = length (op_normals s) }.
Lemma open_step_ok n two s t : safe_open n s -> tri_below n t -> safe_open n (open_step two s t).
Proof.
  intros S B. pose proof B as (A & B' & C). unfold open_step.
  set (swap := fun (cond : bool) (new r1 r2 : edge) (s : opened T) =>
    if cond then mk_opened (op_kept s) (op_edges s ++ [new]) (op_normals s ++ [t_n t]) (set_add (set_add (op_remove s) r1) r2) else s).
  assert (SW : forall c e r1 r2 s, safe_open n s -> edge_below n e -> safe_open n (swap c e r1 r2 s)).
  { intros c e r1 r2 s0 [S1 S2 S3] E. unfold swap. destruct c; [|constructor; auto]. constructor; cbn; auto; [apply Forall_app; auto|rewrite !app_length, S3; reflexivity]. }
  destruct (_ || _); [repeat apply SW; auto; split; auto|]. destruct S as [S1 S2 S3]. constructor; cbn; auto. apply Forall_app. auto.
Qed.
Lemma open_fold_ok n two ts : Forall (tri_below n) ts -> forall s, safe_open n s -> safe_open n (fold_left (open_step two) ts s).
Proof. induction 1; intros s S; cbn [fold_left]; auto. apply IHForall. now apply open_step_ok. Qed.
Lemma remove_listed_ok n l : forall k es (ns : list (p3 T)), k <= length es -> Forall (edge_below n) es -> length es = length ns ->
  exists es' ns', remove_listed l k es ns = Ok (es', ns') /\ Forall (edge_below n) es' /\ length es' = length ns'.
Proof.
  induction k as [|i IH]; intros es ns LK FE LN; cbn [remove_listed]; [exists es, ns; auto|].
  destruct (vec_at_ok es i) as (e & -> & I1 & _); [lia|]. cbn [bind]. destruct (set_has l e); [|apply IH; auto; lia].
  destruct (vec_remove_ok es i) as (es' & -> & L1 & _ & S1); [lia|]. cbn [bind]. destruct (vec_remove_ok ns i) as (ns' & -> & L2 & _ & S2); [lia|]. cbn [bind].
  apply IH; try lia. rewrite Forall_forall in *. auto.
Qed.
Lemma add_planar_ok n id es (ns : list (p3 T)) : n <= id -> Forall (edge_below n) es -> length es = length ns -> forall ts, Forall (tri_below (S id)) ts ->
  exists ts', add_planar id es ns ts = Ok ts' /\ Forall (tri_below (S id)) ts'.
Proof.
  intros L FE LN. unfold add_planar. assert (Q : forall l, Forall (fun k => k < length es) l -> forall ts, Forall (tri_below (S id)) ts ->
    exists ts', foldM (fun ts i => let* e := vec_at es i in let* n := vec_at ns i in Ok (ts ++ [mk_tri (e_a e) (e_b e) id n])) l ts = Ok ts' /\ Forall (tri_below (S id)) ts').
  { induction 1 as [|k l Hk F IH]; intros ts S; [exists ts; auto|]. cbn [foldM].
    destruct (vec_at_ok es k Hk) as (e & -> & I1 & _). destruct (vec_at_ok ns k) as (nn & -> & _ & _); [lia|]. cbn [bind]. apply IH. apply Forall_app. split; auto. constructor; auto.
    rewrite Forall_forall in FE. destruct (FE _ I1). repeat split; cbn; lia. }
  apply Q. apply seq_below.
Qed.
Lemma grow_planar_ok n id p planar ts : known n -> n <= id -> Forall (tri_below n) planar -> Forall (tri_below n) ts ->
  exists ts', grow_planar h pos id p planar ts = Ok ts' /\ Forall (tri_below (S id)) ts'.
Proof.
  intros K L FP FT. unfold grow_planar.
  destruct (facing_ok n p planar K FP 0 planar [] []) as (es & ids & -> & E1 & E2 & E3); auto. cbn [bind].
  destruct (remove_occluded_ok n p planar K FP (length es) es ids []) as (es' & ns & -> & E4 & E5); auto. cbn [bind].
  destruct (Nat.ltb 2 (length es')).
  - set (two := en_two _). pose proof (open_fold_ok n two ts FT (mk_opened [] es' ns []) ltac:(constructor; cbn; auto)) as [O1 O2 O3].
    destruct (remove_listed_ok n (op_remove (fold_left (open_step two) ts (mk_opened [] es' ns []))) (length (op_edges (fold_left (open_step two) ts (mk_opened [] es' ns []))))
      _ _ (le_n _) O2 O3) as (e3 & n3 & E & X1 & X2). rewrite E. cbn [bind].
    apply (add_planar_ok n); auto. eapply Forall_impl; [|exact O1]. intros t. apply tri_below_le. lia.
  - apply (add_planar_ok n); auto. eapply Forall_impl; [|exact FT]. intros t. apply tri_below_le. lia.
Qed.


Lemma iteration_ok order ts id p : (forall s, Permutation (order s) s) -> known id -> Forall (tri_below id) ts \/ id = 0 /\ ts = [] ->
  exists ts', iteration h pos order ts id p = Ok ts' /\ Forall (tri_below (S id)) ts'.
Proof.
  intros RO K H. unfold iteration. destruct (Nat.eqb_spec id 0) as [->|NE].
  - eexists. split; [reflexivity|]. destruct H as [H|(_ & ->)].
    + apply Forall_app. split; [eapply Forall_impl; [|exact H]; intros t; apply tri_below_le; lia|]. constructor; [unfold tri_below; cbn; lia|constructor].
    + constructor; [unfold tri_below; cbn; lia|constructor].
  - destruct H as [H|(H & _)]; [|lia].
    assert (GEN : exists ts', (let* s := retain h pos p ts in let '(outer, inner) := vi_edges s in
        match outer, inner with [], [] => grow_planar h pos id p (vi_planar s) (vi_kept s) | _, _ => add_faces h pos id p (order outer) (vi_kept s) end) = Ok ts' /\ Forall (tri_below (S id)) ts').
    { destruct (retain_ok id p ts K H) as (s & -> & [S1 S2 S3]). cbn [bind]. destruct (vi_edges s) as (outer, inner). cbn [fst] in S2.
      assert (AF : exists ts', add_faces h pos id p (order outer) (vi_kept s) = Ok ts' /\ Forall (tri_below (S id)) ts').
      { apply (add_faces_ok id); auto.
        - rewrite Forall_forall in *. intros e I. apply S2. apply (Permutation_in _ (RO outer)). exact I.
        - eapply Forall_impl; [|exact S1]. intros t. apply tri_below_le. lia. }
      destruct outer; [destruct inner|]; auto. apply (grow_planar_ok id); auto. }
    destruct ts as [|first [|]]; auto. inversion H as [|? ? B]. subst. destruct (grow_line_ok id id p first K B) as (ts' & E & _ & F); [lia|]. eauto.
Qed.
Lemma iterate_ok order ps : any_edge_order order -> forall id ts, known (id + length ps) -> Forall (tri_below id) ts \/ id = 0 /\ ts = [] ->
  exists ts', iterate h pos order id ps ts = Ok ts' /\ (ps = [] /\ ts' = ts \/ Forall (tri_below (id + length ps)) ts').
Proof.
  intros RO. induction ps as [|p ps IH]; intros id ts K H; cbn [iterate length] in *; [exists ts; auto|].
  destruct (iteration_ok (order id) ts id p (RO id)) as (t1 & -> & F1); auto; [intros i Hi; apply K; lia|]. cbn [bind].
  destruct (IH (S id) t1) as (t2 & E & F2); auto.
  - intros i Hi. apply K. lia.
  - exists t2. split; auto. right. destruct F2 as [(-> & ->)|F2].
    + cbn [length]. replace (id + 1) with (S id) by lia. auto.
    + eapply Forall_impl; [|exact F2]. intros t. apply tri_below_le. lia.
Qed.
End Safe.
