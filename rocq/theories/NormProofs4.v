(* Normal estimation of neighbourhoods with coordinates that are not finite: C89. *)
From Coq Require Import String List Arith ZArith Lia Bool SpecFloat.
From Verif Require Import Base MathModel MathSpec SegModel NormModel NormSpec NormProofs NormProofs3.
Import ListNotations.
Open Scope nat_scope.

Section Skip.
Variables (atan2 : spec_float -> spec_float -> spec_float) (cos sin : spec_float -> spec_float).
Let e := f64_nops atan2 cos sin.

Lemma finite_bool p : is_finite e p = true <-> finite_point p.
Proof.
  unfold is_finite, finite_point. cbn [n_is_finite e f64_nops]. destruct p as [x y z]. cbn [px py pz].
  rewrite !andb_true_iff. destruct x, y, z; cbn; intuition discriminate.
Qed.
Lemma only_finite_filter ps qs : only_finite ps qs -> filter (is_finite e) ps = qs.
Proof.
  induction 1 as [|p ps qs F _ IH|p ps qs F _ IH]; cbn [filter]; [reflexivity| |].
  - apply finite_bool in F. now rewrite F, IH.
  - destruct (is_finite e p) eqn:E; [|exact IH]. apply finite_bool in E. contradiction.
Qed.
Lemma only_finite_all ps qs : only_finite ps qs -> Forall finite_point qs.
Proof. induction 1; auto. Qed.
Lemma dense_finite ps : Forall finite_point ps -> is_dense e ps = true.
Proof.
  intros F. unfold is_dense. apply forallb_forall. intros p H. rewrite Forall_forall in F. destruct (F p H) as (X & Y & Z).
  cbn [n_is_nan e f64_nops]. destruct (px p), (py p), (pz p); cbn in *; auto; contradiction.
Qed.
Lemma not_dense ps p : In p ps -> has_nan p -> is_dense e ps = false.
Proof.
  intros I N. destruct (is_dense e ps) eqn:E; [|reflexivity]. unfold is_dense in E. rewrite forallb_forall in E. specialize (E p I). cbn [n_is_nan e f64_nops] in E.
  destruct N as [N|[N|N]]; rewrite N in E; destruct (px p), (py p), (pz p); discriminate.
Qed.
Lemma used_skips ps qs p : In p ps -> has_nan p -> only_finite ps qs -> used e ps = qs /\ used e qs = qs.
Proof.
  intros I N O. unfold used. rewrite (not_dense _ _ I N), (dense_finite qs) by (eapply only_finite_all; eauto). split; [|reflexivity]. now apply only_finite_filter.
Qed.
Lemma centroid_skips ps qs p : In p ps -> has_nan p -> only_finite ps qs -> qs <> [] -> compute_centroid e ps = compute_centroid e qs.
Proof.
  intros I N O NE. destruct (used_skips _ _ _ I N O) as (U & U'). unfold compute_centroid. rewrite U, U'. destruct ps; [destruct I|]. destruct qs; [contradiction|]. reflexivity.
Qed.
Lemma estimation_skips ps qs p : In p ps -> has_nan p -> only_finite ps qs ->
  normal_estimation e ps = if Nat.ltb (length qs) 3 then Panic else normal_estimation e qs.
Proof.
  intros I N O. destruct (used_skips _ _ _ I N O) as (U & U'). unfold normal_estimation, compute_covariance_matrix. rewrite U, U'.
  destruct (Nat.ltb_spec (length qs) 3).
  - destruct ps as [|p' ps]; [destruct I|]. cbn [compute_centroid bind unwrap]. reflexivity.
  - rewrite (centroid_skips ps qs p) by (auto; intros ->; cbn in H; lia). reflexivity.
Qed.

Lemma normals_skip nearest ps k i p n c qs q out :
  compute_normals e nearest ps k = Ok out -> nth_error ps i = Some p -> nth_error out i = Some (n, c) ->
  In q (nearest ps p k) -> has_nan q -> only_finite (nearest ps p k) qs -> 3 <= length qs /\ normal_estimation e qs = Ok (n, c).
Proof.
  intros O P Q I N F. destruct (normals_entry _ _ _ _ _ _ O) as (_ & _ & _ & EN). pose proof (EN i p (n, c) P Q) as E.
  rewrite (estimation_skips _ _ _ I N F) in E. destruct (Nat.ltb_spec (length qs) 3); [discriminate|]. auto.
Qed.
End Skip.

Lemma nan_skipped atan2 cos sin ps qs p : let e := f64_nops atan2 cos sin in
  In p ps -> has_nan p -> only_finite ps qs ->
  (qs <> [] -> compute_centroid e ps = compute_centroid e qs)
  /\ (3 <= length qs -> normal_estimation e ps = normal_estimation e qs)
  /\ (length qs < 3 -> normal_estimation e ps = Panic).
Proof.
  intros e I N O. split; [intros; eapply centroid_skips; eauto|]. unfold e. rewrite (estimation_skips _ _ _ _ _ _ I N O).
  destruct (Nat.ltb_spec (length qs) 3); split; intros; auto; lia.
Qed.
