(* The RANSAC functions against the specification. *)
From Coq Require Import String Ascii List ZArith Lia Bool Arith SpecFloat Sorted.
From Verif Require Import Base LayoutModel BufferModel BufferSpec ListLemmas TraitModel TraitSpec NumModel MathModel SegModel SegSpec SegProofs.
Import ListNotations.
Open Scope nat_scope.

Section Both.
Variables (M S : Type) (generate : list nat -> option (res (hypothesis M) * list nat)) (dist : p3 spec_float -> M -> spec_float) (thr : spec_float).
Variables (b : buffer) (m : member) (least : nat) (sample : list nat -> S -> Prop) (model_of : S -> M -> Prop).
Hypothesis generate_ok : forall run t rest, sample run t -> exists x, model_of t x /\ generate (run ++ rest) = Some (Ok (hyp_of dist thr (points3 b m) x), rest).
Hypothesis model_unique : forall t x y, model_of t x -> model_of t y -> x = y.

Let made t h := exists x, model_of t x /\ h = hyp_of dist thr (points3 b m) x.
Lemma made_ok : forall run t rest, sample run t -> exists h, made t h /\ generate (run ++ rest) = Some (Ok h, rest).
Proof. intros run t rest HS. destruct (generate_ok run t rest HS) as (x & A & E). eexists. split; [exists x; eauto|exact E]. Qed.
Lemma made_one : forall t h h', made t h -> made t h' -> h = h'.
Proof. intros t h h' (x & A & ->) (y & B & ->). now rewrite (model_unique _ _ _ A B). Qed.
Lemma made_models ts hs : Forall2 made ts hs -> exists models, Forall2 model_of ts models /\ hs = map (hyp_of dist thr (points3 b m)) models.
Proof.
  induction 1 as [|t h ts hs (x & A & ->) F (ms & FM & ->)]; [exists []; auto|]. exists (x :: ms). split; auto.
Qed.
Lemma models_unique ts xs ys : Forall2 model_of ts xs -> Forall2 model_of ts ys -> xs = ys.
Proof.
  intros F. revert ys. induction F as [|t x ts xs A F IH]; intros ys G; inversion G; subst; auto. f_equal; eauto.
Qed.

Lemma serial_ok runs ts rest : least <= bf_len b -> Forall2 sample runs ts -> runs <> [] ->
  exists h models, ransac_serial generate least b (length runs) (concat runs ++ rest) = Some (Ok h)
    /\ Forall2 model_of ts models /\ best_of (points3 b m) dist thr models h
    /\ last_best M (map (hyp_of dist thr (points3 b m)) models) h.
Proof.
  intros L F NE. destruct (serial_max_ok M generate S sample made made_ok runs ts rest F) as (hs & FM & _ & X).
  destruct X as (y & E & B).
  { intros ->. inversion FM; subst. inversion F; subst. congruence. }
  destruct (made_models _ _ FM) as (models & MM & ->). exists y, models. unfold ransac_serial.
  destruct (Nat.ltb_spec (bf_len b) least); [lia|]. rewrite E. cbn [bind unwrap]. auto using last_best_spec.
Qed.
Lemma par_ok s ts : least <= bf_len b -> Forall2 (fun d t => exists run rest, d = run ++ rest /\ sample run t) (iterations s) ts ->
  exists h models, ransac_par generate least b (Some s) = Some (Ok h)
    /\ Forall2 model_of ts models /\ best_of (points3 b m) dist thr models h
    /\ last_best M (map (hyp_of dist thr (points3 b m)) models) h.
Proof.
  intros L F. destruct (tree_max_ok M generate S sample made made_ok s ts F) as (hs & y & FM & E & B).
  destruct (made_models _ _ FM) as (models & MM & ->). exists y, models. unfold ransac_par.
  destruct (Nat.ltb_spec (bf_len b) least); [lia|]. auto using last_best_spec.
Qed.
Lemma par_serial s runs ts rest : least <= bf_len b -> Forall2 (fun d t => exists run rest, d = run ++ rest /\ sample run t) (iterations s) ts ->
  Forall2 sample runs ts ->
  ransac_par generate least b (Some s) = ransac_serial generate least b (length runs) (concat runs ++ rest).
Proof.
  intros L F F2. destruct (par_ok s ts L F) as (h & ms & E & MM & _ & B).
  destruct (serial_ok runs ts rest L F2) as (h2 & ms2 & E2 & MM2 & _ & B2).
  { intros ->. inversion F2; subst. assert (X : iterations s = []) by (inversion F; auto). clear - X.
    assert (Y : iterations s <> []); [|congruence]. clear X. induction s; cbn [iterations]; [discriminate|]. destruct (iterations s1); [congruence|discriminate]. }
  rewrite E, E2. rewrite (models_unique _ _ _ MM2 MM) in B2. now rewrite (last_best_unique _ _ _ _ B B2).
Qed.
End Both.

Lemma plane_unique pts t x y : is_plane_of pts t x -> is_plane_of pts t y -> x = y.
Proof. destruct t as ((i, j), k). intros (p & q & r & A & B & C & ->) (p' & q' & r' & A' & B' & C' & ->). congruence. Qed.
Lemma line_unique pts t x y : is_line_of pts t x -> is_line_of pts t y -> x = y.
Proof. destruct t as (i, j). intros (p & q & A & B & ->) (p' & q' & A' & B' & ->). congruence. Qed.

Lemma plane_serial b m thr runs ts rest : has_positions b m -> 3 <= bf_len b -> runs <> [] -> Forall2 (sample3 (bf_len b)) runs ts ->
  exists h planes, ransac_plane_serial b thr (length runs) (concat runs ++ rest) = Some (Ok h)
    /\ Forall2 (is_plane_of (points3 b m)) ts planes /\ best_of (points3 b m) (distance_point_plane f64_ops) thr planes h.
Proof.
  intros H L NE F.
  destruct (serial_ok _ _ (generate_plane_model b thr) (distance_point_plane f64_ops) thr b m 3 (sample3 (bf_len b)) (is_plane_of (points3 b m))
    (fun run t rest => generate_plane_ok b m thr run t rest H) runs ts rest L F NE) as (h & ms & A & B & C & _).
  exists h, ms. auto.
Qed.
Lemma line_serial b m thr runs ts rest : has_positions b m -> 2 <= bf_len b -> runs <> [] -> Forall2 (sample2 (bf_len b)) runs ts ->
  exists h lines, ransac_line_serial b thr (length runs) (concat runs ++ rest) = Some (Ok h)
    /\ Forall2 (is_line_of (points3 b m)) ts lines /\ best_of (points3 b m) (distance_point_line f64_ops) thr lines h.
Proof.
  intros H L NE F.
  destruct (serial_ok _ _ (generate_line_model b thr) (distance_point_line f64_ops) thr b m 2 (sample2 (bf_len b)) (is_line_of (points3 b m))
    (fun run t rest => generate_line_ok b m thr run t rest H) runs ts rest L F NE) as (h & ms & A & B & C & _).
  exists h, ms. auto.
Qed.

Lemma plane_finished b m thr n draws r : has_positions b m -> 3 <= bf_len b -> Forall (fun i => i < bf_len b) draws ->
  ransac_plane_serial b thr n draws = Some r ->
  exists runs ts rest, draws = concat runs ++ rest /\ length runs = n /\ Forall2 (sample3 (bf_len b)) runs ts.
Proof.
  intros H L FD. unfold ransac_plane_serial, ransac_serial. destruct (Nat.ltb_spec (bf_len b) 3); [lia|].
  destruct (serial_max (generate_plane_model b thr) n draws None) as [x|] eqn:E; [|discriminate]. intros _.
  refine (serial_max_inv _ _ _ _ (fun _ _ => True) _ (Forall (fun i => i < bf_len b)) _ _ n draws None x FD E).
  - intros run t rest HS. destruct (generate_plane_ok b m thr run t rest H HS) as (pl & _ & G). eauto.
  - intros run rest F. now apply Forall_app in F.
  - intros d y rest F G. unfold generate_plane_model in G. destruct (draw3 d) as [(((i, j), k), rest')|] eqn:D; [|discriminate]. injection G as _ <-.
    destruct (draw3_inv _ _ _ _ F D) as (run & -> & HS). eauto.
Qed.
Lemma line_finished b m thr n draws r : has_positions b m -> 2 <= bf_len b -> Forall (fun i => i < bf_len b) draws ->
  ransac_line_serial b thr n draws = Some r ->
  exists runs ts rest, draws = concat runs ++ rest /\ length runs = n /\ Forall2 (sample2 (bf_len b)) runs ts.
Proof.
  intros H L FD. unfold ransac_line_serial, ransac_serial. destruct (Nat.ltb_spec (bf_len b) 2); [lia|].
  destruct (serial_max (generate_line_model b thr) n draws None) as [x|] eqn:E; [|discriminate]. intros _.
  refine (serial_max_inv _ _ _ _ (fun _ _ => True) _ (Forall (fun i => i < bf_len b)) _ _ n draws None x FD E).
  - intros run t rest HS. destruct (generate_line_ok b m thr run t rest H HS) as (pl & _ & G). eauto.
  - intros run rest F. now apply Forall_app in F.
  - intros d y rest F G. unfold generate_line_model in G. destruct (draw2 d) as [((i, j), rest')|] eqn:D; [|discriminate]. injection G as _ <-.
    destruct (draw2_inv _ _ _ _ F D) as (run & -> & HS). eauto.
Qed.

Lemma plane_par b m thr s ts : has_positions b m -> 3 <= bf_len b ->
  Forall2 (fun d t => exists run rest, d = run ++ rest /\ sample3 (bf_len b) run t) (iterations s) ts ->
  exists h planes, ransac_plane_par b thr (Some s) = Some (Ok h)
    /\ Forall2 (is_plane_of (points3 b m)) ts planes /\ best_of (points3 b m) (distance_point_plane f64_ops) thr planes h
    /\ forall runs rest, Forall2 (sample3 (bf_len b)) runs ts -> ransac_plane_serial b thr (length runs) (concat runs ++ rest) = Some (Ok h).
Proof.
  intros H L F.
  destruct (par_ok _ _ (generate_plane_model b thr) (distance_point_plane f64_ops) thr b m 3 (sample3 (bf_len b)) (is_plane_of (points3 b m))
    (fun run t rest => generate_plane_ok b m thr run t rest H) s ts L F) as (h & ms & A & B & C & _).
  exists h, ms. split; [exact A|]. split; [exact B|]. split; [exact C|]. intros runs rest F2.
  pose proof (par_serial _ _ (generate_plane_model b thr) (distance_point_plane f64_ops) thr b m 3 (sample3 (bf_len b)) (is_plane_of (points3 b m))
    (fun run t rest => generate_plane_ok b m thr run t rest H) (plane_unique (points3 b m)) s runs ts rest L F F2) as E.
  unfold ransac_plane_serial. rewrite <- E. exact A.
Qed.
Lemma line_par b m thr s ts : has_positions b m -> 2 <= bf_len b ->
  Forall2 (fun d t => exists run rest, d = run ++ rest /\ sample2 (bf_len b) run t) (iterations s) ts ->
  exists h lines, ransac_line_par b thr (Some s) = Some (Ok h)
    /\ Forall2 (is_line_of (points3 b m)) ts lines /\ best_of (points3 b m) (distance_point_line f64_ops) thr lines h
    /\ forall runs rest, Forall2 (sample2 (bf_len b)) runs ts -> ransac_line_serial b thr (length runs) (concat runs ++ rest) = Some (Ok h).
Proof.
  intros H L F.
  destruct (par_ok _ _ (generate_line_model b thr) (distance_point_line f64_ops) thr b m 2 (sample2 (bf_len b)) (is_line_of (points3 b m))
    (fun run t rest => generate_line_ok b m thr run t rest H) s ts L F) as (h & ms & A & B & C & _).
  exists h, ms. split; [exact A|]. split; [exact B|]. split; [exact C|]. intros runs rest F2.
  pose proof (par_serial _ _ (generate_line_model b thr) (distance_point_line f64_ops) thr b m 2 (sample2 (bf_len b)) (is_line_of (points3 b m))
    (fun run t rest => generate_line_ok b m thr run t rest H) (line_unique (points3 b m)) s runs ts rest L F F2) as E.
  unfold ransac_line_serial. rewrite <- E. exact A.
Qed.

Lemma ransac_panics b thr n draws :
  (bf_len b < 3 \/ n = 0 -> ransac_plane_serial b thr n draws = Some Panic) /\ (bf_len b < 2 \/ n = 0 -> ransac_line_serial b thr n draws = Some Panic)
  /\ ransac_plane_par b thr None = Some Panic /\ ransac_line_par b thr None = Some Panic
  /\ (bf_len b < 3 -> forall s, ransac_plane_par b thr s = Some Panic) /\ (bf_len b < 2 -> forall s, ransac_line_par b thr s = Some Panic).
Proof.
  unfold ransac_plane_serial, ransac_line_serial, ransac_plane_par, ransac_line_par, ransac_serial, ransac_par.
  split; [|split; [|split; [|split; [|split]]]].
  - intros [L| ->]; [now rewrite (proj2 (Nat.ltb_lt _ _) L)|]. now destruct (Nat.ltb (bf_len b) 3).
  - intros [L| ->]; [now rewrite (proj2 (Nat.ltb_lt _ _) L)|]. now destruct (Nat.ltb (bf_len b) 2).
  - now destruct (Nat.ltb (bf_len b) 3).
  - now destruct (Nat.ltb (bf_len b) 2).
  - intros L s. now rewrite (proj2 (Nat.ltb_lt _ _) L).
  - intros L s. now rewrite (proj2 (Nat.ltb_lt _ _) L).
Qed.
