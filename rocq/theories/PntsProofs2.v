(* Writing points to the cache of a PNTS writer. *)
From Coq Require Import String List ZArith Lia Bool Arith Permutation SpecFloat.
From Verif Require Import Base LayoutModel LayoutSpec LayoutProofs BufferModel BufferSpec ListLemmas BufferProofs BufferSteps BufferSteps2 BufferSteps3 BufferSteps4
  TraitModel TraitSpec TraitProofs2 NumModel NumSpec ConvModel ConvSpec ConvProofs2 ConvProofs5 MathModel LasIoModel LasIoProofs AsciiProofs6 PntsModel PntsSpec PntsProofs.
Import ListNotations.
Open Scope nat_scope.

(* q of layout dl has the values of p of layout l *)
Definition same_values (l dl : layout) (p q : list Z) : Prop :=
  forall sm dm, In sm (l_attrs l) -> In dm (l_attrs dl) -> m_name sm = m_name dm ->
    value_as (m_type sm) (m_type dm) (attr_value sm p) = Some (attr_value dm q).

Lemma value_as_same t v : value_as t t v = Some v.
Proof. unfold value_as. now rewrite datatype_eqb_refl. Qed.

Lemma good_name_inj l m m' : good_layout l -> In m (l_attrs l) -> In m' (l_attrs l) -> m_name m = m_name m' -> m = m'.
Proof.
  intros G H H' E. pose proof (proj1 (proj2 G)) as ND. assert (A : get_attribute_by_name l (m_name m) = Some m) by (apply get_by_name_spec; auto).
  assert (B : get_attribute_by_name l (m_name m) = Some m') by (apply get_by_name_spec; auto). congruence.
Qed.

Lemma mapi_app_nat {A B} (f : nat -> A -> B) a b : mapi f (a ++ b) = mapi f a ++ mapi (fun k => f (length a + k)) b.
Proof.
  apply nth_error_ext. intros k. rewrite nth_error_mapi. destruct (Nat.lt_ge_cases k (length a)) as [L|L].
  - rewrite !nth_error_app1; [|now rewrite length_mapi|exact L]. now rewrite nth_error_mapi.
  - rewrite !nth_error_app2; [|now rewrite length_mapi|exact L]. rewrite nth_error_mapi, length_mapi. replace (length a + (k - length a)) with k by lia. reflexivity.
Qed.

Section WRITE.
Variables (dl : layout) (GD : good_layout dl) (points : buffer) (WP : bf_wf points).
Let pts := bf_points points.
Let n := bf_len points.

Lemma points_uniform : uniform (l_size (bf_layout points)) pts /\ length pts = n.
Proof. exact (bf_points_uniform points WP). Qed.

(* ---- same layout ---- *)
Lemma append_points_ok h recs : hb_rep dl recs h -> bf_layout points = dl ->
  exists h' qs, append_points h points = Ok h' /\ hb_rep dl (recs ++ qs) h' /\ Forall2 (same_values dl dl) pts qs.
Proof.
  intros R L. destruct points_uniform as [U LN]. pose proof R as (Hl & Hn & _). unfold append_points. rewrite Hl, L.
  assert (EQ : layout_eqb dl dl = true) by now apply layout_eqb_eq. rewrite EQ. cbn [assert bind]. rewrite Hn.
  destruct (@foldM_range (hbuf * list Z) (fun i st => length (snd st) = l_size dl /\ exists qs, length qs = i /\ hb_rep dl (recs ++ qs ++ repeat (repeat 0%Z (l_size dl)) (n - i)) (fst st)
      /\ Forall2 (same_values dl dl) (firstn i pts) qs)
    (fun st i => let* p := bf_get_point points i (snd st) in let* b := hb_set_point (fst st) (length recs + i) p in Ok (b, p)) 0 n
    (hb_resize h (length recs + n), repeat 0%Z (l_size dl))) as (st & E & SL & qs & QL & R' & F).
  - lia.
  - cbn [fst snd]. split; [apply repeat_length|]. exists []. split; [reflexivity|]. split; [|constructor].
    pose proof (hb_resize_rep dl GD recs h R (length recs + n)) as X. rewrite firstn_all_ge in X by lia. cbn [app]. rewrite Nat.sub_0_r. replace (length recs + n - length recs) with n in X by lia. exact X.
  - intros i [b s] Hi (SL & qs & QL & R1 & F). cbn [fst snd] in *. destruct (nth_error_get pts i) as [p Hp]; [lia|].
    destruct (bf_wf_reads points WP) as (_ & RP & _). rewrite (RP i p s) by (rewrite ?L; auto). cbn [bind].
    assert (LP : length p = l_size dl) by (rewrite <- L; exact (uniform_nth _ _ _ _ U Hp)). set (q := into points p s).
    assert (LQ : length q = l_size dl) by (unfold q, into; destruct (bf_columnar points); [rewrite length_overlay; exact SL|exact LP]).
    pose proof (hb_set_point_ok dl GD _ b R1 (length recs + i) q LQ) as O. unfold outcome in O. cbn [spec_step] in O.
    assert (LL : length recs + i < length (recs ++ qs ++ repeat (repeat 0%Z (l_size dl)) (n - i))) by (rewrite !app_length, repeat_length; lia).
    apply Nat.ltb_lt in LL. rewrite LL in O. destruct O as (b' & Eb & Rb). rewrite Eb. cbn [bind]. eexists. split; [reflexivity|]. cbn [fst snd]. split; [exact LQ|].
    exists (qs ++ [q]). split; [rewrite app_length; cbn [length]; lia|]. split.
    + replace (n - i) with (S (n - (i + 1))) in Rb by lia. cbn [repeat] in Rb. rewrite <- QL in Rb at 1. rewrite mid_set_nth in Rb. now rewrite <- app_assoc.
    + rewrite (firstn_snoc pts i p Hp). apply Forall2_app; [exact F|]. constructor; [|constructor]. intros sm dm Hs Hd N. assert (sm = dm) by (exact (good_name_inj dl _ _ GD Hs Hd N)). subst sm.
      rewrite value_as_same. f_equal. unfold q, into. destruct (bf_columnar points); [|reflexivity]. rewrite L. symmetry. apply attr_value_overlay; auto.
  - change (let* r := foldM (fun st i => let* p := bf_get_point points i (snd st) in let* b := hb_set_point (fst st) (length recs + i) p in Ok (b, p)) (range 0 n) (hb_resize h (length recs + n), repeat 0%Z (l_size dl)) in Ok (fst r)) with
      (let* r := foldM (fun (st : hbuf * list Z) i => let* p := bf_get_point points i (snd st) in let* b := hb_set_point (fst st) (length recs + i) p in Ok (b, p)) (range 0 n) (hb_resize h (length recs + n), repeat 0%Z (l_size dl)) in Ok (fst r)).
    fold n. rewrite E. cbn [bind]. exists (fst st), qs. split; [reflexivity|]. rewrite Nat.sub_diag in R'. cbn [repeat] in R'. rewrite app_nil_r in R'. split; [exact R'|].
    rewrite firstn_all_ge in F by lia. exact F.
Qed.

(* ---- conversion ---- *)
Let l := bf_layout points.
Hypothesis GL : good_layout l.

(* qs' is qs with the values of dm replaced *)
Definition only_changes (dm : member) (qs qs' : list (list Z)) : Prop :=
  length qs' = length qs /\ forall k q q' m, nth_error qs k = Some q -> nth_error qs' k = Some q' -> In m (l_attrs dl) -> m <> dm -> attr_value m q' = attr_value m q.

Lemma write_attribute_ok name c h recs qs sm dm t : hb_rep dl (recs ++ qs) h -> length qs = n -> In sm (l_attrs l) -> m_name sm = name ->
  In dm (l_attrs dl) -> m_def dm = mk_def name t -> converts (m_type sm) t c ->
  exists h' qs', write_attribute points (length recs) h (name, c) = Ok h' /\ hb_rep dl (recs ++ qs') h' /\ only_changes dm qs qs'
    /\ forall k p q, nth_error pts k = Some p -> nth_error qs' k = Some q -> value_as (m_type sm) t (attr_value sm p) = Some (attr_value dm q).
Proof.
  intros R QN Hs Ns Hd Dd C. destruct points_uniform as [U LN]. pose proof R as (Hl & _). unfold write_attribute. cbn [fst snd]. fold l.
  assert (G1 : get_attribute_by_name l name = Some sm) by (apply get_by_name_spec; [exact (proj1 (proj2 GL))|auto]).
  assert (G2 : get_attribute_by_name dl name = Some dm) by (apply get_by_name_spec; [exact (proj1 (proj2 GD))|]; split; [exact Hd|]; unfold m_name; now rewrite Dd).
  rewrite G1, Hl, G2. cbn [unwrap bind]. destruct (good_member _ _ GL Hs) as (S0 & S1 & S2). destruct (good_member _ _ GD Hd) as (D0 & D1 & D2).
  assert (TD : m_type dm = t) by (unfold m_type; now rewrite Dd). assert (D1' : m_size dm = dt_size t) by (rewrite <- TD; exact D1). clear D1. rename D1' into D1.
  assert (AS : ad_size (m_def sm) = m_size sm) by (rewrite S1; reflexivity). rewrite AS.
  set (body := fun st i => let '(h, buf, converted) := st in
      let* buf := bf_get_attribute points (m_def sm) i buf in
      match c with
      | Some conversion => let converted := conv_into conversion buf converted in let* h := hb_set_attribute h (m_def dm) (length recs + i) converted in Ok (h, buf, converted)
      | None => let* h := hb_set_attribute h (m_def dm) (length recs + i) buf in Ok (h, buf, converted)
      end).
  destruct (@foldM_range (hbuf * list Z * list Z) (fun i st => length (snd (fst st)) = m_size sm /\ length (snd st) = m_size dm
      /\ exists qs', hb_rep dl (recs ++ qs') (fst (fst st)) /\ only_changes dm qs qs'
         /\ forall k p q, k < i -> nth_error pts k = Some p -> nth_error qs' k = Some q -> value_as (m_type sm) t (attr_value sm p) = Some (attr_value dm q))
    body 0 n (h, repeat 0%Z (m_size sm), repeat 0%Z (m_size dm))) as (st & E & _ & _ & qs' & R' & OC & V).
  - lia.
  - cbn [fst snd]. split; [apply repeat_length|]. split; [apply repeat_length|]. exists qs. split; [exact R|]. split; [|intros; lia].
    split; [reflexivity|]. intros k q q' m H1 H2 _ _. congruence.
  - intros i [[h1 buf] conv] Hi (L1 & L2 & qs' & R1 & (OL & OC) & V). cbn [fst snd] in *. destruct (nth_error_get pts i) as [p Hp]; [lia|].
    destruct (bf_wf_reads points WP) as (_ & _ & _ & RA & _). destruct (RA sm i p buf Hs Hp L1) as (RA1 & _). unfold body. rewrite RA1. cbn [bind].
    assert (LP : length p = l_size l) by exact (uniform_nth _ _ _ _ U Hp). assert (LA : length (attr_value sm p) = m_size sm) by (apply (length_attr_value l); auto).
    assert (X : forall (v conv' : list Z), length conv' = m_size dm -> value_as (m_type sm) t (attr_value sm p) = Some v -> length v = m_size dm ->
       exists st', (let* h := hb_set_attribute h1 (m_def dm) (length recs + i) v in Ok (h, attr_value sm p, conv')) = Ok st'
         /\ length (snd (fst st')) = m_size sm /\ length (snd st') = m_size dm
         /\ exists qs', hb_rep dl (recs ++ qs') (fst (fst st')) /\ only_changes dm qs qs'
           /\ forall k p q, k < i + 1 -> nth_error pts k = Some p -> nth_error qs' k = Some q -> value_as (m_type sm) t (attr_value sm p) = Some (attr_value dm q)).
    { intros v conv' LC VA LV. assert (LV' : length v = dt_size (ad_type (m_def dm))) by (rewrite Dd; cbn [ad_type]; congruence).
      pose proof (hb_set_attribute_ok dl GD _ h1 R1 (m_def dm) (length recs + i) v LV') as O. unfold outcome in O. cbn [spec_step] in O. rewrite (member_of_In _ _ GD Hd) in O.
      assert (LL : length recs + i < length (recs ++ qs')) by (rewrite app_length; lia). apply Nat.ltb_lt in LL. rewrite LL in O. destruct O as (h2 & E2 & R2). rewrite E2. cbn [bind].
      eexists. split; [reflexivity|]. cbn [fst snd]. split; [exact LA|]. split; [exact LC|].
      set (qs2 := mapi (fun k r => if Nat.eqb k i then with_attr dm v r else r) qs').
      assert (EQ : mapi (fun k r => if Nat.eqb k (length recs + i) then with_attr dm v r else r) (recs ++ qs') = recs ++ qs2).
      { rewrite mapi_app_nat. f_equal.
        - apply mapi_id. intros k a Hk. apply nth_error_lt in Hk. destruct (Nat.eqb_spec k (length recs + i)); [lia|reflexivity].
        - unfold qs2. apply mapi_ext. intros k a _. destruct (Nat.eqb_spec (length recs + k) (length recs + i)), (Nat.eqb_spec k i); try lia; reflexivity. }
      rewrite EQ in R2. exists qs2. split; [exact R2|]. assert (UQ : forall k q, nth_error qs' k = Some q -> length q = l_size dl).
      { intros k q Hq. destruct R1 as (_ & _ & UU & _). apply (uniform_nth _ _ (length recs + k) _ UU). rewrite nth_error_app2 by lia. now replace (length recs + k - length recs) with k by lia. }
      split; [split|].
      - unfold qs2. now rewrite length_mapi.
      - intros k q q' m H1 H2 Hm NE. unfold qs2 in H2. rewrite nth_error_mapi in H2. destruct (nth_error qs' k) as [q0|] eqn:Q0; [|discriminate H2]. cbn [option_map] in H2. injection H2 as <-.
        rewrite <- (OC k q q0 m H1 Q0 Hm NE). destruct (Nat.eqb k i); [|reflexivity]. apply (attr_value_with_other dl); auto. exact (UQ _ _ Q0).
      - intros k p' q Hk Hp' Hq. unfold qs2 in Hq. rewrite nth_error_mapi in Hq. destruct (nth_error qs' k) as [q0|] eqn:Q0; [|discriminate Hq]. cbn [option_map] in Hq. injection Hq as <-.
        destruct (Nat.eqb_spec k i) as [->|NE].
        + rewrite Hp in Hp'. injection Hp' as <-. rewrite VA. f_equal. symmetry. apply (attr_value_with_same dl); auto. exact (UQ _ _ Q0).
        + apply (V k); auto. lia. }
    destruct c as [f|].
    + cbn [converts] in C. assert (LC : length (conv_into f (attr_value sm p) conv) = m_size dm).
      { pose proof (C (attr_value sm p) conv ltac:(congruence)) as VA. rewrite D1. apply (value_as_length _ _ _ _ VA). rewrite LA. exact S1. }
      apply X; [exact LC| |exact LC]. apply C. congruence.
    + cbn [converts] in C. apply X; [exact L2| |rewrite LA, S1, D1; change (ad_type (m_def sm)) with (m_type sm); now rewrite C]. rewrite C. apply value_as_same.
  - match goal with |- context [foldM ?g (range 0 ?m) ?s] => change (foldM g (range 0 m) s) with (foldM body (range 0 n) s) end. rewrite E. cbn [bind]. exists (fst (fst st)), qs'. split; [reflexivity|]. split; [exact R'|]. split; [exact OC|].
    intros k p q Hp Hq. apply (V k); auto. apply nth_error_lt in Hp. lia.
Qed.
End WRITE.
