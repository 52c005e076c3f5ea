(* Histories of a PNTS writer. *)
From Coq Require Import String List ZArith Lia Bool Arith Permutation SpecFloat.
From Verif Require Import Base LayoutModel LayoutSpec LayoutProofs BufferModel BufferSpec ListLemmas BufferProofs BufferSteps BufferSteps2 BufferSteps3 BufferSteps4
  TraitModel TraitSpec TraitProofs2 NumModel NumSpec ConvModel ConvSpec ConvProofs2 ConvProofs5 MathModel LasIoModel LasIoProofs AsciiProofs6 PntsModel PntsSpec PntsProofs PntsProofs2.
Import ListNotations.
Open Scope nat_scope.

Lemma Forall2_of_nth {A B} (P : A -> B -> Prop) : forall l l', length l = length l' ->
  (forall k a b, nth_error l k = Some a -> nth_error l' k = Some b -> P a b) -> Forall2 P l l'.
Proof.
  induction l as [|a l IH]; intros [|b l'] L H; try discriminate L; constructor.
  - exact (H 0 a b eq_refl eq_refl).
  - apply IH; [cbn [length] in L; lia|]. intros k x y Hx Hy. exact (H (S k) x y Hx Hy).
Qed.

(* dl is the layout of the file for points of layout l *)
Definition file_layout (l dl : layout) : Prop :=
  good_layout l /\ good_layout dl /\ map m_def (l_attrs dl) = file_defs (l_attrs l).

Lemma file_member l dl sm t : file_layout l dl -> In sm (l_attrs l) -> file_type (m_name sm) = Some t ->
  exists dm, In dm (l_attrs dl) /\ m_def dm = mk_def (m_name sm) t.
Proof.
  intros (_ & _ & D) H T. assert (IN : In (mk_def (m_name sm) t) (map m_def (l_attrs dl))) by (rewrite D; apply in_file_defs; exists sm, t; auto).
  apply in_map_iff in IN. destruct IN as (dm & X1 & X2). exists dm. auto.
Qed.
Lemma file_member_source l dl dm : file_layout l dl -> In dm (l_attrs dl) ->
  exists sm t, In sm (l_attrs l) /\ file_type (m_name sm) = Some t /\ m_def dm = mk_def (m_name sm) t.
Proof.
  intros (_ & _ & D) H. assert (IN : In (m_def dm) (file_defs (l_attrs l))) by (rewrite <- D; now apply in_map). apply in_file_defs in IN. exact IN.
Qed.

Definition winv (l : layout) (w : pnts_writer) (ps : list (list Z)) : Prop :=
  pw_expected w = l /\ file_layout l (pw_default w)
  /\ (exists fns, Permutation (pw_converters w) fns /\ converters_for (l_attrs l) fns)
  /\ exists recs, hb_rep (pw_default w) recs (pw_cache w) /\ Forall2 (same_values l (pw_default w)) ps recs.

Lemma writer_new_ok order l : (forall x, Permutation (order x) x) -> good_layout l -> pnts_ready l ->
  exists w, writer_new order l = Ok w /\ winv l w [] /\ pw_out w = [] /\ pw_rtc w = None /\ pw_requires_flush w = true.
Proof.
  intros O G ((m & key & t & Hm & S) & C). destruct (compatible_layout (l_attrs l)) as (dl & fns & E & F & CF).
  - exact (proj1 (proj2 G)).
  - intros m' t' Hm' T. destruct (type_semantic _ _ T) as [key' S']. exact (C m' key' t' Hm' S').
  - unfold writer_new, make_compatible_layout. rewrite E. cbn [bind fst snd]. eexists. split; [reflexivity|]. split; [|auto].
    destruct (file_layout_good _ _ F) as (D & GD). assert (G' : good_layout dl).
    { apply GD. intros X. assert (IN : In (mk_def (m_name m) t) (file_defs (l_attrs l))) by (apply in_file_defs; exists m, t; split; [exact Hm|split; [exact (semantic_type _ _ _ S)|reflexivity]]). rewrite X in IN. destruct IN. }
    split; [reflexivity|]. cbn [pw_default pw_converters pw_cache]. split; [split; [exact G|split; [exact G'|exact D]]|]. split; [exists fns; split; [apply O|exact CF]|].
    exists []. split; [exact (hb_new_rep dl G')|constructor].
Qed.

Lemma write_ok_gen l w ps points : winv l w ps -> bf_wf points -> bf_layout points = l ->
  exists w', write w points = Ok w' /\ winv l w' (ps ++ bf_points points) /\ pw_out w' = pw_out w /\ pw_rtc w' = pw_rtc w /\ pw_requires_flush w' = pw_requires_flush w.
Proof.
  intros (EX & FL & (fns & PM & CN & CI) & recs & R & F) WP L. pose proof FL as (GL & GD & D). set (dl := pw_default w) in *.
  unfold write. rewrite EX, L. assert (EQ : layout_eqb l l = true) by now apply layout_eqb_eq. rewrite EQ. cbn [negb].
  destruct (bf_points_uniform points WP) as [U LN]. pose proof R as (HL & HN & _). rewrite HL.
  assert (X : exists h qs, (if layout_eqb l dl then append_points (pw_cache w) points
      else foldM (write_attribute points (hb_len (pw_cache w))) (pw_converters w) (hb_resize (pw_cache w) (hb_len (pw_cache w) + bf_len points))) = Ok h
      /\ hb_rep dl (recs ++ qs) h /\ Forall2 (same_values l dl) (bf_points points) qs).
  { destruct (layout_eqb l dl) eqn:LE.
    - apply layout_eqb_eq in LE. destruct (append_points_ok dl GD points WP (pw_cache w) recs R) as (h & qs & E1 & E2 & E3); [congruence|]. exists h, qs. rewrite LE. auto.
    - rewrite HN. assert (ND : NoDup (map fst (pw_converters w))).
      { apply (Permutation_NoDup (l := map fst fns)); [apply Permutation_map, Permutation_sym; exact PM|]. rewrite CN. apply file_defs_names. exact (proj1 (proj2 GL)). }
      destruct (foldM_list (fun pre h => exists qs, hb_rep dl (recs ++ qs) h /\ length qs = bf_len points
          /\ forall sm dm k p q, In (m_name sm) (map fst pre) -> In sm (l_attrs l) -> In dm (l_attrs dl) -> m_name sm = m_name dm ->
               nth_error (bf_points points) k = Some p -> nth_error qs k = Some q -> value_as (m_type sm) (m_type dm) (attr_value sm p) = Some (attr_value dm q))
        (write_attribute points (length recs)) (pw_converters w) (hb_resize (pw_cache w) (length recs + bf_len points))) as (h & E & qs & R' & QN & V).
      + exists (repeat (repeat 0%Z (l_size dl)) (bf_len points)). split; [|split; [apply repeat_length|intros sm dm k p q []]].
        pose proof (hb_resize_rep dl GD recs _ R (length recs + bf_len points)) as X. rewrite firstn_all_ge in X by lia. replace (length recs + bf_len points - length recs) with (bf_len points) in X by lia. exact X.
      + intros pre [name c] post h E (qs & R1 & QN & V).
        assert (IN : In (name, c) fns) by (apply (Permutation_in _ PM); rewrite E; apply in_app_iff; right; now left).
        destruct (CI _ _ IN) as (sm & t & Hs & Ns & T & C). rewrite <- Ns in T. destruct (file_member _ _ _ _ FL Hs T) as (dm & Hd & Dd). rewrite Ns in Dd.
        destruct (write_attribute_ok dl GD points WP ltac:(now rewrite L) name c h recs qs sm dm t R1 QN ltac:(now rewrite L) Ns Hd Dd C) as (h' & qs' & E1 & R2 & (OL & OC) & V').
        exists h'. split; [exact E1|]. exists qs'. split; [exact R2|]. split; [congruence|].
        assert (TD : m_type dm = t) by (unfold m_type; now rewrite Dd). assert (ND' : m_name dm = name) by (unfold m_name; now rewrite Dd).
        intros sm' dm' k p q Hin Hs' Hd' N Hp Hq. rewrite map_app in Hin. apply in_app_iff in Hin. cbn [map fst In] in Hin.
        destruct (String.string_dec (m_name sm') name) as [EN|NN].
        * assert (sm' = sm) by (apply (good_name_inj l); auto; congruence). assert (dm' = dm) by (apply (good_name_inj dl); auto; congruence). subst sm' dm'. rewrite TD. exact (V' k p q Hp Hq).
        * destruct Hin as [Hin|[Hin|[]]]; [|congruence]. destruct (nth_error_get qs k) as [q0 Q0]; [apply nth_error_lt in Hq; lia|].
          rewrite (OC k q0 q dm' Q0 Hq Hd'); [exact (V sm' dm' k p q0 Hin Hs' Hd' N Hp Q0)|]. intros ->. congruence.
      + exists h, qs. split; [exact E|]. split; [exact R'|]. apply (Forall2_of_nth).
        * lia.
        * intros k p q Hp Hq sm dm Hs Hd N. apply (V sm dm k p q); auto.
          apply (Permutation_in (l := map fst fns)); [apply Permutation_map, Permutation_sym; exact PM|]. rewrite CN.
          destruct (file_member_source _ _ _ FL Hd) as (sm' & t' & Hs' & T' & Dd). assert (m_name dm = m_name sm') by (unfold m_name at 1; now rewrite Dd).
          rewrite N, H. apply in_map_iff. exists (mk_def (m_name sm') t'). split; [reflexivity|]. apply in_file_defs. exists sm', t'. auto. }
  destruct X as (h & qs & E & R' & F'). rewrite E. cbn [bind]. eexists. split; [reflexivity|]. split; [|auto].
  split; [reflexivity|]. cbn [pw_default pw_converters pw_cache]. split; [exact FL|]. split; [exists fns; split; [exact PM|split; assumption]|].
  exists (recs ++ qs). split; [exact R'|]. apply Forall2_app; assumption.
Qed.
