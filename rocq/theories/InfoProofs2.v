(* Proofs about the ranges of several chunks in pasture-tools' info. *)
From Coq Require Import String List ZArith Lia Bool Arith SpecFloat.
From Verif Require Import Base LayoutModel LayoutSpec LayoutProofs BufferModel BufferSpec ListLemmas BufferProofs TraitModel TraitSpec NumModel NumSpec ConvModel ConvSpec MathModel MathSpec
  MathProofs MathProofs2 LasIoModel PntsModel InfoModel.
Import ListNotations.
Open Scope nat_scope.

Lemma analyzed_types a : In a analyzed -> snd a = ad_type (fst a) /\ exists p n, minmax_type (snd a) = Some (p, n).
Proof. intros I. cbn [analyzed In] in I. repeat (destruct I as [<-|I]; [split; [reflexivity|]; eexists; eexists; reflexivity|]). destruct I. Qed.

(* l and h are the least and the greatest of the values *)
Definition extremes (vs : list num) (l h : num) : Prop := (forall v, In v vs -> num_le l v /\ num_le v h) /\ In l vs /\ In h vs.
Lemma extremes_merge D vs ws l h l' h' : total_on num_cmp D -> (forall v, In v (vs ++ ws) -> D v) -> extremes vs l h -> extremes ws l' h' -> extremes (vs ++ ws) (infimum l l') (supremum h h').
Proof.
  intros T HD (A & Al & Ah) (B & Bl & Bh). rewrite infimum_mn, supremum_mx.
  assert (D1 : D l /\ D h /\ D l' /\ D h') by (repeat split; apply HD; apply in_or_app; auto). destruct D1 as (Dl & Dh & Dl' & Dh').
  destruct (mn'_facts num_cmp D T l' l Dl' Dl) as (Dm & M1 & M2 & M3). destruct (mx'_facts num_cmp D T h' h Dh' Dh) as (Dx & X1 & X2 & X3). split; [|split].
  - intros v Hv. pose proof (HD v Hv) as Dv. apply in_app_or in Hv. destruct Hv as [Hv|Hv].
    + destruct (A v Hv) as (P & Q). split; [apply (le_trans num_cmp D T _ l); auto|apply (le_trans num_cmp D T _ h); auto].
    + destruct (B v Hv) as (P & Q). split; [apply (le_trans num_cmp D T _ l'); auto|apply (le_trans num_cmp D T _ h'); auto].
  - apply in_or_app. destruct M3 as [-> | ->]; auto.
  - apply in_or_app. destruct X3 as [-> | ->]; auto.
Qed.

Section Chunks.
Variables (l : layout) (a : attr_def * datatype) (m : member) (p : prim) (n : nat).
Hypothesis (IA : In a analyzed) (Hm : In m (l_attrs l)) (MD : m_def m = fst a) (MT : minmax_type (snd a) = Some (p, n)).
Notation c := (fun k r => component_of p k (attr_value m r)).
Definition chunk_ok (b : buffer) : Prop := bf_wf b /\ bf_layout b = l /\ bf_points b <> [].

Definition ranges_of (ps : list (list Z)) (acc : range_of) : Prop :=
  exists lo hi, acc = Some (lo, hi) /\ length lo = n /\ length hi = n
  /\ forall k, k < n -> exists x y, nth_error lo k = Some x /\ nth_error hi k = Some y /\ extremes (map (c k) ps) x y.

Lemma one_chunk b : chunk_ok b -> (forall k r, k < n -> In r (bf_points b) -> is_number (c k r)) ->
  exists acc, minmax_attribute b (fst a) (snd a) = Ok acc /\ ranges_of (bf_points b) acc.
Proof.
  intros (W & L & NE) NUM. destruct (bf_points b) as [|r0 rest] eqn:EP; [contradiction|]. pose proof (proj1 (analyzed_types a IA)) as TA.
  assert (TM : m_type m = snd a) by (rewrite TA, <- MD; reflexivity).
  destruct (minmax_spec b m p n r0 rest W) as (lo & hi & E & L1 & L2 & N); [now rewrite L|now rewrite TM|exact EP|]. rewrite MD, TM in E.
  exists (Some (lo, hi)). split; [exact E|]. exists lo, hi. split; [reflexivity|]. split; [exact L1|]. split; [exact L2|]. intros k Hk. destruct (N k Hk) as (x & y & X & Y & S). exists x, y.
  split; [exact X|]. split; [exact Y|]. cbv zeta in S. rewrite EP in S.
  assert (S' : (forall r, In r (r0 :: rest) -> is_number (c k r) -> num_le x (c k r) /\ num_le (c k r) y) /\ (exists r, In r (r0 :: rest) /\ c k r = x) /\ (exists r, In r (r0 :: rest) /\ c k r = y)).
  { pose proof (NUM k r0 Hk (or_introl eq_refl)) as N0. unfold if_number, is_number in *. cbv beta in *. destruct (component_of p k (attr_value m r0)) as [z|[?|?| |]]; try exact S. now destruct N0. }
  destruct S' as (A & (r1 & I1 & <-) & (r2 & I2 & <-)). split; [|split].
  - intros v Hv. apply in_map_iff in Hv. destruct Hv as (r & <- & I). apply A; auto.
  - exact (in_map (c k) _ _ I1).
  - exact (in_map (c k) _ _ I2).
Qed.

Lemma has_name b : chunk_ok b -> has_attribute_with_name (bf_layout b) (ad_name (fst a)) = true.
Proof. intros (_ & L & _). rewrite L, <- MD. unfold has_attribute_with_name. apply existsb_exists. exists m. split; [exact Hm|apply String.eqb_refl]. Qed.

Lemma kind_total : exists D, total_on num_cmp D /\ forall k r, is_number (c k r) -> D (c k r).
Proof.
  destruct (component_kind p) as [K|K].
  - exists int_num. split; [apply num_int_total|]. intros k r _. apply K.
  - exists flt_num. split; [apply num_flt_total|]. intros k r N. destruct (K k (attr_value m r)) as (f & E). cbv beta in *. rewrite E in *. exists f. split; [reflexivity|]. unfold is_number in N. unfold not_nan. intros ->. now apply N.
Qed.

Lemma chunk_ranges bs : Forall chunk_ok bs -> forall ps acc, (forall k r, k < n -> In r (ps ++ flat_map bf_points bs) -> is_number (c k r)) -> ranges_of ps acc ->
  exists acc', foldM (fun acc b => minmax_chunk b acc a) bs acc = Ok acc' /\ ranges_of (ps ++ flat_map bf_points bs) acc'.
Proof.
  destruct kind_total as (D & T & KD). induction 1 as [|b bs OK F IH]; intros ps acc NUM R; cbn [foldM flat_map].
  - exists acc. rewrite app_nil_r. auto.
  - destruct (one_chunk b OK) as (new & E & RN). { intros k r Hk I. apply NUM; [exact Hk|]. apply in_or_app. right. cbn [flat_map]. apply in_or_app. now left. }
    unfold minmax_chunk at 1. rewrite (has_name b OK), E. cbn [bind]. destruct RN as (lo & hi & -> & L1 & L2 & N). cbn [unwrap bind].
    destruct R as (lo0 & hi0 & -> & M1 & M2 & N0). cbn [bind]. rewrite app_assoc. apply IH.
    + intros k r Hk I. apply NUM; [exact Hk|]. cbn [flat_map]. now rewrite app_assoc.
    + exists (infimums lo0 lo), (supremums hi0 hi). split; [reflexivity|]. unfold infimums, supremums. rewrite !map_length, !combine_length. split; [lia|]. split; [lia|].
      intros k Hk. destruct (N k Hk) as (x & y & X & Y & S). destruct (N0 k Hk) as (x0 & y0 & X0 & Y0 & S0). exists (infimum x0 x), (supremum y0 y). rewrite !nth_error_combine_map, X, X0, Y, Y0.
      split; [reflexivity|]. split; [reflexivity|]. rewrite map_app. apply (extremes_merge D); auto. intros v Hv. rewrite <- map_app in Hv. apply in_map_iff in Hv. destruct Hv as (r & <- & I). apply KD. apply NUM; [exact Hk|].
      cbn [flat_map]. rewrite app_assoc. apply in_or_app. now left.
Qed.
End Chunks.

Lemma all_chunks l a m p n bs : In a analyzed -> In m (l_attrs l) -> m_def m = fst a -> minmax_type (snd a) = Some (p, n) -> bs <> [] ->
  Forall (fun b => bf_wf b /\ bf_layout b = l /\ bf_points b <> []) bs ->
  (forall k r, k < n -> In r (flat_map bf_points bs) -> is_number (component_of p k (attr_value m r))) ->
  exists lo hi, foldM (fun acc b => minmax_chunk b acc a) bs None = Ok (Some (lo, hi)) /\ length lo = n /\ length hi = n
  /\ forall k, k < n -> exists x y, nth_error lo k = Some x /\ nth_error hi k = Some y /\
     let c r := component_of p k (attr_value m r) in
     (forall r, In r (flat_map bf_points bs) -> num_le x (c r) /\ num_le (c r) y)
     /\ (exists r, In r (flat_map bf_points bs) /\ c r = x) /\ (exists r, In r (flat_map bf_points bs) /\ c r = y).
Proof.
  intros IA Hm MD MT NE F NUM. destruct bs as [|b bs]; [contradiction|]. inversion F as [|? ? OK F']; subst.
  destruct (one_chunk l a m p n IA Hm MD MT b OK) as (acc & E & R). { intros k r Hk I. apply NUM; [exact Hk|]. cbn [flat_map]. apply in_or_app. now left. }
  destruct (chunk_ranges l a m p n IA Hm MD MT bs F' (bf_points b) acc) as (acc' & E' & (lo & hi & -> & L1 & L2 & N)); auto.
  exists lo, hi. split.
  - cbn [foldM]. unfold minmax_chunk at 1. rewrite (has_name l a m Hm MD b OK), E. cbn [bind]. destruct R as (x & y & -> & _). cbn [unwrap bind]. exact E'.
  - split; [exact L1|]. split; [exact L2|]. intros k Hk. destruct (N k Hk) as (x & y & X & Y & (A & B & C)). exists x, y. split; [exact X|]. split; [exact Y|]. cbv zeta. split; [|split].
    + intros r Hr. apply A. now apply (in_map (fun r => component_of p k (attr_value m r))).
    + apply in_map_iff in B. destruct B as (r & Q & I). eauto.
    + apply in_map_iff in C. destruct C as (r & Q & I). eauto.
Qed.
