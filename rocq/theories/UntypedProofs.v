(* Reading and writing attributes of untyped points. *)
From Coq Require Import String Ascii List ZArith Lia Bool Arith.
From Verif Require Import Base LayoutModel LayoutSpec LayoutProofs BufferModel BufferSpec ListLemmas BufferProofs TraitModel NumModel NumProofs ConvModel ConvSpec ConvProofs5
  LasIoProofs PntsProofs2 PntsProofs5 UntypedModel.
Import ListNotations.
Open Scope nat_scope.

Lemma member_there u m : good_layout (up_layout u) -> In m (l_attrs (up_layout u)) -> m_offset m + m_size m <= length (up_bytes u) -> up_member u (m_def m) = Ok m.
Proof.
  intros G H L. unfold up_member. change (get_attribute (up_layout u) (m_def m)) with (member_of (up_layout u) (m_def m)). rewrite (member_of_In _ _ G H).
  destruct (good_member _ _ G H) as (_ & S & _). change (ad_type (m_def m)) with (m_type m) in S. rewrite <- S.
  destruct (Nat.ltb_spec (length (up_bytes u)) (m_offset m + m_size m)); [lia|reflexivity].
Qed.
Lemma member_short u m : good_layout (up_layout u) -> In m (l_attrs (up_layout u)) -> length (up_bytes u) < m_offset m + m_size m -> up_member u (m_def m) = Err.
Proof.
  intros G H L. unfold up_member. change (get_attribute (up_layout u) (m_def m)) with (member_of (up_layout u) (m_def m)). rewrite (member_of_In _ _ G H).
  destruct (good_member _ _ G H) as (_ & S & _). change (ad_type (m_def m)) with (m_type m) in S. rewrite <- S.
  destruct (Nat.ltb_spec (length (up_bytes u)) (m_offset m + m_size m)); [reflexivity|lia].
Qed.
Lemma member_missing u a : (forall m, In m (l_attrs (up_layout u)) -> m_def m <> a) -> up_member u a = Err.
Proof.
  intros H. unfold up_member. change (get_attribute (up_layout u) a) with (member_of (up_layout u) a). destruct (member_of (up_layout u) a) as [m|] eqn:E; auto.
  unfold member_of in E. apply find_some in E as (I & E). apply attr_def_eqb_eq in E. elim (H m I E).
Qed.

(* the bytes of v at offset, everything else as it was *)
Lemma blit_changes (bytes v : list Z) off : off + length v <= length bytes ->
  length (blit bytes off v) = length bytes /\ sub (blit bytes off v) off (length v) = v
  /\ forall i, i < off \/ off + length v <= i -> nth_error (blit bytes off v) i = nth_error bytes i.
Proof.
  intros L. split; [|split].
  - unfold blit. rewrite !app_length, firstn_length, skipn_length. lia.
  - apply nth_error_ext. intros k. rewrite nth_error_sub, nth_error_blit by lia.
    destruct (Nat.ltb_spec k (length v)) as [H|H].
    + destruct (Nat.leb_spec off (off + k)), (Nat.ltb_spec (off + k) (off + length v)); try lia. cbn [andb]. f_equal. lia.
    + symmetry. apply nth_error_None. lia.
  - intros i H. rewrite nth_error_blit by lia. destruct (Nat.leb_spec off i), (Nat.ltb_spec i (off + length v)); try lia; reflexivity.
Qed.
Lemma other_value (b b' : list Z) l m m' : good_layout l -> In m (l_attrs l) -> In m' (l_attrs l) -> m <> m' ->
  (forall i, i < m_offset m \/ m_offset m + m_size m <= i -> nth_error b' i = nth_error b i) -> attr_value m' b' = attr_value m' b.
Proof.
  intros G H H' N K. pose proof (good_disjoint l m m' G H H' N) as D. unfold attr_value. apply nth_error_ext. intros k. rewrite !nth_error_sub.
  destruct (Nat.ltb_spec k (m_size m')) as [L|L]; auto. apply K. lia.
Qed.

Lemma get_raw u m : good_layout (up_layout u) -> In m (l_attrs (up_layout u)) -> m_offset m + m_size m <= length (up_bytes u) ->
  get_raw_attribute u (m_def m) = Ok (attr_value m (up_bytes u)).
Proof.
  intros G H L. unfold get_raw_attribute. rewrite (member_there u m G H L). cbn [bind]. destruct (good_member _ _ G H) as (_ & S & _). change (ad_type (m_def m)) with (m_type m) in S. now rewrite <- S.
Qed.
Lemma get_ok u m t : good_layout (up_layout u) -> In m (l_attrs (up_layout u)) -> m_offset m + m_size m <= length (up_bytes u) -> convertible (m_type m) t ->
  exists w, untyped_get u (m_def m) t = Ok w /\ value_as (m_type m) t (attr_value m (up_bytes u)) = Some w.
Proof.
  intros G H L C. unfold untyped_get. rewrite (get_raw u m G H L). cbn [bind]. destruct (good_member _ _ G H) as (_ & S & _). change (ad_type (m_def m)) with (m_type m) in S |- *.
  destruct (datatype_eqb t (m_type m)) eqn:E.
  - apply datatype_eqb_eq in E. subst t. unfold attr_value. rewrite length_sub by lia. rewrite S, Nat.eqb_refl. cbn [assert bind]. eexists. split; [reflexivity|]. unfold value_as. now rewrite datatype_eqb_refl.
  - assert (N : m_type m <> t). { intros X. rewrite X, datatype_eqb_refl in E. discriminate. }
    destruct C as [C|C]; [contradiction|]. destruct (converter_spec (m_def m) (mk_def (ad_name (m_def m)) t) eq_refl N C) as (c & -> & V). cbn [bind].
    eexists. split; [reflexivity|]. apply V. apply repeat_length.
Qed.
Lemma set_ok u m t v : good_layout (up_layout u) -> In m (l_attrs (up_layout u)) -> m_offset m + m_size m <= length (up_bytes u) ->
  convertible t (m_type m) -> length v = dt_size t ->
  exists u' w, untyped_set u (m_def m) t v = Ok u' /\ value_as t (m_type m) v = Some w
    /\ up_layout u' = up_layout u /\ length (up_bytes u') = length (up_bytes u) /\ attr_value m (up_bytes u') = w
    /\ forall i, i < m_offset m \/ m_offset m + m_size m <= i -> nth_error (up_bytes u') i = nth_error (up_bytes u) i.
Proof.
  intros G H L C V. destruct (good_member _ _ G H) as (_ & S & _). change (ad_type (m_def m)) with (m_type m) in S.
  assert (X : exists w, untyped_set u (m_def m) t v = Ok (mk_untyped (up_layout u) (blit (up_bytes u) (m_offset m) w)) /\ value_as t (m_type m) v = Some w).
  { unfold untyped_set. change (ad_type (m_def m)) with (m_type m). destruct (datatype_eqb t (m_type m)) eqn:E.
    - apply datatype_eqb_eq in E. subst t. exists v. unfold set_raw_attribute. rewrite (member_there u m G H L). cbn [bind]. rewrite V, Nat.eqb_refl. cbn [assert bind]. split; [reflexivity|apply value_as_same].
    - assert (N : t <> m_type m). { intros X. rewrite X, datatype_eqb_refl in E. discriminate. }
      destruct C as [C|C]; [contradiction|]. destruct (converter_spec (mk_def (ad_name (m_def m)) t) (m_def m) eq_refl N C) as (c & -> & VA). cbn [bind].
      rewrite (member_there u m G H L). cbn [bind]. eexists. split; [reflexivity|]. apply VA. apply length_sub. change (ad_type (m_def m)) with (m_type m). lia. }
  destruct X as (w & E & VA). pose proof (LasIoProofs.value_as_length _ _ _ _ VA V) as LW. rewrite <- S in LW.
  destruct (blit_changes (up_bytes u) w (m_offset m) ltac:(lia)) as (B1 & B2 & B3). exists (mk_untyped (up_layout u) (blit (up_bytes u) (m_offset m) w)), w.
  split; [exact E|]. split; [exact VA|]. split; [reflexivity|]. cbn [up_bytes]. split; [exact B1|]. split; [unfold attr_value; now rewrite <- LW|]. now rewrite <- LW.
Qed.
Lemma set_get u m t v u' : good_layout (up_layout u) -> In m (l_attrs (up_layout u)) -> m_offset m + m_size m <= length (up_bytes u) ->
  convertible t (m_type m) -> convertible (m_type m) t -> length v = dt_size t -> untyped_set u (m_def m) t v = Ok u' ->
  exists w r, value_as t (m_type m) v = Some w /\ value_as (m_type m) t w = Some r /\ untyped_get u' (m_def m) t = Ok r
    /\ forall m', In m' (l_attrs (up_layout u)) -> m' <> m -> forall t', m_offset m' + m_size m' <= length (up_bytes u) -> convertible (m_type m') t' ->
       untyped_get u' (m_def m') t' = untyped_get u (m_def m') t'.
Proof.
  intros G H L C C' V E. destruct (set_ok u m t v G H L C V) as (u1 & w & E1 & VA & LY & LN & AV & OT). rewrite E in E1. apply Ok_inj in E1. subst u1.
  rewrite <- LY in G, H. rewrite <- LN in L. destruct (get_ok u' m t G H L C') as (r & R1 & R2). rewrite AV in R2. exists w, r. split; auto. split; auto. split; auto.
  intros m' H' N t' L' Ct. rewrite <- LY in H'. rewrite <- LN in L'. destruct (get_ok u' m' t' G H' L' Ct) as (x & X1 & X2).
  rewrite LY in G, H, H'. rewrite LN in L'. destruct (get_ok u m' t' G H' L' Ct) as (y & Y1 & Y2). rewrite X1, Y1. f_equal.
  rewrite (other_value (up_bytes u) (up_bytes u') (up_layout u) m m') in X2; auto. congruence.
Qed.

Lemma missing_get u a t : (forall m, In m (l_attrs (up_layout u)) -> m_def m <> a) -> get_raw_attribute u a = Err /\ untyped_get u a t = Err.
Proof. intros H. unfold untyped_get, get_raw_attribute. rewrite (member_missing u a H). auto. Qed.
Lemma missing_set u a t v : (forall m, In m (l_attrs (up_layout u)) -> m_def m <> a) ->
  set_raw_attribute u a v = Err /\ (convertible t (ad_type a) -> untyped_set u a t v = Err).
Proof.
  intros H. assert (R : set_raw_attribute u a v = Err) by (unfold set_raw_attribute; now rewrite (member_missing u a H)). split; auto. intros C. unfold untyped_set. destruct (datatype_eqb t (ad_type a)) eqn:E; auto.
  assert (N : t <> ad_type a). { intros X. rewrite X, datatype_eqb_refl in E. discriminate. } destruct C as [C|C]; [contradiction|].
  destruct (converter_spec (mk_def (ad_name a) t) a eq_refl N C) as (c & -> & _). cbn [bind]. now rewrite (member_missing u a H).
Qed.
Lemma short_get u m t : good_layout (up_layout u) -> In m (l_attrs (up_layout u)) -> length (up_bytes u) < m_offset m + m_size m ->
  untyped_get u (m_def m) t = Err /\ forall v, convertible t (m_type m) -> untyped_set u (m_def m) t v = Err.
Proof.
  intros G H L. pose proof (member_short u m G H L) as M. split; [unfold untyped_get, get_raw_attribute; now rewrite M|]. intros v C. unfold untyped_set. destruct (datatype_eqb t (ad_type (m_def m))) eqn:E.
  - unfold set_raw_attribute. now rewrite M.
  - assert (N : t <> m_type m). { intros X. rewrite X in E. unfold m_type in E. rewrite datatype_eqb_refl in E. discriminate. } destruct C as [C|C]; [contradiction|].
    destruct (converter_spec (mk_def (ad_name (m_def m)) t) (m_def m) eq_refl N C) as (c & -> & _). cbn [bind]. now rewrite M.
Qed.
Lemma unconvertible u a t : ~ convertible t (ad_type a) -> forall v, untyped_set u a t v = Panic.
Proof.
  intros C v. unfold untyped_set. destruct (datatype_eqb t (ad_type a)) eqn:E; [apply datatype_eqb_eq in E; elim C; now left|].
  rewrite converter_panics; auto. right. split; [intros X; apply C; now left|intros X; apply C; now right].
Qed.
Lemma unconvertible_get u m t : good_layout (up_layout u) -> In m (l_attrs (up_layout u)) -> m_offset m + m_size m <= length (up_bytes u) -> ~ convertible (m_type m) t ->
  untyped_get u (m_def m) t = Panic.
Proof.
  intros G H L C. unfold untyped_get. rewrite (get_raw u m G H L). cbn [bind]. destruct (datatype_eqb t (ad_type (m_def m))) eqn:E; [apply datatype_eqb_eq in E; elim C; now left|].
  rewrite converter_panics; auto. right. split; [intros X; apply C; now left|intros X; apply C; now right].
Qed.
Lemma new_point l : length (up_bytes (untyped_new l)) = l_size l /\ up_layout (untyped_new l) = l /\ forall b, In b (up_bytes (untyped_new l)) -> b = 0%Z.
Proof. split; [apply repeat_length|]. split; [reflexivity|]. intros b. apply repeat_spec. Qed.
