(* Reading points of a PNTS file. *)
From Coq Require Import String List ZArith Lia Bool Arith SpecFloat.
From Verif Require Import Base LayoutModel LayoutSpec LayoutProofs BufferModel BufferSpec ListLemmas BufferProofs BufferSteps BufferSteps2
  TraitModel TraitSpec TraitProofs2 TraitProofs3 NumModel NumSpec NumProofs ConvModel ConvSpec ConvProofs5 MathModel LasIoModel LasIoProofs PntsModel PntsSpec PntsProofs2.
Import ListNotations.
Open Scope nat_scope.

Section READ.
Variables (r : pnts_reader) (RO : reader_ok r) (n : nat) (NB : pr_index r + n <= pr_num r).

(* the effect on the points: attribute tm of the first k points is that of the file, the other attributes and points are unchanged *)
Definition column_read (rm tm : member) (l : layout) (k : nat) (pts pts' : list (list Z)) : Prop :=
  length pts' = length pts
  /\ forall i q q', nth_error pts i = Some q -> nth_error pts' i = Some q' ->
       (i < k -> value_as (m_type rm) (m_type tm) (file_value r rm (pr_index r + i)) = Some (attr_value tm q'))
       /\ (forall m, In m (l_attrs l) -> m <> tm -> attr_value m q' = attr_value m q)
       /\ (k <= i -> q' = q).

Lemma same_outside_refl b : same_outside b b.
Proof. unfold same_outside. auto. Qed.

Lemma read_step b0 b rm tm i v : mb_wf b0 -> mb_wf b -> same_outside b0 b -> mb_off b = mb_off b0 -> In tm (l_attrs (mb_layout b0)) -> i < n -> n <= mb_len b0 ->
  column_read rm tm (mb_layout b0) i (mb_points b0) (mb_points b) -> length v = m_size tm ->
  value_as (m_type rm) (m_type tm) (file_value r rm (pr_index r + i)) = Some v ->
  exists b', mb_set_attribute b (m_def tm) i v = Ok b' /\ mb_wf b' /\ same_outside b0 b' /\ mb_off b' = mb_off b0 /\ column_read rm tm (mb_layout b0) (i + 1) (mb_points b0) (mb_points b').
Proof.
  intros W0 W (SL & SN & SR & SO) EO Ht Hi HN (CL & CR) LV VA. pose proof (wf_good b0 W0) as G.
  destruct (set_attribute_points b tm i v W) as (b' & E & W' & _ & EL & EN & EP & EO' & ER & OUT); [now rewrite SL|rewrite SN; lia|exact LV|].
  exists b'. split; [exact E|]. split; [exact W'|]. split; [|split; [congruence|]].
  - split; [congruence|]. split; [congruence|]. split; [congruence|]. intros q Hq. rewrite OUT, SO; auto. rewrite EO, SN. exact Hq.
  - split; [rewrite EP, length_mapi; exact CL|]. intros k q q' Hq Hq'. rewrite EP, nth_error_mapi in Hq'. destruct (nth_error (mb_points b) k) as [q1|] eqn:Q1; [|discriminate Hq']. cbn [option_map] in Hq'. injection Hq' as <-.
    destruct (CR k q q1 Hq Q1) as (C1 & C2 & C3). assert (LQ : length q1 = l_size (mb_layout b0)).
    { rewrite <- SL. destruct (bf_points_uniform (Of b) W) as [U _]. exact (uniform_nth _ _ _ _ U Q1). }
    destruct (Nat.eqb_spec k i) as [->|NE].
    + split; [|split; [|intros; lia]].
      * intros _. rewrite (attr_value_with_same _ tm v q1 G Ht LQ LV). exact VA.
      * intros m Hm Hne. rewrite <- (C2 m Hm Hne). apply (attr_value_with_other (mb_layout b0)); auto.
    + split; [intros H; apply C1; lia|]. split; [exact C2|]. intros H. apply C3. lia.
Qed.

Lemma file_value_read rm i : In rm (l_attrs (pr_layout r)) -> i < n ->
  exists o, assoc (m_name rm) (pr_offsets r) = Some o
    /\ read_at (pr_bytes r) (o + pr_index r * m_size rm + i * m_size rm) (m_size rm) = Ok (file_value r rm (pr_index r + i))
    /\ length (file_value r rm (pr_index r + i)) = m_size rm.
Proof.
  intros Hr Hi. destruct RO as (G & C & _). destruct (C rm Hr) as (o & A & B). exists o. split; [exact A|]. unfold read_at, file_value. rewrite A.
  replace (o + pr_index r * m_size rm + i * m_size rm) with (o + (pr_index r + i) * m_size rm) by nia.
  assert (L : o + (pr_index r + i) * m_size rm + m_size rm <= length (pr_bytes r)) by nia. apply Nat.leb_le in L. rewrite L. apply Nat.leb_le in L. split; [reflexivity|].
  unfold sub. rewrite firstn_length, skipn_length. lia.
Qed.

Lemma read_attribute_ok b rm tm : mb_wf b -> n <= mb_len b -> In rm (l_attrs (pr_layout r)) -> In tm (l_attrs (mb_layout b)) -> m_name rm = m_name tm ->
  (m_type rm = m_type tm \/ supported (m_type rm) (m_type tm)) ->
  exists b', read_attribute r n (mb_layout b) b rm = Ok b' /\ mb_wf b' /\ same_outside b b' /\ mb_off b' = mb_off b /\ column_read rm tm (mb_layout b) n (mb_points b) (mb_points b').
Proof.
  intros W HN Hr Ht NM CV. pose proof (wf_good b W) as G. destruct RO as (GR & C & _). unfold read_attribute.
  assert (GN : get_attribute_by_name (mb_layout b) (m_name rm) = Some tm) by (apply get_by_name_spec; [exact (proj1 (proj2 G))|split; [exact Ht|now symmetry]]). rewrite GN.
  destruct (C rm Hr) as (o & A & B & B64). rewrite A. cbn [unwrap bind].
  unfold offset_add. destruct (Z.ltb_spec (Z.of_nat o + Z.of_nat (pr_index r * m_size rm)) (2 ^ 64)) as [_|OV]; [|exfalso; clear - OV B B64 NB; nia]. cbn [bind].
  destruct (good_member _ _ G Ht) as (T0 & T1 & T2). change (ad_type (m_def tm)) with (m_type tm) in T1. destruct (good_member _ _ GR Hr) as (R0 & R1 & R2). change (ad_type (m_def rm)) with (m_type rm) in R1.
  assert (ND : NoDup (map m_name (l_attrs (mb_layout b)))) by exact (proj1 (proj2 G)).
  assert (ZERO : column_read rm tm (mb_layout b) 0 (mb_points b) (mb_points b)).
  { split; [reflexivity|]. intros i q q' H1 H2. rewrite H1 in H2. injection H2 as <-. split; [intros; lia|]. split; [auto|auto]. }
  destruct (datatype_eqb (m_type rm) (m_type tm)) eqn:DT.
  - apply datatype_eqb_eq in DT. rewrite converter_none by (auto; exact NM). cbn [bind].
    set (body := fun b1 i => let* src := read_at (pr_bytes r) (o + pr_index r * m_size rm + i * m_size rm) (m_size rm) in mb_set_attribute b1 (m_def tm) i src).
    destruct (@foldM_range mbuf (fun i b1 => mb_wf b1 /\ same_outside b b1 /\ mb_off b1 = mb_off b /\ column_read rm tm (mb_layout b) i (mb_points b) (mb_points b1)) body 0 n b) as (b' & E & P).
    + lia.
    + split; [exact W|]. split; [apply same_outside_refl|auto].
    + intros i b1 Hi (W1 & S1 & O1 & C1). destruct (file_value_read rm i Hr) as (o' & A' & RE & LF); [lia|]. rewrite A in A'. injection A' as <-. unfold body. rewrite RE. cbn [bind].
      apply (read_step b b1 rm tm i); auto; [lia|congruence|]. rewrite DT. apply value_as_same.
    + exists b'. split; [exact E|exact P].
  - assert (NT : m_type rm <> m_type tm) by (intros X; apply datatype_eqb_eq in X; congruence). destruct CV as [X|SU]; [contradiction|].
    destruct (converter_spec (m_def rm) (m_def tm) NM NT SU) as (f & CE & CF). rewrite CE. cbn [bind].
    set (body := fun (st : mbuf * list Z) i => let* src := read_at (pr_bytes r) (o + pr_index r * m_size rm + i * m_size rm) (m_size rm) in
                       let dst := conv_into f src (snd st) in let* b := mb_set_attribute (fst st) (m_def tm) i dst in Ok (b, dst)).
    destruct (@foldM_range (mbuf * list Z) (fun i st => length (snd st) = m_size tm /\ mb_wf (fst st) /\ same_outside b (fst st) /\ mb_off (fst st) = mb_off b /\ column_read rm tm (mb_layout b) i (mb_points b) (mb_points (fst st))) body 0 n (b, repeat 0%Z (m_size tm))) as (st & E & P).
    + lia.
    + cbn [fst snd]. split; [apply repeat_length|]. split; [exact W|]. split; [apply same_outside_refl|auto].
    + intros i [b1 d] Hi (LD & W1 & S1 & O1 & C1). cbn [fst snd] in *. destruct (file_value_read rm i Hr) as (o' & A' & RE & LF); [lia|]. rewrite A in A'. injection A' as <-. unfold body. rewrite RE. cbn [bind fst snd].
      assert (VA : value_as (m_type rm) (m_type tm) (file_value r rm (pr_index r + i)) = Some (conv_into f (file_value r rm (pr_index r + i)) d)) by (apply CF; rewrite LD; exact T1).
      assert (LV : length (conv_into f (file_value r rm (pr_index r + i)) d) = m_size tm) by (rewrite T1; apply (value_as_length _ _ _ _ VA); congruence).
      destruct (read_step b b1 rm tm i _ W W1 S1 O1 Ht ltac:(lia) HN C1 LV VA) as (b2 & E2 & P2). rewrite E2. cbn [bind]. eexists. split; [reflexivity|]. cbn [fst snd]. split; [exact LV|exact P2].
    + match goal with |- context [foldM ?g (range 0 ?m) ?s] => change (foldM g (range 0 m) s) with (foldM body (range 0 n) s) end. rewrite E. cbn [bind]. exists (fst st). split; [reflexivity|exact (proj2 P)].
Qed.

(* point i after the attributes ms of the file were read *)
Definition point_so_far (ms : list member) (l : layout) (i : nat) (old q : list Z) : Prop :=
  (forall m tm, In m ms -> In tm (l_attrs l) -> m_name m = m_name tm -> value_as (m_type m) (m_type tm) (file_value r m i) = Some (attr_value tm q))
  /\ (forall tm, In tm (l_attrs l) -> ~ In (m_name tm) (map m_name ms) -> attr_value tm q = attr_value tm old).

Lemma read_attributes_ok b : mb_wf b -> n <= mb_len b -> readable r (mb_layout b) ->
  exists b', foldM (read_attribute r n (mb_layout b)) (l_attrs (pr_layout r)) b = Ok b' /\ mb_wf b' /\ same_outside b b' /\ mb_off b' = mb_off b
    /\ length (mb_points b') = length (mb_points b)
    /\ forall i old q, nth_error (mb_points b) i = Some old -> nth_error (mb_points b') i = Some q ->
         (i < n -> point_read r (mb_layout b) (pr_index r + i) old q) /\ (n <= i -> q = old).
Proof.
  intros W HN RD. pose proof (wf_good b W) as G. pose proof (proj1 RO) as GR.
  destruct (@foldM_list member mbuf (fun ms b' => mb_wf b' /\ same_outside b b' /\ mb_off b' = mb_off b /\ length (mb_points b') = length (mb_points b)
    /\ forall i old q, nth_error (mb_points b) i = Some old -> nth_error (mb_points b') i = Some q ->
         (i < n -> point_so_far ms (mb_layout b) (pr_index r + i) old q) /\ (n <= i -> q = old))
    (read_attribute r n (mb_layout b)) (l_attrs (pr_layout r)) b) as (b' & E & P).
  - split; [exact W|]. split; [apply same_outside_refl|]. split; [reflexivity|]. split; [reflexivity|]. intros i old q H1 H2. rewrite H1 in H2. injection H2 as <-. split; [|auto]. intros _. split; [intros m tm []|auto].
  - intros pre rm post b1 EL (W1 & (SL & SN & SR & SO) & O1 & L1 & V). assert (Hr : In rm (l_attrs (pr_layout r))) by (rewrite EL; apply in_elt).
    assert (NI : ~ In (m_name rm) (map m_name pre)).
    { pose proof (proj1 (proj2 GR)) as ND. rewrite EL, map_app in ND. cbn [map] in ND. apply NoDup_remove_2 in ND. intros X. apply ND, in_app_iff. now left. }
    destruct (get_attribute_by_name (mb_layout b) (m_name rm)) as [tm|] eqn:GN.
    + apply get_by_name_spec in GN; [|exact (proj1 (proj2 G))]. destruct GN as (Ht & NT).
      destruct (read_attribute_ok b1 rm tm W1) as (b2 & E2 & W2 & (SL2 & SN2 & SR2 & SO2) & O2 & (CL & CR)); [rewrite SN; exact HN|exact Hr|now rewrite SL|now symmetry|apply RD; auto|].
      rewrite SL in E2, CR. exists b2. split; [exact E2|]. split; [exact W2|]. split; [|split; [congruence|split; [congruence|]]].
      * split; [congruence|]. split; [congruence|]. split; [congruence|]. intros q Hq. rewrite SO2, SO; auto. rewrite O1, SN. exact Hq.
      * intros i old q H1 H2. destruct (nth_error_get (mb_points b1) i) as [q1 Q1]; [apply nth_error_lt in H2; lia|]. destruct (CR i q1 q Q1 H2) as (C1 & C2 & C3). destruct (V i old q1 H1 Q1) as (V1 & V2). split.
        -- intros Hi. destruct (V1 Hi) as (P1 & P2). split.
           ++ intros m tm' Hm Ht' NM. apply in_app_iff in Hm. destruct Hm as [Hm|[<-|[]]].
              ** rewrite (C2 tm'); auto. intros ->. apply NI. rewrite <- NT, <- NM. now apply in_map.
              ** assert (tm' = tm) as -> by (apply (good_name_inj (mb_layout b)); auto; congruence). apply C1. exact Hi.
           ++ intros tm' Ht' NI'. rewrite (C2 tm'); auto.
              ** apply P2; auto. intros X. apply NI'. rewrite map_app. apply in_app_iff. now left.
              ** intros ->. apply NI'. rewrite map_app. apply in_app_iff. right. left. now symmetry.
        -- intros Hi. rewrite (C3 Hi). now apply V2.
    + exists b1. unfold read_attribute. rewrite GN. split; [reflexivity|]. split; [exact W1|]. split; [repeat split; auto|]. split; [exact O1|]. split; [exact L1|].
      assert (NG : forall tm, In tm (l_attrs (mb_layout b)) -> m_name tm <> m_name rm).
      { intros tm Ht X. assert (Y : get_attribute_by_name (mb_layout b) (m_name rm) = Some tm) by (apply get_by_name_spec; [exact (proj1 (proj2 G))|auto]). congruence. }
      intros i old q H1 H2. destruct (V i old q H1 H2) as (V1 & V2). split; [|exact V2]. intros Hi. destruct (V1 Hi) as (P1 & P2). split.
      * intros m tm Hm Ht NM. apply in_app_iff in Hm. destruct Hm as [Hm|[<-|[]]]; [now apply P1|]. destruct (NG tm Ht). now symmetry.
      * intros tm Ht NI'. apply P2; auto. intros X. apply NI'. rewrite map_app. apply in_app_iff. now left.
  - exists b'. split; [exact E|exact P].
Qed.
End READ.
