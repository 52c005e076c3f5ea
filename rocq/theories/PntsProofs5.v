(* A flushed PNTS file is well-formed. *)
From Coq Require Import String List ZArith Lia Bool Arith Permutation SpecFloat.
From Verif Require Import Base LayoutModel LayoutSpec LayoutProofs BufferModel BufferSpec ListLemmas BufferProofs BufferSteps BufferSteps2 BufferSteps3 BufferSteps4
  TraitModel TraitSpec TraitProofs2 NumModel NumSpec NumProofs ConvModel ConvSpec ConvProofs2 ConvProofs5 MathModel LasIoModel LasIoProofs AsciiProofs6 PntsModel PntsSpec PntsProofs PntsProofs2 PntsProofs3 PntsProofs4.
Import ListNotations.
Open Scope nat_scope.

(* ---- header ---- *)
Lemma sub_app_left {A} (a b : list A) o n : o + n <= length a -> sub (a ++ b) o n = sub a o n.
Proof. intros H. unfold sub. rewrite skipn_app, firstn_app, skipn_length. replace (n - (length a - o)) with 0 by lia. cbn [firstn]. now rewrite app_nil_r. Qed.
Lemma sub_app_right {A} (a b : list A) o n : length a <= o -> sub (a ++ b) o n = sub b (o - length a) n.
Proof. intros H. unfold sub. rewrite skipn_app, (skipn_all2 a) by lia. reflexivity. Qed.
Lemma sub_exact {A} (a b : list A) : sub (a ++ b) 0 (length a) = a.
Proof. unfold sub. cbn [skipn]. rewrite firstn_app, Nat.sub_diag, firstn_all. cbn [firstn]. apply app_nil_r. Qed.

Definition in_u32 (z : Z) : Prop := (0 <= z < 2 ^ 32)%Z.
Lemma u32_dec z : in_u32 z -> le_dec (le_enc 4 z) = z.
Proof. intros H. rewrite le_dec_enc. apply Z.mod_small. unfold in_u32 in H. cbn. lia. Qed.
Lemma header_fields h rest : in_u32 (ph_version h) -> in_u32 (ph_byte_length h) -> in_u32 (ph_ft_json h) -> in_u32 (ph_ft_binary h) -> in_u32 (ph_bt_json h) -> in_u32 (ph_bt_binary h) ->
  let file := header_bytes h ++ rest in
  sub file 0 4 = PNTS_MAGIC /\ u32_at file 4 = ph_version h /\ u32_at file 8 = ph_byte_length h /\ u32_at file 12 = ph_ft_json h /\ u32_at file 16 = ph_ft_binary h
  /\ u32_at file 20 = ph_bt_json h /\ u32_at file 24 = ph_bt_binary h.
Proof.
  intros H1 H2 H3 H4 H5 H6 file.
  assert (E : forall o, o + 4 <= 28 -> sub file o 4 = sub (header_bytes h) o 4) by (intros o Ho; unfold file; apply sub_app_left; now rewrite header_bytes_length).
  unfold u32_at. rewrite !E by lia. unfold header_bytes.
  assert (N : forall (a b : list Z) o, length a = 4 -> 4 <= o -> sub (a ++ b) o 4 = sub b (o - 4) 4) by (intros a b o La Ho; rewrite sub_app_right by lia; now rewrite La).
  assert (X : forall a b, length a = 4 -> @sub Z (a ++ b) 0 4 = a) by (intros a b La; rewrite <- La; apply sub_exact).
  pose proof (fun z => le_enc_length 4 z) as LE. assert (LM : length PNTS_MAGIC = 4) by reflexivity.
  split; [rewrite X by exact LM; reflexivity|].
  repeat (rewrite (N PNTS_MAGIC) by (auto; lia)). cbn [Nat.sub].
  split; [rewrite X by apply LE; now apply u32_dec|]. rewrite !(N (le_enc 4 (ph_version h))) by (try apply LE; lia). cbn [Nat.sub].
  split; [rewrite X by apply LE; now apply u32_dec|]. rewrite !(N (le_enc 4 (ph_byte_length h))) by (try apply LE; lia). cbn [Nat.sub].
  split; [rewrite X by apply LE; now apply u32_dec|]. rewrite !(N (le_enc 4 (ph_ft_json h))) by (try apply LE; lia). cbn [Nat.sub].
  split; [rewrite X by apply LE; now apply u32_dec|]. rewrite !(N (le_enc 4 (ph_ft_binary h))) by (try apply LE; lia). cbn [Nat.sub].
  split; [rewrite X by apply LE; now apply u32_dec|]. rewrite !(N (le_enc 4 (ph_bt_json h))) by (try apply LE; lia). cbn [Nat.sub].
  rewrite <- (app_nil_r (le_enc 4 (ph_bt_binary h))), X by apply LE. now apply u32_dec.
Qed.

Lemma file_sections ft bd bt : (Z.of_nat (28 + length ft + length bd + length bt) < 2 ^ 32)%Z -> (28 + length ft) mod 8 = 0 -> length bd mod 8 = 0 ->
  sections (header_bytes (mk_ph 1 (Z.of_nat (28 + length ft + length bd + length bt)) (Z.of_nat (length ft)) (Z.of_nat (length bd)) (Z.of_nat (length bt)) 0) ++ ft ++ bd ++ bt) ft bd bt [].
Proof.
  intros S M1 M2. set (h := mk_ph 1 _ _ _ _ _).
  assert (IN : in_u32 (ph_version h) /\ in_u32 (ph_byte_length h) /\ in_u32 (ph_ft_json h) /\ in_u32 (ph_ft_binary h) /\ in_u32 (ph_bt_json h) /\ in_u32 (ph_bt_binary h)).
  { unfold in_u32, h. cbn [ph_version ph_byte_length ph_ft_json ph_ft_binary ph_bt_json ph_bt_binary]. lia. }
  destruct IN as (I1 & I2 & I3 & I4 & I5 & I6). destruct (header_fields h (ft ++ bd ++ bt) I1 I2 I3 I4 I5 I6) as (F0 & F1 & F2 & F3 & F4 & F5 & F6).
  unfold sections. split; [exact F0|]. split; [exact F1|]. split.
  { rewrite app_nil_r. rewrite skipn_app, header_bytes_length, skipn_all2 by (rewrite header_bytes_length; lia). reflexivity. }
  assert (LF : length (header_bytes h ++ ft ++ bd ++ bt) = 28 + length ft + length bd + length bt) by (rewrite !app_length, header_bytes_length; lia).
  split; [rewrite LF; cbn [length]; lia|]. split; [rewrite LF; exact S|]. split; [rewrite F2, LF; reflexivity|]. split; [exact F3|]. split; [exact F4|]. split; [exact F5|]. split; [exact F6|].
  split; [exact M1|]. now apply mod8_add.
Qed.

(* ---- the feature table ---- *)
Lemma assoc_in {A} k (v : A) l : NoDup (map fst l) -> (assoc k l = Some v <-> In (k, v) l).
Proof.
  intros ND. unfold assoc. induction l as [|[k' v'] l IH]; cbn [find map fst snd] in *; [split; [discriminate|intros []]|].
  inversion ND as [|? ? NI ND']; subst. destruct (String.eqb_spec k' k) as [->|NE]; cbn [option_map].
  - cbn [snd In]. split; [intros [= <-]; now left|]. intros [E|H]; [now injection E as <-|]. destruct NI. exact (in_map fst _ _ H).
  - rewrite (IH ND'). cbn [In]. split; [now right|]. intros [E|H]; [injection E as E _; contradiction|exact H].
Qed.
Lemma assoc_none {A} k (l : list (string * A)) : assoc k l = None <-> ~ In k (map fst l).
Proof.
  unfold assoc. induction l as [|[k' v'] l IH]; cbn [find map fst In]; [cbn; tauto|].
  destruct (String.eqb_spec k' k) as [->|NE]; cbn [option_map]; [split; [discriminate|tauto]|]. rewrite IH. split; [intros H [E|E]; contradiction|tauto].
Qed.
Lemma assoc_map {A B} (f : A -> B) k l : assoc k (map (fun e => (fst e, f (snd e))) l) = option_map f (assoc k l).
Proof. unfold assoc. induction l as [|[k' v'] l IH]; cbn [map find fst snd]; [reflexivity|]. destruct (String.eqb k' k); [reflexivity|exact IH]. Qed.

Lemma NoDup_app_intro {A} (a b : list A) : NoDup a -> NoDup b -> (forall x, In x a -> In x b -> False) -> NoDup (a ++ b).
Proof.
  induction a as [|x a IH]; intros Na Nb D; cbn [app]; [exact Nb|]. inversion Na as [|? ? NI Na']; subst. constructor.
  - intros H. apply in_app_iff in H. destruct H as [H|H]; [contradiction|]. exact (D x (or_introl eq_refl) H).
  - apply IH; auto. intros y Hy. apply D. now right.
Qed.

Lemma Ok_inj {A} (a b : A) : Ok a = Ok b -> a = b.
Proof. congruence. Qed.

Definition finite_center (r : option (p3 spec_float)) : Prop :=
  match r with Some v => finite_float (px v) /\ finite_float (py v) /\ finite_float (pz v) | None => True end.

Lemma finite_json f : finite_float f -> json_f64 f = JFloat f.
Proof. destruct f; cbn; intros H; try reflexivity; destruct H. Qed.

Section TABLE.
Variables (l dl : layout) (FL : file_layout l dl).

Lemma dl_member dm : In dm (l_attrs dl) -> exists t, m_type dm = t /\ semantic (m_name dm) (key_of dm) t /\ m_size dm = dt_size t /\ 0 < dt_size t.
Proof.
  intros H. destruct (file_member_source _ _ _ FL H) as (sm & t & Hs & T & Dd). exists t. assert (TD : m_type dm = t) by (unfold m_type; now rewrite Dd).
  assert (ND : m_name dm = m_name sm) by (unfold m_name at 1; now rewrite Dd). destruct (type_semantic _ _ T) as [key S]. split; [exact TD|].
  rewrite ND. unfold key_of. rewrite Dd, (semantic_key _ _ _ S). split; [exact S|]. pose proof (proj1 (proj2 FL)) as G. destruct (good_member _ _ G H) as (P0 & P1 & P2).
  change (ad_type (m_def dm)) with (m_type dm) in P1. rewrite TD in P1. split; [exact P1|lia].
Qed.
Lemma dl_named m : In m (l_attrs dl) -> semantics_name (m_def m) <> None.
Proof.
  intros H. destruct (file_member_source _ _ _ FL H) as (sm & t & Hs & T & Dd). destruct (type_semantic _ _ T) as [key S]. rewrite Dd, (semantic_key _ _ _ S). discriminate.
Qed.
Lemma key_inj a b : In a (l_attrs dl) -> In b (l_attrs dl) -> key_of a = key_of b -> a = b.
Proof.
  intros A B E. destruct (dl_member a A) as (ta & _ & SA & _). destruct (dl_member b B) as (tb & _ & SB & _). rewrite E in SA.
  apply (good_name_inj dl); auto; [exact (proj1 (proj2 FL))|]. exact (semantic_key_inj _ _ _ _ _ SA SB).
Qed.
Lemma keys_distinct : NoDup (map key_of (l_attrs dl)).
Proof.
  assert (ND : NoDup (l_attrs dl)) by exact (NoDup_map_inv _ _ (proj1 (proj2 (proj1 (proj2 FL))))).
  assert (X : forall ms, incl ms (l_attrs dl) -> NoDup ms -> NoDup (map key_of ms)).
  { induction ms as [|m ms IH]; intros I N; cbn [map]; [constructor|]. inversion N as [|? ? NI N']; subst. constructor; [|apply IH; [intros x Hx; apply I; now right|exact N']].
    intros H. apply in_map_iff in H. destruct H as (x & E & Hx). apply NI. rewrite <- (key_inj x m); auto; apply I; [now right|now left]. }
  apply X; [apply incl_refl|exact ND].
Qed.
Lemma key_values m : In m (l_attrs dl) -> In (key_of m) ["POSITION"; "RGB"; "RGBA"; "NORMAL"]%string.
Proof.
  intros H. destruct (dl_member m H) as (t & _ & S & _). revert S. unfold semantic, semantics_table. generalize (key_of m). intros k S. cbn [In] in *.
  destruct S as [E|[E|[E|[E|[]]]]]; injection E as _ E _; auto.
Qed.

Variables (n : nat) (rtc : option (p3 spec_float)).
Definition fields_of_table : list (string * json) := map (fun e => (fst e, json_of_ft_value (snd e))) (the_table (l_attrs dl) n rtc).
Lemma table_nodup : NoDup (map fst (the_table (l_attrs dl) n rtc)).
Proof.
  unfold the_table. rewrite map_app, table_keys.
  assert (NI : forall m k, In m (l_attrs dl) -> In k ["POINTS_LENGTH"; "RTC_CENTER"]%string -> key_of m <> k).
  { intros m k H K E. pose proof (key_values m H) as V. rewrite E in V. cbn [In] in K, V. destruct K as [<-|[<-|[]]]; destruct V as [V|[V|[V|[V|[]]]]]; discriminate V. }
  assert (X : forall ks, incl ks ["POINTS_LENGTH"; "RTC_CENTER"]%string -> NoDup ks -> NoDup (map key_of (l_attrs dl) ++ ks)).
  { intros ks I N. apply NoDup_app_intro; [exact keys_distinct|exact N|]. intros k H K. apply in_map_iff in H. destruct H as (m & E & Hm). exact (NI m k Hm (I k K) E). }
  apply X; destruct rtc; cbn [map app fst center_entry].
  - intros k [<-|[<-|[]]]; cbn; auto.
  - intros k [<-|[]]; cbn; auto.
  - constructor; [intros [E|[]]; discriminate E|constructor; [intros []|constructor]].
  - constructor; [intros []|constructor].
Qed.
Lemma fields_nodup : NoDup (map fst fields_of_table).
Proof. unfold fields_of_table. rewrite map_map. cbn [fst]. exact table_nodup. Qed.

Lemma total_le pre m post : total n pre + padded n m <= total n (pre ++ m :: post).
Proof. rewrite total_app. cbn [total]. lia. Qed.
Lemma member_split m : In m (l_attrs dl) -> exists pre post, l_attrs dl = pre ++ m :: post.
Proof. apply in_split. Qed.
Lemma points_le : n <= total n (l_attrs dl).
Proof.
  pose proof (proj1 (proj1 (proj2 FL))) as NE. destruct (l_attrs dl) as [|m ms] eqn:E; [contradiction|]. assert (Hm : In m (l_attrs dl)) by (rewrite E; now left).
  destruct (good_member _ _ (proj1 (proj2 FL)) Hm) as (P & _). cbn [total]. pose proof (align8 (m_size m * n)). unfold padded. nia.
Qed.

Lemma fields_entries : (Z.of_nat (total n (l_attrs dl)) < 2 ^ 64)%Z -> finite_center rtc -> Forall (fun e => table_entry (snd e)) fields_of_table.
Proof.
  intros B FC. apply Forall_forall. intros e H. unfold fields_of_table in H. apply in_map_iff in H. destruct H as (e0 & <- & H). cbn [snd]. unfold the_table in H.
  apply in_app_iff in H. destruct H as [H|H].
  - apply table_entries in H. destruct H as (pre & m & post & E & ->). cbn [snd json_of_ft_value]. apply TReference. pose proof (total_le pre m post). rewrite <- E in H. lia.
  - apply in_app_iff in H. destruct H as [[<-|[]]|H].
    + cbn [snd json_of_ft_value]. apply TNumber. pose proof points_le. lia.
    + destruct rtc as [v|]; [|destruct H]. destruct H as [<-|[]]. cbn [snd json_of_ft_value center_entry]. cbn [finite_center] in FC. destruct FC as (A1 & A2 & A3).
      rewrite !finite_json by assumption. apply (TArray [px v; py v; pz v]). repeat constructor; assumption.
Qed.

Lemma table_lookup k v : In (k, v) (the_table (l_attrs dl) n rtc) -> assoc k fields_of_table = Some (json_of_ft_value v).
Proof. intros H. unfold fields_of_table. rewrite assoc_map. apply (assoc_in _ _ _ table_nodup) in H. now rewrite H. Qed.
Lemma table_lookup_none k : ~ In k (map fst (the_table (l_attrs dl) n rtc)) -> assoc k fields_of_table = None.
Proof. intros H. unfold fields_of_table. rewrite assoc_map. apply assoc_none in H. now rewrite H. Qed.

(* the parsed header *)
Lemma parsed c reread : json_ok c reread -> (Z.of_nat (total n (l_attrs dl)) < 2 ^ 64)%Z -> finite_center rtc ->
  exists fields, json_parse c (ft_text c (l_attrs dl) n rtc) = Some (JObj fields) /\ NoDup (map fst fields)
    /\ forall k, assoc k fields = option_map (reread_entry reread) (assoc k fields_of_table).
Proof.
  intros J B FC. unfold ft_text, ser_feature_table_header, write_json_header. fold fields_of_table. cbv zeta.
  apply (J fields_of_table _ fields_nodup (fields_entries B FC)).
Qed.
End TABLE.

Lemma written_file c reread l w ps w' : json_ok c reread -> winv l w ps -> pw_out w = [] -> finite_center (pw_rtc w) -> write_cached_points c w = Ok w' ->
  pnts_file c l (option_map (map_p3 reread) (pw_rtc w)) ps (pw_out w') /\ winv l w' ps /\ pw_rtc w' = pw_rtc w /\ pw_requires_flush w' = false.
Proof.
  intros J W O FC E. pose proof W as (EX & FL & CV & recs & R & F). pose proof FL as (GL & GD & D).
  rewrite (flush_bytes c w recs GD R (dl_named l _ FL) O) in E. set (n := length recs) in *. set (ms := l_attrs (pw_default w)) in *.
  destruct (Z.ltb_spec (Z.of_nat (file_size c ms n (pw_rtc w))) (2 ^ 32)) as [LT|]; [|discriminate E]. apply Ok_inj in E. subst w'. cbn [pw_out pw_rtc pw_requires_flush].
  split; [|split; [exact W|auto]]. pose proof R as (_ & _ & U & _). assert (LN : length ps = n) by exact (Forall2_len _ _ _ F).
  set (ft := ft_text c ms n (pw_rtc w)) in *. set (bt := ser_empty_batch_table_header c (28 + length ft + total n ms)).
  pose proof (body_length n _ recs GD U eq_refl ms (incl_refl _)) as BL.
  assert (SZ : file_size c ms n (pw_rtc w) = 28 + length ft + length (body n recs ms) + length bt) by (rewrite BL; reflexivity).
  assert (TB : (Z.of_nat (total n ms) < 2 ^ 64)%Z) by (rewrite SZ, BL in LT; lia).
  destruct (parsed l _ FL n (pw_rtc w) c reread J TB FC) as (fields & PF & NDF & LK).
  exists ft, (body n recs ms), bt, [], fields. split; [|split; [|split; [exact NDF|split; [|split; [|split; [|split]]]]]].
  - rewrite SZ, <- BL. apply file_sections; [rewrite <- SZ; exact LT| |rewrite BL; apply total_mod]. apply json_header_mod.
  - exact PF.
  - intros key K. destruct (assoc key fields) as [v|] eqn:A; [|apply assoc_none in A; contradiction]. rewrite LK in A. unfold fields_of_table in A. rewrite assoc_map in A.
    destruct (assoc key (the_table (l_attrs (pw_default w)) n (pw_rtc w))) as [u|] eqn:B; [|discriminate A]. apply (assoc_in _ _ _ (table_nodup l _ FL n (pw_rtc w))) in B.
    unfold the_table in B. apply in_app_iff in B. destruct B as [B|B].
    + right. right. apply table_entries in B. destruct B as (pre & m & post & E & Q). injection Q as -> _. assert (Hm : In m (l_attrs (pw_default w))) by (rewrite E; apply in_elt).
      destruct (dl_member l _ FL m Hm) as (t & T & S & _). destruct (file_member_source _ _ _ FL Hm) as (sm & t' & Hs & T' & Dd). exists sm, t. split; [exact Hs|].
      assert (NM : m_name m = m_name sm) by (unfold m_name at 1; now rewrite Dd). now rewrite <- NM.
    + apply in_app_iff in B. destruct B as [[Q|[]]|B]; [left; congruence|]. right. left. destruct (pw_rtc w); [|destruct B]. destruct B as [Q|[]]. unfold center_entry in Q. congruence.
  - unfold table_number. rewrite LK, (table_lookup l _ FL n (pw_rtc w) "POINTS_LENGTH" (SingleValue (JInt (Z.of_nat n)))); [now rewrite LN|]. apply in_app_iff. right. now left.
  - rewrite LK. destruct (pw_rtc w) as [v|] eqn:RT.
    + rewrite (table_lookup l _ FL n (Some v) "RTC_CENTER" (snd (center_entry v))).
      * cbn [center_entry snd json_of_ft_value option_map]. cbn [finite_center] in FC. destruct FC as (A1 & A2 & A3). rewrite !finite_json by assumption. reflexivity.
      * apply in_app_iff. right. right. now left.
    + rewrite (table_lookup_none _ n None "RTC_CENTER"%string); [reflexivity|]. unfold the_table. rewrite map_app, table_keys. intros H. apply in_app_iff in H. destruct H as [H|[H|[]]]; [|discriminate H].
      apply in_map_iff in H. destruct H as (m & E & Hm). pose proof (key_values l _ FL m Hm) as V. rewrite E in V. destruct V as [V|[V|[V|[V|[]]]]]; discriminate V.
  - intros m key t Hm S. destruct (file_member _ _ m t FL Hm (semantic_type _ _ _ S)) as (dm & Hd & Dd). destruct (in_split _ _ Hd) as (pre & post & SP). fold ms in SP.
    assert (KD : key_of dm = key) by (unfold key_of; now rewrite Dd, (semantic_key _ _ _ S)). assert (TD : m_type dm = t) by (unfold m_type; now rewrite Dd). assert (ND : m_name dm = m_name m) by (unfold m_name at 1; now rewrite Dd).
    destruct (good_member _ _ GD Hd) as (P0 & P1 & P2). change (ad_type (m_def dm)) with (m_type dm) in P1. rewrite TD in P1.
    exists (total n pre). split.
    + unfold table_offset. rewrite LK, (table_lookup l _ FL n (pw_rtc w) key (DataReference (total n pre) None)); [reflexivity|]. apply in_app_iff. left. fold ms. rewrite SP, <- KD. exact (table_at n pre dm post 0).
    + split; [apply total_mod|]. rewrite LN, BL, SP, <- P1. split.
      * pose proof (total_le n pre dm post). pose proof (align8 (m_size dm * n)). unfold padded in *. nia.
      * intros i p Hp. destruct (nth_error_get recs i) as [r Hr]; [apply nth_error_lt in Hp; unfold n in LN; lia|].
        rewrite (body_value n _ recs GD U eq_refl pre dm post i r); [| |exact Hr].
        -- rewrite <- TD. refine (AsciiProofs7.Forall2_nth2 _ _ _ F i p r Hp Hr m dm Hm Hd _). now symmetry.
        -- rewrite <- SP. apply incl_refl.
  - intros m key t m' key' t' o o' Hm S Hm' S' NE TO TO'.
    destruct (file_member _ _ m t FL Hm (semantic_type _ _ _ S)) as (dm & Hd & Dd). destruct (file_member _ _ m' t' FL Hm' (semantic_type _ _ _ S')) as (dm' & Hd' & Dd').
    assert (TD : m_type dm = t) by (unfold m_type; now rewrite Dd). assert (TD' : m_type dm' = t') by (unfold m_type; now rewrite Dd').
    assert (KD : key_of dm = key) by (unfold key_of; now rewrite Dd, (semantic_key _ _ _ S)). assert (KD' : key_of dm' = key') by (unfold key_of; now rewrite Dd', (semantic_key _ _ _ S')).
    destruct (good_member _ _ GD Hd) as (_ & P1 & _). change (ad_type (m_def dm)) with (m_type dm) in P1. rewrite TD in P1.
    destruct (good_member _ _ GD Hd') as (_ & P1' & _). change (ad_type (m_def dm')) with (m_type dm') in P1'. rewrite TD' in P1'.
    assert (NN : m_name m <> m_name m') by (intros X; apply NE; exact (good_name_inj l _ _ GL Hm Hm' X)).
    assert (DN : dm <> dm') by (intros X; apply NN; rewrite X, Dd' in Dd; now injection Dd as ->).
    assert (OF : forall pre x post key o, ms = pre ++ x :: post -> key_of x = key -> table_offset fields key o -> o = total n pre).
    { intros pre x post k q SP KX TQ. unfold table_offset in TQ. rewrite LK, (table_lookup l _ FL n (pw_rtc w) k (DataReference (total n pre) None)) in TQ.
      - cbn [json_of_ft_value option_map reread_entry] in TQ. injection TQ as TQ. lia.
      - apply in_app_iff. left. fold ms. rewrite SP, <- KX. exact (table_at n pre x post 0). }
    assert (PAD : forall x, m_size x * n <= padded n x) by (intros x; apply align8).
    rewrite LN, <- P1, <- P1'. destruct (in_split _ _ Hd) as (pre & post & SP). fold ms in SP. pose proof Hd' as Hd2. fold ms in Hd2. rewrite SP in Hd2. apply in_app_iff in Hd2.
    pose proof (OF _ _ _ _ _ SP KD TO) as ->. destruct Hd2 as [H|[H|H]]; [|contradiction|].
    + destruct (in_split _ _ H) as (a & b & ->). assert (SP' : ms = a ++ dm' :: (b ++ dm :: post)) by (rewrite SP, <- app_assoc; reflexivity).
      pose proof (OF _ _ _ _ _ SP' KD' TO') as ->. right. rewrite total_app. cbn [total]. specialize (PAD dm'). lia.
    + destruct (in_split _ _ H) as (a & b & ->). assert (SP' : ms = (pre ++ dm :: a) ++ dm' :: b) by (rewrite SP, <- app_assoc; reflexivity).
      pose proof (OF _ _ _ _ _ SP' KD' TO') as ->. left. rewrite total_app. cbn [total]. specialize (PAD dm). lia.
Qed.
