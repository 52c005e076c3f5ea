(* Lemmas about LAS formats, layouts, flag bits and file names. *)
From Coq Require Import String List ZArith Lia Bool Arith Ascii ZifyBool ZifyNat ZifyN.
From Verif Require Import Base LayoutModel LayoutSpec LayoutProofs NumModel ListLemmas LasModel LasSpec.
Import ListNotations.
Open Scope nat_scope.

(* ---------- formats ---------- *)
Lemma format_new_iff n f : format_new n = Ok f -> n <= 10.
Proof. unfold format_new. destruct (Nat.leb_spec n 10); [auto|discriminate]. Qed.
Lemma format_new_total n : n <= 10 -> exists f, format_new n = Ok f.
Proof. intros H. unfold format_new. destruct (Nat.leb_spec n 10); [eauto|lia]. Qed.
Lemma eleven n : n <= 10 -> n = 0 \/ n = 1 \/ n = 2 \/ n = 3 \/ n = 4 \/ n = 5 \/ n = 6 \/ n = 7 \/ n = 8 \/ n = 9 \/ n = 10.
Proof. lia. Qed.
Ltac each_format H :=
  let L := fresh in pose proof (eleven _ (format_new_iff _ _ H)) as L;
  repeat (destruct L as [->|L]); try subst; injection H as <-.

Lemma format_of_u8 n f x : format_new n = Ok f -> format_to_u8 (with_extra_bytes f x) = Ok n /\ format_len (with_extra_bytes f x) = record_length n + x.
Proof. intros H. each_format H; split; reflexivity. Qed.
Lemma with_extra_0 n f : format_new n = Ok f -> with_extra_bytes f 0 = f.
Proof. intros H. each_format H; reflexivity. Qed.
Lemma format_extra n f : format_new n = Ok f -> extra_bytes f = 0.
Proof. intros H. each_format H; reflexivity. Qed.

Lemma exact_layout n f x : format_new n = Ok f ->
  exists l, point_layout_from_las_point_format (with_extra_bytes f x) true = Ok l
  /\ map described (l_attrs l) = las_record n /\ l_size l = record_length n /\ l_align l = 1
  /\ contiguous 0 (record_length n) (las_record n).
Proof.
  intros H. each_format H; eexists; (split; [vm_compute; reflexivity|]); (split; [vm_compute; reflexivity|]);
  repeat (split; try reflexivity).
Qed.

Lemma in_names s l : existsb (String.eqb s) l = true -> In s l.
Proof. rewrite existsb_exists. intros (y & I & E). apply String.eqb_eq in E. subst. exact I. Qed.
Lemma same_names a b :
  forallb (fun x => existsb (String.eqb x) b) a && forallb (fun x => existsb (String.eqb x) a) b = true -> forall s, In s a <-> In s b.
Proof.
  rewrite andb_true_iff, !forallb_forall. intros [H K] s. split; intros I; apply in_names; [apply H|apply K]; exact I.
Qed.

Lemma default_layout n f x : format_new n = Ok f ->
  exists l, point_layout_from_las_point_format (with_extra_bytes f x) false = Ok l /\ las_type_layout n = Ok l
  /\ contiguous 0 (l_size l) (map described (l_attrs l))
  /\ (forall a, In a (map m_name (l_attrs l)) <-> In a (las_attribute_names n))
  /\ l_size l = nth n [35; 43; 41; 49; 72; 78; 46; 52; 54; 75; 83] 0 /\ l_align l = 1.
Proof.
  intros H. each_format H; eexists; (split; [vm_compute; reflexivity|]); (split; [vm_compute; reflexivity|]);
  (split; [vm_compute; repeat (split; try reflexivity)|]); (split; [|vm_compute; auto]);
  apply same_names; vm_compute; reflexivity.
Qed.

(* ---------- formats from layouts ---------- *)
Lemma format_of_layout n l : n <= 10 -> las_type_layout n = Ok l ->
  format_to_u8 (las_point_format_from_point_layout l) = Ok n /\ format_new n = Ok (las_point_format_from_point_layout l).
Proof.
  intros H L. do 11 (destruct n as [|n]; [vm_compute in L; injection L as <-; split; vm_compute; reflexivity|]). lia.
Qed.

Lemma has_name l s : has_attribute_with_name l s = true <-> In s (map m_name (l_attrs l)).
Proof.
  unfold has_attribute_with_name. rewrite existsb_exists, in_map_iff. split.
  - intros (m & I & E). apply String.eqb_eq in E. eauto.
  - intros (m & E & I). exists m. split; [auto|]. apply String.eqb_eq. auto.
Qed.

Definition wants (l : layout) (s : string) : bool := existsb (String.eqb s) (map m_name (l_attrs l)).
Lemma wants_has l s : wants l s = has_attribute_with_name l s.
Proof.
  unfold wants, has_attribute_with_name. induction (l_attrs l) as [|m ms IH]; simpl; [reflexivity|].
  rewrite IH, String.eqb_sym. reflexivity.
Qed.

Lemma format_holds_layout l n s :
  format_to_u8 (las_point_format_from_point_layout l) = Ok n -> In s known_las_attribute_names ->
  In s (map m_name (l_attrs l)) -> ~ (s = "ScanAngleRank"%string /\ 6 <= n) ->
  n <= 10 /\ In s (las_attribute_names n).
Proof.
  intros F K I X. apply has_name in I. unfold las_point_format_from_point_layout in F.
  assert (B : n <= 10).
  { clear -F. unfold format_to_u8 in F. simpl in F.
    repeat match type of F with context [if ?c then _ else _] => destruct c; try discriminate end; injection F as <-; lia. }
  split; [exact B|]. cbn -[has_attribute_with_name] in K. cbn -[has_attribute_with_name format_to_u8 orb] in F.
  repeat (destruct K as [<-|K]; [
    try (rewrite I in F); rewrite ?orb_true_r, ?orb_true_l in F; revert F;
    generalize (has_attribute_with_name l "GpsTime"), (has_attribute_with_name l "ColorRGB"), (has_attribute_with_name l "NIR");
    intros g c nir F; unfold format_to_u8 in F; cbn -[has_attribute_with_name orb] in F;
    repeat match type of F with context [if ?q then _ else _] => destruct q; try discriminate F end;
    injection F as <-; try (exfalso; apply X; split; [reflexivity|lia]); apply in_names; vm_compute; reflexivity|]).
  destruct K.
Qed.

(* when the format is valid *)
Lemma asks_extended_has l : asks_extended l <->
  (has_attribute_with_name l "NIR" || has_attribute_with_name l "ScanAngle" || has_attribute_with_name l "ScannerChannel"
   || has_attribute_with_name l "ClassificationFlags") = true.
Proof.
  unfold asks_extended. rewrite !orb_true_iff, !has_name. split.
  - intros (s & I & H). simpl in I. intuition subst; tauto.
  - intros [[[H|H]|H]|H]; eexists; (split; [|exact H]); simpl; tauto.
Qed.
Lemma asks_wave_has l : asks_wave l <->
  (has_attribute_with_name l "WavePacketDescriptorIndex" || has_attribute_with_name l "WaveformDataOffset"
   || has_attribute_with_name l "WaveformPacketSize" || has_attribute_with_name l "ReturnPointWaveformLocation"
   || has_attribute_with_name l "WaveformParameters") = true.
Proof.
  unfold asks_wave. rewrite !orb_true_iff, !has_name. split.
  - intros (s & I & H). simpl in I. intuition subst; tauto.
  - intros [[[[H|H]|H]|H]|H]; eexists; (split; [|exact H]); simpl; tauto.
Qed.

Lemma valid_format_iff l :
  is_ok (format_to_u8 (las_point_format_from_point_layout l)) = true <->
  if_extended l (asks l "GpsTime"%string /\ (asks l "ColorRGB"%string -> asks_wave l -> asks l "NIR"%string)
                 /\ (asks l "NIR"%string -> asks l "ColorRGB"%string))
              (asks_wave l -> asks l "GpsTime"%string).
Proof.
  unfold if_extended, asks. rewrite asks_extended_has, asks_wave_has, <- !has_name.
  unfold las_point_format_from_point_layout. cbn -[has_attribute_with_name format_to_u8 orb].
  set (e := _ || has_attribute_with_name l "ClassificationFlags").
  set (w := _ || has_attribute_with_name l "WaveformParameters").
  assert (N : has_attribute_with_name l "NIR" = true -> e = true) by (intros H; unfold e; rewrite H; reflexivity).
  clearbody e w. revert N.
  generalize (has_attribute_with_name l "GpsTime"), (has_attribute_with_name l "ColorRGB"), (has_attribute_with_name l "NIR").
  intros g c n N. destruct e, w, g, c, n; cbn; intuition discriminate.
Qed.

(* ---------- layouts from metadata ---------- *)
Definition tight (l : layout) : Prop := l_align l = 1 /\ packed_offset_of_next_field l = l_size l.

Lemma align_to_1 x : align_to x 1 = x.
Proof. unfold align_to. simpl Nat.eqb. cbv iota. rewrite Nat.mul_1_r, Nat.div_1_r. lia. Qed.
Lemma align_to_min x d : align_to x (Nat.min 1 d) = x.
Proof. destruct d; [reflexivity|apply align_to_1]. Qed.

Lemma add_tight l a :
  tight l -> ~ In (ad_name a) (map m_name (l_attrs l)) -> (Z.of_nat (l_size l + dt_size (ad_type a)) < 2 ^ 62)%Z ->
  exists l', add_attribute l a (Packed 1) = Ok l' /\ tight l' /\ l_size l' = l_size l + dt_size (ad_type a)
  /\ l_attrs l' = l_attrs l ++ [at_offset_in_type a (l_size l)].
Proof.
  intros [A P] N B. unfold add_attribute. unfold get_attribute_by_name. rewrite (proj2 (find_none_name _ _) N).
  rewrite !align_to_min, A, P. change (Nat.min 1 1) with 1.
  rewrite (Nat.max_r (l_size l)) by lia.
  unfold mem_layout_ok. change (is_pow2 1) with true. cbv [andb].
  destruct (Z.leb_spec (Z.of_nat (l_size l + dt_size (ad_type a)) + Z.of_nat 1) (2 ^ 63)); [|lia].
  eexists. split; [reflexivity|]. simpl. repeat split.
  rewrite packed_next_snoc. simpl. unfold at_offset_in_type. simpl. reflexivity.
Qed.

Lemma add_tight_all attrs : forall l,
  tight l -> NoDup (map ad_name attrs) -> (forall a, In a attrs -> ~ In (ad_name a) (map m_name (l_attrs l))) ->
  (Z.of_nat (l_size l + list_sum (map (fun a => dt_size (ad_type a)) attrs)) < 2 ^ 62)%Z ->
  exists l', foldM (fun l a => add_attribute l a (Packed 1)) attrs l = Ok l' /\ tight l'
  /\ l_size l' = l_size l + list_sum (map (fun a => dt_size (ad_type a)) attrs)
  /\ map m_name (l_attrs l') = map m_name (l_attrs l) ++ map ad_name attrs
  /\ firstn (length (l_attrs l)) (l_attrs l') = l_attrs l.
Proof.
  induction attrs as [|a attrs IH]; intros l T ND NI B; simpl in *.
  - exists l. rewrite Nat.add_0_r, app_nil_r, firstn_all. auto.
  - inversion ND as [|? ? N1 N2]; subst.
    destruct (add_tight l a T (NI a (or_introl eq_refl)) ltac:(lia)) as (l1 & E1 & T1 & S1 & A1).
    rewrite E1. cbn [bind].
    destruct (IH l1 T1 N2) as (l2 & E2 & T2 & S2 & A2 & F2).
    + intros b I. rewrite A1, map_app, in_app_iff. intros [H|[H|[]]].
      * exact (NI b (or_intror I) H).
      * apply N1. cbn in H. change (m_name (at_offset_in_type a (l_size l))) with (ad_name a) in H. rewrite H. apply in_map. exact I.
    + rewrite S1. lia.
    + exists l2. split; [exact E2|]. split; [exact T2|]. split; [lia|]. split.
      * rewrite A2, A1, map_app, <- app_assoc. reflexivity.
      * assert (Q : length (l_attrs l1) = length (l_attrs l) + 1) by (rewrite A1, app_length; reflexivity).
        assert (firstn (length (l_attrs l)) (firstn (length (l_attrs l1)) (l_attrs l2)) = l_attrs l) as W.
        { rewrite F2, A1, firstn_app, Nat.sub_diag, firstn_all, app_nil_r. reflexivity. }
        rewrite firstn_firstn in W. rewrite Nat.min_l in W by lia. exact W.
Qed.

Lemma tight_default : tight layout_default. Proof. split; reflexivity. Qed.

Lemma exact_tight n f x l : format_new n = Ok f -> point_layout_from_las_point_format (with_extra_bytes f x) true = Ok l ->
  tight l /\ l_size l = record_length n /\ map m_name (l_attrs l) = map (fun t => fst (fst t)) (las_record n).
Proof.
  intros H E. each_format H; vm_compute in E; injection E as <-; repeat split.
Qed.

Lemma eb_attribute_ok e : documented (eb_dt e) ->
  exists d, eb_attribute e = Ok (mk_def (string_of_bytes (eb_name e)) d) /\ dt_size d = type_bytes (eb_dt e).
Proof. unfold eb_attribute. destruct (eb_dt e); simpl; intros H; try (eexists; split; reflexivity); destruct H. Qed.

Lemma eb_attributes_ok es : (forall e, In e es -> documented (eb_dt e)) ->
  exists attrs, mapM eb_attribute es = Ok attrs /\ map ad_name attrs = map (fun e => string_of_bytes (eb_name e)) es
  /\ map (fun a => dt_size (ad_type a)) attrs = map (fun e => type_bytes (eb_dt e)) es.
Proof.
  induction es as [|e es IH]; intros H; simpl.
  - exists []. auto.
  - destruct (eb_attribute_ok e (H e (or_introl eq_refl))) as (d & E & S).
    destruct (IH (fun e' I => H e' (or_intror I))) as (attrs & E2 & N & Z2).
    rewrite E. cbn [bind]. rewrite E2. cbn [bind]. eexists. split; [reflexivity|]. simpl. rewrite N, Z2, S. auto.
Qed.

Lemma list_sum_fold l : fold_right Nat.add 0 l = list_sum l.
Proof. reflexivity. Qed.

(* the exact layout of a file with extra bytes *)
Lemma metadata_layout n f x es :
  format_new n = Ok f -> 0 < x -> (Z.of_nat x < 2 ^ 16)%Z ->
  (forall e, In e es -> documented (eb_dt e)) ->
  NoDup (map (fun e => string_of_bytes (eb_name e)) es) ->
  (forall e, In e es -> ~ In (string_of_bytes (eb_name e)) ("UndescribedExtraBytes"%string :: map (fun t => fst (fst t)) (las_record n))) ->
  described_bytes es <= x ->
  exists l, point_layout_from_las_metadata (with_extra_bytes f x) (Some es) true = Ok l
  /\ l_size l = record_length n + described_bytes es + (if Nat.eqb (described_bytes es) x then 0 else described_bytes es)
  /\ map m_name (l_attrs l) = map (fun t => fst (fst t)) (las_record n) ++ map (fun e => string_of_bytes (eb_name e)) es
       ++ (if Nat.eqb (described_bytes es) x then [] else ["UndescribedExtraBytes"%string]).
Proof.
  intros F X X2 D ND NI LE. unfold point_layout_from_las_metadata.
  destruct (exact_layout n f x F) as (b & B & _). rewrite B. cbn [bind].
  destruct (exact_tight _ _ _ _ F B) as (T & S & NM). cbn [extra_bytes with_extra_bytes].
  destruct (Nat.eqb_spec x 0); [lia|].
  destruct (eb_attributes_ok es D) as (attrs & E & N & Z2). rewrite E. cbn [bind].
  rewrite list_sum_fold. replace (list_sum (map (fun a => dt_size (ad_type a)) attrs)) with (described_bytes es)
    by (unfold described_bytes; rewrite <- Z2; reflexivity).
  assert (RL : record_length n <= 67).
  { clear -F. each_format F; vm_compute; lia. }
  destruct (add_tight_all attrs b T) as (l1 & E1 & T1 & S1 & N1 & _).
  - rewrite N. exact ND.
  - intros a I. assert (J : In (ad_name a) (map (fun e => string_of_bytes (eb_name e)) es)) by (rewrite <- N; apply in_map; exact I).
    apply in_map_iff in J. destruct J as (e & J1 & J2). rewrite <- J1, NM. intros K. apply (NI e J2). right. exact K.
  - rewrite Z2. fold (described_bytes es). rewrite S. lia.
  - rewrite E1. cbn [bind]. rewrite Z2 in S1. fold (described_bytes es) in S1. rewrite S in S1.
    assert (LE2 : Nat.leb (described_bytes es) x = true) by (apply Nat.leb_le; lia).
    rewrite LE2. cbn [assert bind].
    destruct (Nat.eqb_spec (described_bytes es) x) as [Q|Q].
    + replace (Nat.ltb 0 (x - described_bytes es)) with false by (symmetry; apply Nat.ltb_ge; lia).
      exists l1. split; [reflexivity|]. split; [lia|]. rewrite N1, NM, N, app_nil_r. reflexivity.
    + replace (Nat.ltb 0 (x - described_bytes es)) with true by (symmetry; apply Nat.ltb_lt; lia).
      destruct (add_tight l1 (mk_def "UndescribedExtraBytes" (ByteArray (described_bytes es))) T1) as (l2 & E2 & T2 & S2 & A2).
      * cbn [ad_name]. rewrite N1, NM, N, in_app_iff. intros [I|I].
        -- clear -F I. each_format F; vm_compute in I; intuition discriminate.
        -- apply in_map_iff in I. destruct I as (e & I1 & I2). apply (NI e I2). left. auto.
      * cbn. rewrite S1. lia.
      * exists l2. split; [exact E2|]. cbn in S2. split; [lia|].
        rewrite A2, map_app, N1, NM, N. cbn. rewrite <- app_assoc. reflexivity.
Qed.

Lemma metadata_layout_no_extra n f es :
  format_new n = Ok f ->
  exists l, point_layout_from_las_metadata f es true = Ok l /\ l_size l = record_length n.
Proof.
  intros F. unfold point_layout_from_las_metadata. destruct (exact_layout n f 0 F) as (b & B & _ & S & _).
  rewrite (with_extra_0 _ _ F) in B. rewrite B. cbn [bind]. rewrite (format_extra _ _ F). exists b. split; [reflexivity|exact S].
Qed.

(* ---------- flag bits ---------- *)
Lemma land_ones_mod x n m : (0 <= n)%Z -> (m = Z.ones n)%Z -> Z.land x m = (x mod 2 ^ n)%Z.
Proof. intros H ->. apply Z.land_ones. exact H. Qed.

Definition zrange (n : Z) : list Z := map Z.of_nat (seq 0 (Z.to_nat n)).
Lemma in_zrange n x : (0 <= x < n)%Z -> In x (zrange n).
Proof. intros H. unfold zrange. apply in_map_iff. exists (Z.to_nat x). split; [lia|]. apply in_seq. lia. Qed.
Lemma for_all_range n P : forallb P (zrange n) = true -> forall x, (0 <= x < n)%Z -> P x = true.
Proof. intros H x I. rewrite forallb_forall in H. apply H, in_zrange, I. Qed.

Definition same_bytes (a b : list Z) : bool := if list_eq_dec Z.eq_dec a b then true else false.
Lemma same_bytes_eq a b : same_bytes a b = true -> a = b.
Proof. unfold same_bytes. destruct (list_eq_dec Z.eq_dec a b); [auto|discriminate]. Qed.

Definition basic_check (rn nr sd eof : Z) : bool :=
  let f := write_las_bit_attributes (Regular rn nr sd eof) in
  same_bytes (basic_field 0 7 f) [rn] && same_bytes (basic_field 3 7 f) [nr] && same_bytes (basic_field 6 1 f) [sd]
  && same_bytes (basic_field 7 1 f) [eof] && Nat.eqb (length f) 1 && forallb (fun b => (0 <=? b)%Z && (b <? 256)%Z) f.
Lemma basic_all :
  forallb (fun rn => forallb (fun nr => forallb (fun sd => forallb (fun eof => basic_check rn nr sd eof) (zrange 2)) (zrange 2)) (zrange 8)) (zrange 8) = true.
Proof. vm_compute. reflexivity. Qed.
(* the two bytes of the extended flags as numbers *)
Lemma low_all :
  forallb (fun rn => forallb (fun nr => Z.eqb (Z.lor (Z.land rn 15) (shl8 (Z.land nr 15) 4)) (rn + 16 * nr)) (zrange 16)) (zrange 16) = true.
Proof. vm_compute. reflexivity. Qed.
Lemma high_all :
  forallb (fun cf => forallb (fun sc => forallb (fun sd => forallb (fun eof =>
    Z.eqb (Z.lor (Z.lor (Z.lor (Z.land cf 15) (shl8 (Z.land sc 3) 4)) (shl8 (Z.land sd 1) 6)) (shl8 (Z.land eof 1) 7)) (cf + 16 * sc + 64 * sd + 128 * eof))
    (zrange 2)) (zrange 2)) (zrange 4)) (zrange 16) = true.
Proof. vm_compute. reflexivity. Qed.

Lemma write_bits_regular rn nr sd eof :
  write_las_bit_attributes (Regular rn nr sd eof) = write_las_bit_attributes (Regular (rn mod 8) (nr mod 8) (sd mod 2) (eof mod 2)).
Proof.
  unfold write_las_bit_attributes.
  rewrite !(land_ones_mod _ 3 7), !(land_ones_mod _ 1 1) by (reflexivity || lia).
  change (2 ^ 3)%Z with 8%Z. change (2 ^ 1)%Z with 2%Z. rewrite !Z.mod_mod by lia. reflexivity.
Qed.
Lemma write_bits_extended rn nr cf sc sd eof :
  write_las_bit_attributes (Extended rn nr cf sc sd eof)
  = write_las_bit_attributes (Extended (rn mod 16) (nr mod 16) (cf mod 16) (sc mod 4) (sd mod 2) (eof mod 2)).
Proof.
  unfold write_las_bit_attributes.
  rewrite !(land_ones_mod _ 4 15), !(land_ones_mod _ 2 3), !(land_ones_mod _ 1 1) by (reflexivity || lia).
  change (2 ^ 4)%Z with 16%Z. change (2 ^ 2)%Z with 4%Z. change (2 ^ 1)%Z with 2%Z. rewrite !Z.mod_mod by lia. reflexivity.
Qed.

Lemma basic_flags rn nr sd eof :
  let f := write_las_bit_attributes (Regular rn nr sd eof) in
  length f = 1 /\ Forall is_byte f
  /\ basic_field 0 7 f = [rn mod 8]%Z /\ basic_field 3 7 f = [nr mod 8]%Z /\ basic_field 6 1 f = [sd mod 2]%Z /\ basic_field 7 1 f = [eof mod 2]%Z.
Proof.
  rewrite write_bits_regular. cbv zeta.
  pose proof (for_all_range _ _ basic_all _ (Z.mod_pos_bound rn 8 ltac:(lia))) as H. cbv beta in H.
  apply (for_all_range _ _) with (x := (nr mod 8)%Z) in H; [|apply Z.mod_pos_bound; lia]. cbv beta in H.
  apply (for_all_range _ _) with (x := (sd mod 2)%Z) in H; [|apply Z.mod_pos_bound; lia]. cbv beta in H.
  apply (for_all_range _ _) with (x := (eof mod 2)%Z) in H; [|apply Z.mod_pos_bound; lia]. cbv beta in H.
  unfold basic_check in H. rewrite !andb_true_iff in H. destruct H as [[[[[H1 H2] H3] H4] H5] H6].
  apply same_bytes_eq in H1, H2, H3, H4. apply Nat.eqb_eq in H5.
  repeat split; auto. apply Forall_forall. intros b I. rewrite forallb_forall in H6. specialize (H6 b I). unfold is_byte. lia.
Qed.
Lemma bit_field x s m low v rest : (x = low + s * (v + m * rest) -> 0 <= low < s -> 0 <= v < m -> (x / s) mod m = v)%Z.
Proof.
  intros -> L V. rewrite Z.mul_comm, Z.div_add, Z.div_small, Z.add_0_l by lia. rewrite Z.mul_comm, Z.mod_add by lia. apply Z.mod_small. lia.
Qed.

Lemma extended_flags rn nr cf sc sd eof :
  let f := write_las_bit_attributes (Extended rn nr cf sc sd eof) in
  length f = 2 /\ Forall is_byte f
  /\ extended_field 0 15 f = [rn mod 16; 0]%Z /\ extended_field 4 15 f = [nr mod 16; 0]%Z /\ extended_field 8 15 f = [cf mod 16; 0]%Z
  /\ extended_field 12 3 f = [sc mod 4; 0]%Z /\ extended_field 14 1 f = [sd mod 2; 0]%Z /\ extended_field 15 1 f = [eof mod 2; 0]%Z.
Proof.
  rewrite write_bits_extended. cbv zeta. unfold write_las_bit_attributes.
  pose proof (Z.mod_pos_bound rn 16 ltac:(lia)). pose proof (Z.mod_pos_bound nr 16 ltac:(lia)). pose proof (Z.mod_pos_bound cf 16 ltac:(lia)).
  pose proof (Z.mod_pos_bound sc 4 ltac:(lia)). pose proof (Z.mod_pos_bound sd 2 ltac:(lia)). pose proof (Z.mod_pos_bound eof 2 ltac:(lia)).
  set (a := (rn mod 16)%Z) in *. set (b := (nr mod 16)%Z) in *. set (c := (cf mod 16)%Z) in *. set (d := (sc mod 4)%Z) in *.
  set (e := (sd mod 2)%Z) in *. set (g := (eof mod 2)%Z) in *. clearbody a b c d e g.
  pose proof (for_all_range _ _ (for_all_range _ _ low_all a ltac:(lia)) b ltac:(lia)) as L. cbv beta in L.
  pose proof (for_all_range _ _ (for_all_range _ _ (for_all_range _ _ (for_all_range _ _ high_all c ltac:(lia)) d ltac:(lia)) e ltac:(lia)) g ltac:(lia)) as G.
  cbv beta in G. apply Z.eqb_eq in L, G. rewrite L, G.
  unfold extended_field. cbn [le_dec le_enc].
  rewrite !(land_ones_mod _ 4 15), !(land_ones_mod _ 2 3), !(land_ones_mod _ 1 1) by (reflexivity || lia).
  rewrite !Z.shiftr_div_pow2 by lia.
  change (2 ^ 0)%Z with 1%Z. change (2 ^ 4)%Z with 16%Z. change (2 ^ 8)%Z with 256%Z. change (2 ^ 12)%Z with 4096%Z.
  change (2 ^ 14)%Z with 16384%Z. change (2 ^ 15)%Z with 32768%Z. change (2 ^ 2)%Z with 4%Z. change (2 ^ 1)%Z with 2%Z.
  split; [reflexivity|]. split; [repeat constructor; unfold is_byte; lia|].
  set (x := (a + 16 * b + 256 * (c + 16 * d + 64 * e + 128 * g + 256 * 0))%Z).
  assert (Q1 : ((x / 1) mod 16 = a)%Z) by (apply (bit_field _ _ _ 0 a (b + 16 * (c + 16 * d + 64 * e + 128 * g))); unfold x; lia).
  assert (Q2 : ((x / 16) mod 16 = b)%Z) by (apply (bit_field _ _ _ a b (c + 16 * d + 64 * e + 128 * g)); unfold x; lia).
  assert (Q3 : ((x / 256) mod 16 = c)%Z) by (apply (bit_field _ _ _ (a + 16 * b) c (d + 4 * e + 8 * g)); unfold x; lia).
  assert (Q4 : ((x / 4096) mod 4 = d)%Z) by (apply (bit_field _ _ _ (a + 16 * b + 256 * c) d (e + 2 * g)); unfold x; lia).
  assert (Q5 : ((x / 16384) mod 2 = e)%Z) by (apply (bit_field _ _ _ (a + 16 * b + 256 * c + 4096 * d) e g); unfold x; lia).
  assert (Q6 : ((x / 32768) mod 2 = g)%Z) by (apply (bit_field _ _ _ (a + 16 * b + 256 * c + 4096 * d + 16384 * e) g 0); unfold x; lia).
  rewrite Q1, Q2, Q3, Q4, Q5, Q6. clearbody x.
  rewrite !(Z.mod_small _ 256), !Z.div_small by lia. repeat split.
Qed.
