(* Headers of batch and feature tables; metadata of PNTS files. *)
From Coq Require Import String List ZArith Bool Arith Lia SpecFloat.
From Verif Require Import Base LayoutModel LayoutSpec LayoutProofs NumModel MathModel MathSpec PntsModel TilesModel TilesSpec TilesProofs TilesProofs2.
Import ListNotations.
Local Open Scope string_scope.
Open Scope nat_scope.
Local Open Scope list_scope.

(* ---- padding ---- *)
Lemma align_between x y : x <= y -> y <= align_to x 8 -> align_to y 8 = align_to x 8.
Proof.
  intros L U. destruct (align_to_spec x 8 ltac:(lia)) as [[D1 G1] M1]. destruct (align_to_spec y 8 ltac:(lia)) as [[D2 G2] M2].
  apply Nat.le_antisymm; [apply M2; now split|apply M1; split; [exact D2|lia]].
Qed.
Lemma align_mult x : align_to x 8 mod 8 = 0.
Proof. destruct (align_to_spec x 8 ltac:(lia)) as [[D _] _]. destruct D as [k ->]. apply Nat.mod_mul. lia. Qed.
Section Padded.
Variables (c : json_codec) (v : json) (p : nat).
Lemma blob_eq : write_json_header c v p = json_text c v ++ repeat 32%Z (length (write_json_header c v p) - length (json_text c v)).
Proof. unfold write_json_header. f_equal. f_equal. rewrite app_length, repeat_length. lia. Qed.
Lemma blob_len : p + length (write_json_header c v p) = align_to (p + length (json_text c v)) 8.
Proof. unfold write_json_header. rewrite app_length, repeat_length. pose proof (align_to_ge (p + length (json_text c v)) 8). lia. Qed.
Lemma blob_aligned : (p + length (write_json_header c v p)) mod 8 = 0.
Proof. rewrite blob_len. apply align_mult. Qed.
(* any size from the end of the text to the end of the padding *)
Lemma blob_read rest size : length (json_text c v) <= size <= length (write_json_header c v p) ->
  firstn size (write_json_header c v p ++ rest) = json_text c v ++ repeat 32%Z (size - length (json_text c v)).
Proof.
  intros [L U]. rewrite firstn_app. replace (size - length (write_json_header c v p)) with 0 by lia. cbn [firstn]. rewrite app_nil_r, blob_eq, firstn_app.
  rewrite firstn_all2 by lia. f_equal. set (k := length (write_json_header c v p) - length (json_text c v)). assert (K : size - length (json_text c v) <= k) by lia.
  clearbody k. revert K. generalize (size - length (json_text c v)) as n. intros n. revert k. induction n as [|n IH]; intros k K; [reflexivity|]. destruct k; [lia|]. cbn [repeat firstn]. rewrite IH by lia. reflexivity.
Qed.
Lemma blob_position size : length (json_text c v) <= size <= length (write_json_header c v p) ->
  size + (align_to (p + size) 8 - (p + size)) = length (write_json_header c v p).
Proof.
  intros [L U]. pose proof blob_len as B. rewrite (align_between (p + length (json_text c v)) (p + size)) by lia. lia.
Qed.
Lemma blob_parsed r limit rest size : prints_and_parses c r limit -> keys_unique v -> depth v <= limit -> length (json_text c v) <= size <= length (write_json_header c v p) ->
  exists v', read_json_header c (write_json_header c v p ++ rest) size = Ok v' /\ reparsed r v v'.
Proof.
  intros C K D S. unfold read_json_header. rewrite app_length. destruct (Nat.leb_spec size (length (write_json_header c v p) + length rest)); [|lia].
  rewrite (blob_read rest size S). destruct (C v (size - length (json_text c v)) K D) as (v' & E & R). exists v'. rewrite E. now split.
Qed.
End Padded.

Lemma rp_int r z w : reparsed r (JInt z) w -> w = JInt z.
Proof. intros H. now inversion H. Qed.

(* ---- entries ---- *)
Lemma bt_entry_back r e w : (match e with BatchReference o _ _ => (Z.of_nat o < 2 ^ 64)%Z | _ => True end) -> reparsed r (json_of_bt_entry e) w ->
  exists e', bt_entry_of_json w = Ok e' /\ map_entry (reparsed r) e e'.
Proof.
  intros B H. destruct e as [l|o ct t]; cbn [json_of_bt_entry] in H.
  - destruct (rp_arr _ _ _ H) as (l' & -> & F). exists (BatchArray l'). now split.
  - destruct (rp_obj _ _ _ H) as (fs' & -> & _ & HN & HS). cbn [bt_entry_of_json].
    rewrite (field_back r "byteOffset" _ _ fs' (JInt (Z.of_nat o)) o) with (2 := HS); [|reflexivity|].
    + cbn [bind]. rewrite (field_back r "componentType" text_of_json _ fs' (JText ct) ct) with (2 := HS); [|reflexivity|intros w R; now rewrite (rp_text _ _ _ R)].
      cbn [bind]. rewrite (field_back r "type" text_of_json _ fs' (JText t) t) with (2 := HS); [|reflexivity|intros w R; now rewrite (rp_text _ _ _ R)].
      exists (BatchReference o ct t). now repeat split.
    + intros w R. rewrite (rp_int _ _ _ R). cbn [as_u64]. destruct (Z.leb_spec 0 (Z.of_nat o)); [|lia]. destruct (Z.ltb_spec (Z.of_nat o) (2 ^ 64)); [|lia]. cbn [andb]. now rewrite Nat2Z.id.
Qed.
Lemma ft_entry_back r e w : ft_plain e -> (match e with DataReference o _ => (Z.of_nat o < 2 ^ 64)%Z | _ => True end) -> reparsed r (json_of_ft_value e) w ->
  exists e', ft_value_of_json w = Ok e' /\ map_ft_entry (reparsed r) e e'.
Proof.
  intros P B H. destruct e as [v|l|o t]; cbn [json_of_ft_value] in H.
  - destruct v; try (inversion H; subst; eexists; split; [reflexivity|cbn; now constructor]).
    + destruct P.
    + destruct (rp_obj _ _ _ H) as (fs' & -> & _ & HN & _). cbn [ft_plain] in P. cbn [ft_value_of_json]. rewrite (HN _ P). exists (SingleValue (JObj fs')). now split.
  - destruct (rp_arr _ _ _ H) as (l' & -> & F). exists (ArrayValue l'). now split.
  - destruct (rp_obj _ _ _ H) as (fs' & -> & _ & HN & HS). cbn [ft_value_of_json].
    destruct (HS "byteOffset" (JInt (Z.of_nat o)) eq_refl) as (w & E & R). apply rp_int in R. subst w. rewrite E. unfold data_reference_of. rewrite E.
    assert (AS : as_u64 (JInt (Z.of_nat o)) = Some (Z.of_nat o)). { cbn [as_u64]. destruct (Z.leb_spec 0 (Z.of_nat o)); [|lia]. destruct (Z.ltb_spec (Z.of_nat o) (2 ^ 64)); [|lia]. reflexivity. }
    rewrite AS, Nat2Z.id. destruct t as [t|].
    + destruct (HS "componentType" (JText t) eq_refl) as (w & E2 & R). apply rp_text in R. subst w. rewrite E2. exists (DataReference o (Some t)). now repeat split.
    + rewrite (HN "componentType" eq_refl). exists (DataReference o None). now repeat split.
Qed.
(* ---- tables ---- *)
Lemma entries_back {A} (enc : A -> json) (dec : json -> res A) (R : A -> A -> Prop) r h w : NoDup (map fst h) ->
  (forall k a, assoc k h = Some a -> forall x, reparsed r (enc a) x -> exists a', dec x = Ok a' /\ R a a') ->
  reparsed r (JObj (map (fun e => (fst e, enc (snd e))) h)) w ->
  exists fs' h', w = JObj fs' /\ mapM (fun e => let* x := dec (snd e) in Ok (fst e, x)) fs' = Ok h' /\ same_keys R h h'.
Proof.
  intros ND B H. destruct (rp_obj _ _ _ H) as (fs' & -> & ND' & HN & HS). exists fs'.
  assert (B' : forall k a, assoc k h = Some a -> exists x a', assoc k fs' = Some x /\ dec x = Ok a' /\ R a a').
  { intros k a E. destruct (HS k (enc a)) as (x & E' & RX); [now rewrite (assoc_map_snd enc), E|]. destruct (B _ _ E _ RX) as (a' & D & RA). now exists x, a'. }
  assert (N' : forall k, assoc k h = None -> assoc k fs' = None) by (intros k E; apply HN; now rewrite (assoc_map_snd enc), E).
  destruct (mapM_entries dec fs' ND') as (t & E & K & T).
  - intros k x E. destruct (assoc k h) as [a|] eqn:EA; [|rewrite (N' _ EA) in E; discriminate E]. destruct (B' _ _ EA) as (x' & a' & E' & D & _). rewrite E in E'. injection E' as <-. eauto.
  - exists t. split; [reflexivity|]. split; [exact E|]. split; [now rewrite K|]. intros k. specialize (T k). destruct (assoc k h) as [a|] eqn:EA.
    + destruct (B' _ _ EA) as (x & a' & E' & D & RA). rewrite E' in T. destruct T as (u & U & AS). rewrite D in U. injection U as <-. now rewrite AS.
    + rewrite (N' _ EA) in T. now rewrite T.
Qed.
Lemma ku_bt_entry e : Forall keys_unique (bt_values e) -> keys_unique (json_of_bt_entry e).
Proof.
  destruct e as [l|o ct t]; cbn [bt_values json_of_bt_entry]; intros F; constructor; [exact F| |repeat constructor].
  cbn [map fst]. repeat (constructor; [cbn; intuition discriminate|]). constructor.
Qed.
Lemma ku_ft_entry e : Forall keys_unique (ft_values e) -> keys_unique (json_of_ft_value e).
Proof.
  destruct e as [v|l|o [t|]]; cbn [ft_values json_of_ft_value]; intros F; [now inversion F|constructor; exact F| |].
  - constructor; [cbn [map fst]; repeat (constructor; [cbn; intuition discriminate|]); constructor|repeat constructor].
  - constructor; [cbn [map fst]; repeat (constructor; [cbn; intuition discriminate|]); constructor|repeat constructor].
Qed.
Lemma depth_arr l n : Forall (fun v => depth v <= n) l -> depth (JArr l) <= S n.
Proof. intros F. cbn [depth]. apply le_n_S. apply list_max_le. apply Forall_forall. intros x I. apply in_map_iff in I. destruct I as (e & <- & I). rewrite Forall_forall in F. now apply F. Qed.
Lemma bt_json_ok limit h : bt_printable limit h -> 2 <= limit -> keys_unique (JObj (map (fun e => (fst e, json_of_bt_entry (snd e))) h)) /\ depth (JObj (map (fun e => (fst e, json_of_bt_entry (snd e))) h)) <= limit.
Proof.
  intros [ND F] L. rewrite Forall_forall in F. split.
  - constructor; [now rewrite map_fst_map|]. apply Forall_forall. intros x I. apply in_map_iff in I. destruct I as (e & <- & I). cbn [snd]. apply ku_bt_entry.
    destruct (F _ I) as [FV _]. eapply Forall_impl; [|exact FV]. intros v [K _]. exact K.
  - destruct limit as [|[|n]]; [lia|lia|]. apply depth_fields. apply Forall_forall. intros x I. apply in_map_iff in I. destruct I as (e & <- & I). cbn [snd].
    destruct (F _ I) as [FV _]. destruct (snd e) as [l|o ct t]; cbn [json_of_bt_entry bt_values] in *; [|cbn; lia]. apply depth_arr. eapply Forall_impl; [|exact FV]. cbn. intros v [_ D]. lia.
Qed.
Lemma ft_json_ok limit h : ft_printable limit h -> 2 <= limit -> keys_unique (JObj (map (fun e => (fst e, json_of_ft_value (snd e))) h)) /\ depth (JObj (map (fun e => (fst e, json_of_ft_value (snd e))) h)) <= limit.
Proof.
  intros [ND F] L. rewrite Forall_forall in F. split.
  - constructor; [now rewrite map_fst_map|]. apply Forall_forall. intros x I. apply in_map_iff in I. destruct I as (e & <- & I). cbn [snd]. apply ku_ft_entry.
    destruct (F _ I) as [FV _]. eapply Forall_impl; [|exact FV]. intros v [K _]. exact K.
  - destruct limit as [|[|n]]; [lia|lia|]. apply depth_fields. apply Forall_forall. intros x I. apply in_map_iff in I. destruct I as (e & <- & I). cbn [snd].
    destruct (F _ I) as [FV _]. destruct (snd e) as [v|l|o t]; cbn [json_of_ft_value ft_values] in *.
    + inversion FV as [|? ? [_ D] _]; subst. lia.
    + apply depth_arr. eapply Forall_impl; [|exact FV]. cbn. intros v [_ D]. lia.
    + destruct t; cbn; lia.
Qed.
Lemma batch_table_survives c r limit h p rest size : prints_and_parses c r limit -> 2 <= limit -> bt_printable limit h ->
  let blob := ser_batch_table_header c h p in
  let text := json_text c (JObj (map (fun e => (fst e, json_of_bt_entry (snd e))) h)) in
  (p + length blob) mod 8 = 0 /\ length text <= length blob
  /\ (length text <= size <= length blob -> exists h', deser_batch_table_header c (blob ++ rest) size p = Ok (h', length blob) /\ same_keys (map_entry (reparsed r)) h h').
Proof.
  intros C L P blob text. unfold blob, text, ser_batch_table_header. set (v := JObj (map (fun e => (fst e, json_of_bt_entry (snd e))) h)).
  destruct (bt_json_ok limit h P L) as [K D]. fold v in K, D. split; [apply blob_aligned|].
  split; [unfold write_json_header; rewrite app_length; lia|]. intros S. destruct (blob_parsed c v p r limit rest size C K D S) as (v' & E & R).
  unfold deser_batch_table_header. rewrite E. cbn [bind]. destruct P as [ND F].
  destruct (entries_back json_of_bt_entry bt_entry_of_json (map_entry (reparsed r)) r h v' ND) as (fs' & h' & -> & M & SK).
  - intros k a E' x RX. apply (assoc_in _ _ _ ND) in E'. rewrite Forall_forall in F. destruct (F _ E') as [_ B]. now apply bt_entry_back.
  - exact R.
  - rewrite M. cbn [bind]. exists h'. split; [|exact SK]. now rewrite (blob_position c v p size S).
Qed.
Lemma feature_table_survives c r limit h p rest size : prints_and_parses c r limit -> 2 <= limit -> ft_printable limit h -> Forall (fun e => ft_plain (snd e)) h ->
  let blob := ser_feature_table_header c h p in
  let text := json_text c (JObj (map (fun e => (fst e, json_of_ft_value (snd e))) h)) in
  (p + length blob) mod 8 = 0 /\ length text <= length blob
  /\ (length text <= size <= length blob -> exists h', deser_feature_table c (blob ++ rest) size p = Ok (h', size) /\ same_keys (map_ft_entry (reparsed r)) h h').
Proof.
  intros C L P PL blob text. unfold blob, text, ser_feature_table_header. set (v := JObj (map (fun e => (fst e, json_of_ft_value (snd e))) h)).
  destruct (ft_json_ok limit h P L) as [K D]. fold v in K, D. split; [apply blob_aligned|].
  split; [unfold write_json_header; rewrite app_length; lia|]. intros S. destruct (blob_parsed c v p r limit rest size C K D S) as (v' & E & R).
  unfold deser_feature_table, deser_feature_table_header. rewrite E. cbn [bind]. destruct P as [ND F].
  destruct (entries_back json_of_ft_value ft_value_of_json (map_ft_entry (reparsed r)) r h v' ND) as (fs' & h' & -> & M & SK).
  - intros k a E' x RX. apply (assoc_in _ _ _ ND) in E'. rewrite Forall_forall in F, PL. destruct (F _ E') as [_ B]. specialize (PL _ E'). now apply ft_entry_back.
  - exact R.
  - rewrite M. cbn [bind]. now exists h'.
Qed.

(* ---- metadata ---- *)
Lemma array_entry_ok {A} h k (f : list json -> res A) o : array_entry h k f = Ok o ->
  match o with None => assoc k h = None | Some a => exists l, assoc k h = Some (ArrayValue l) /\ f l = Ok a end.
Proof.
  unfold array_entry. destruct (assoc k h) as [[v|l|x t]|]; try discriminate; [|intros [= <-]; reflexivity].
  destruct (f l) as [a| |] eqn:E; cbn [bind]; try discriminate. intros [= <-]. now exists l.
Qed.
Lemma number_entry_ok h k o : number_entry h k = Ok o ->
  match o with None => assoc k h = None | Some n => assoc k h = Some (SingleValue (JInt (Z.of_nat n))) end.
Proof.
  unfold number_entry. destruct (assoc k h) as [[v|l|x t]|]; try discriminate; [|intros [= <-]; reflexivity].
  destruct v as [|b|z|f|s|l|fs]; cbn [as_u64]; try discriminate. destruct ((0 <=? z) && (z <? 2 ^ 64))%Z eqn:E; try discriminate. intros [= <-].
  apply andb_true_iff in E. destruct E as [E _]. apply Z.leb_le in E. now rewrite Z2Nat.id.
Qed.
Lemma array3 l v : json_arr_to_vec3f64 l = Ok v -> exists a b c, l = [a; b; c] /\ as_f64 a = Some (px v) /\ as_f64 b = Some (py v) /\ as_f64 c = Some (pz v).
Proof.
  unfold json_arr_to_vec3f64. destruct l as [|a [|b [|c [|d l]]]]; cbn [map]; try discriminate.
  - destruct (as_f64 a); discriminate.
  - destruct (as_f64 a), (as_f64 b); discriminate.
  - destruct (as_f64 a) eqn:A, (as_f64 b) eqn:B, (as_f64 c) eqn:C; try discriminate. intros [= <-]. now exists a, b, c.
  - destruct (as_f64 a), (as_f64 b), (as_f64 c); discriminate.
Qed.
