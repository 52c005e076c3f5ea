(* Proofs about variable length records with arbitrary content. *)
From Coq Require Import String List ZArith Lia Bool Arith ZifyBool.
From Verif Require Import Base NumModel MathModel ListLemmas LasModel LasSpec LasProofs2 LasMetaModel LasMetaSpec LasMetaProofs Utf8Spec Utf8Proofs VlrSpec.
Import ListNotations.
Open Scope Z_scope.

(* ---- Extra Bytes ---- *)
Open Scope nat_scope.
Lemma code_any v : eb_to_u8 (eb_of_u8 v) = v.
Proof.
  unfold eb_of_u8. repeat match goal with |- context [(v =? ?k)%Z] => destruct (Z.eqb_spec v k); [subst; reflexivity|] end. destruct (Z.leb v 30); reflexivity.
Qed.
Lemma firstn_sub {A} (l : list A) o n k m : k + m <= n -> sub (sub l o n) k m = firstn m (skipn (o + k) l).
Proof.
  intros H. unfold sub. rewrite skipn_firstn_comm, firstn_firstn, skipn_skipn. f_equal; [lia|f_equal; lia].
Qed.
Lemma nth_one (l : list Z) k : k < length l -> firstn 1 (skipn k l) = [nth k l 0%Z].
Proof. revert k. induction l as [|x l IH]; intros [|k] H; cbn in H; try lia; [reflexivity|]. cbn [skipn nth]. apply IH. lia. Qed.

Lemma raw_content data i e : 192 * (i + 1) <= length data -> eb_of_raw (sub data (i * 192) 192) = Ok e ->
  entry_content data i e /\ utf8_text (before_nul (field data i 4 32)) /\ utf8_text (before_nul (field data i 160 32)).
Proof.
  intros L. unfold eb_of_raw. rewrite !las_string_spec, !firstn_sub by lia.
  assert (F : forall o n, firstn n (skipn (i * 192 + o) data) = field data i o n) by (intros; unfold field; do 2 f_equal; lia). rewrite !F. unfold from_utf8.
  destruct (utf8_valid (before_nul (field data i 160 32))) eqn:V1; cbn [bind]; [|discriminate]. destruct (utf8_valid (before_nul (field data i 4 32))) eqn:V2; cbn [bind]; [|discriminate].
  intros H. injection H as <-. split; [|split; apply valid_text; assumption].
  assert (B : forall k, k < 192 -> field data i k 1 = [nth k (sub data (i * 192) 192) 0%Z]).
  { intros k K. unfold field. replace (192 * i + k) with (i * 192 + k) by lia. rewrite <- (firstn_sub data (i * 192) 192 k 1) by lia. unfold sub at 1. rewrite nth_one; [reflexivity|]. unfold sub. rewrite firstn_length, skipn_length. lia. }
  unfold entry_content. cbn [eb_dt eb_options eb_name eb_no_data eb_min eb_max eb_scale eb_offset eb_description]. rewrite code_any. rewrite (B 2), (B 3) by lia. repeat (split; [reflexivity|]). reflexivity.
Qed.
Lemma raw_accepts data i : utf8_text (before_nul (field data i 4 32)) -> utf8_text (before_nul (field data i 160 32)) -> exists e, eb_of_raw (sub data (i * 192) 192) = Ok e.
Proof.
  intros A B. unfold eb_of_raw. rewrite !las_string_spec, !firstn_sub by lia.
  assert (F : forall o n, firstn n (skipn (i * 192 + o) data) = field data i o n) by (intros; unfold field; do 2 f_equal; lia). rewrite !F. unfold from_utf8.
  rewrite (text_valid _ A), (text_valid _ B). cbn [bind]. eauto.
Qed.
Lemma raw_no_panic r : eb_of_raw r <> Panic.
Proof. unfold eb_of_raw. rewrite !las_string_spec. unfold from_utf8. destruct (utf8_valid _); cbn [bind]; [|discriminate]. destruct (utf8_valid _); discriminate. Qed.

Lemma mapM_cases {A B} (f : A -> res B) l : (forall a, f a <> Panic) -> mapM f l = Err \/ exists bs, mapM f l = Ok bs /\ length bs = length l /\ forall i a, nth_error l i = Some a -> exists b, nth_error bs i = Some b /\ f a = Ok b.
Proof.
  intros NP. induction l as [|a l IH]; cbn [mapM].
  - right. exists []. split; [reflexivity|]. split; [reflexivity|]. intros [|i] a H; discriminate.
  - destruct (f a) as [b| |] eqn:E; cbn [bind]; [|now left|now destruct (NP a)]. destruct IH as [->|(bs & -> & L & N)]; [now left|]. right. cbn [bind]. exists (b :: bs). split; [reflexivity|]. split; [cbn; lia|].
    intros [|i] a' H; cbn in *; [injection H as <-; eauto|auto].
Qed.
Lemma mapM_all {A B} (f : A -> res B) l : (forall a, In a l -> exists b, f a = Ok b) -> exists bs, mapM f l = Ok bs.
Proof.
  induction l as [|a l IH]; intros H; cbn [mapM]; [eauto|]. destruct (H a (or_introl eq_refl)) as (b & ->). cbn [bind]. destruct IH as (bs & ->); [intros; apply H; now right|]. cbn [bind]. eauto.
Qed.

Lemma extra_parsed v es : eb_of_vlr v = Ok es -> of_kind 4 v /\ v_data v <> [] /\ extra_accepted (v_data v) /\ length (v_data v) = 192 * length es
  /\ forall i e, nth_error es i = Some e -> entry_content (v_data v) i e.
Proof.
  unfold eb_of_vlr. destruct (String.eqb_spec (v_user v) "LASF_Spec") as [U|]; cbn [negb]; [|discriminate]. destruct (Z.eqb_spec (v_record v) 4) as [R4|]; cbn [negb]; [|discriminate].
  destruct (Nat.eqb_spec (length (v_data v) mod 192) 0) as [M|]; cbn [negb]; [|discriminate]. destruct (Nat.eqb_spec (length (v_data v)) 0) as [|NZ]; cbn [negb assert bind]; [discriminate|].
  pose proof (Nat.div_mod (length (v_data v)) 192 ltac:(lia)) as DM. set (n := length (v_data v) / 192) in *. rewrite M in DM.
  destruct (mapM_cases (fun i => eb_of_raw (sub (v_data v) (i * 192) 192)) (seq 0 n) (fun i => raw_no_panic _)) as [->|(bs & -> & L & N)]; [discriminate|]. intros H. injection H as <-. rewrite seq_length in L.
  assert (X : forall i, i < n -> exists b, nth_error bs i = Some b /\ eb_of_raw (sub (v_data v) (i * 192) 192) = Ok b).
  { intros i Hi. apply (N i i). rewrite (nth_error_nth' _ 0) by (rewrite seq_length; exact Hi). now rewrite seq_nth. }
  split; [split; assumption|]. split; [intros E; rewrite E in NZ; now apply NZ|]. split; [|split].
  - exists n. split; [lia|]. intros i Hi. destruct (X i Hi) as (b & _ & E). destruct (raw_content (v_data v) i b) as (_ & R); [lia|exact E|exact R].
  - rewrite L. lia.
  - intros i e Hi. assert (I : i < n) by (rewrite <- L; apply nth_error_Some; congruence). destruct (X i I) as (b & E1 & E2). rewrite Hi in E1. injection E1 as <-. destruct (raw_content (v_data v) i e) as (R & _); [lia|exact E2|exact R].
Qed.
Lemma extra_ok v : of_kind 4 v -> v_data v <> [] -> extra_accepted (v_data v) -> exists es, eb_of_vlr v = Ok es.
Proof.
  intros (U & R) NE (n & L & T). unfold eb_of_vlr. rewrite U, R. cbn [String.eqb negb]. change (String.eqb "LASF_Spec" "LASF_Spec") with true. change (4 =? 4)%Z with true. cbn [negb].
  rewrite L. rewrite (Nat.mul_comm 192 n), Nat.mod_mul by lia. cbn [Nat.eqb negb]. destruct (Nat.eqb_spec (n * 192) 0) as [Z|_]; cbn [negb assert bind]; [destruct NE; destruct (v_data v); [reflexivity|cbn in L; lia]|].
  rewrite Nat.div_mul by lia. apply mapM_all. intros i Hi. apply in_seq in Hi. apply raw_accepts; apply T; lia.
Qed.
Lemma extra_no_panic v : ~ (of_kind 4 v /\ v_data v = []) -> eb_of_vlr v <> Panic.
Proof.
  intros H. unfold eb_of_vlr. destruct (String.eqb_spec (v_user v) "LASF_Spec") as [U|]; cbn [negb]; [|discriminate]. destruct (Z.eqb_spec (v_record v) 4) as [R4|]; cbn [negb]; [|discriminate].
  destruct (Nat.eqb_spec (length (v_data v) mod 192) 0); cbn [negb]; [|discriminate]. destruct (Nat.eqb_spec (length (v_data v)) 0) as [E|]; cbn [negb assert bind].
  - destruct H. split; [split; assumption|]. destruct (v_data v); [reflexivity|discriminate].
  - destruct (mapM_cases (fun i => eb_of_raw (sub (v_data v) (i * 192) 192)) (seq 0 (length (v_data v) / 192)) (fun i => raw_no_panic _)) as [->|(bs & -> & _)]; discriminate.
Qed.
Lemma extra_empty v : of_kind 4 v -> v_data v = [] -> eb_of_vlr v = Panic.
Proof. intros (U & R) E. unfold eb_of_vlr. rewrite U, R, E. reflexivity. Qed.

Lemma class_cases v : of_kind 0 v -> (exists a, classification_of_vlr v = Ok a) /\ lookup_accepted (v_data v) \/ classification_of_vlr v = Err /\ ~ lookup_accepted (v_data v).
Proof.
  intros (U & R). unfold classification_of_vlr, lookup_accepted. rewrite U, R. change (String.eqb "LASF_Spec" "LASF_Spec") with true. change (0 =? 0)%Z with true. cbn [negb].
  change (256 * 16) with 4096. destruct (Nat.eqb_spec (length (v_data v)) 4096); cbn [negb]; [left|right]; eauto.
Qed.
Lemma text_cases v : of_kind 3 v -> (exists a, text_of_vlr v = Ok a) /\ text_accepted (v_data v) \/ text_of_vlr v = Err /\ ~ text_accepted (v_data v).
Proof.
  intros (U & R). unfold text_of_vlr, text_accepted, from_utf8. rewrite U, R. change (String.eqb "LASF_Spec" "LASF_Spec") with true. change (3 =? 3)%Z with true. cbn [negb].
  rewrite <- utf8_iff. destruct (utf8_valid (v_data v)); [left|right]; split; eauto; discriminate.
Qed.

(* ---- the metadata of a header ---- *)
Lemma first_kind id vlrs v : first_of id vlrs v -> of_kind id v.
Proof. intros (b & a & _ & K & _). exact K. Qed.
Lemma accepted_iff h : (exists m, metadata_of_header h = Ok m) <->
  first_is 0 lookup_accepted (lh_vlrs h) /\ first_is 3 text_accepted (lh_vlrs h) /\ first_is 4 (fun d => d <> [] /\ extra_accepted d) (lh_vlrs h).
Proof.
  rewrite metadata_opens. unfold first_accepted, first_is. split; intros (C & T & E); (split; [|split]); intros v F; pose proof (first_kind _ _ _ F) as K.
  - destruct (class_cases v K) as [(_ & A)|(E' & _)]; [exact A|]. destruct (C v F) as (a & Q). congruence.
  - destruct (text_cases v K) as [(_ & A)|(E' & _)]; [exact A|]. destruct (T v F) as (a & Q). congruence.
  - destruct (E v F) as (es & Q). destruct (extra_parsed v es Q) as (_ & A & B & _). auto.
  - destruct (class_cases v K) as [(A & _)|(_ & N)]; [exact A|]. destruct (N (C v F)).
  - destruct (text_cases v K) as [(A & _)|(_ & N)]; [exact A|]. destruct (N (T v F)).
  - destruct (E v F) as (A & B). exact (extra_ok v K A B).
Qed.
Lemma no_panic_unless h : (forall v, first_of 4 (lh_vlrs h) v -> v_data v <> []) -> metadata_of_header h = Err \/ exists m, metadata_of_header h = Ok m.
Proof.
  intros NE. unfold metadata_of_header.
  pose proof (parse_first_spec 0 classification_of_vlr class_content (lh_vlrs h) class_parsed) as C. destruct (parse_first 0 _ _) as [c| |]; cbn [bind]; [|now left|].
  2: { destruct C as (v & F & P). destruct (class_cases v (first_kind _ _ _ F)) as [((a & Q) & _)|(Q & _)]; congruence. }
  pose proof (parse_first_spec 3 text_of_vlr text_content (lh_vlrs h) text_parsed) as T. destruct (parse_first 3 _ _) as [t| |]; cbn [bind]; [|now left|].
  2: { destruct T as (v & F & P). destruct (text_cases v (first_kind _ _ _ F)) as [((a & Q) & _)|(Q & _)]; congruence. }
  pose proof (parse_first_spec 4 eb_of_vlr (fun v es => eb_of_vlr v = Ok es) (lh_vlrs h) (fun _ _ E => E)) as E. destruct (parse_first 4 _ _) as [e| |]; cbn [bind]; [right; eauto|now left|].
  destruct E as (v & F & P). destruct (extra_no_panic v); [|exact P]. intros (_ & Q). exact (NE v F Q).
Qed.
Lemma empty_panics h v : first_is 0 lookup_accepted (lh_vlrs h) -> first_is 3 text_accepted (lh_vlrs h) -> first_of 4 (lh_vlrs h) v -> v_data v = [] -> metadata_of_header h = Panic.
Proof.
  intros C0 T0 F Q. unfold metadata_of_header.
  pose proof (parse_first_spec 0 classification_of_vlr class_content (lh_vlrs h) class_parsed) as C. destruct (parse_first 0 _ _) as [c| |]; cbn [bind]; [| |reflexivity].
  2: { destruct C as (w & G & P). destruct (class_cases w (first_kind _ _ _ G)) as [((a & Q') & _)|(_ & N)]; [congruence|]. destruct (N (C0 w G)). }
  pose proof (parse_first_spec 3 text_of_vlr text_content (lh_vlrs h) text_parsed) as T. destruct (parse_first 3 _ _) as [t| |]; cbn [bind]; [| |reflexivity].
  2: { destruct T as (w & G & P). destruct (text_cases w (first_kind _ _ _ G)) as [((a & Q') & _)|(_ & N)]; [congruence|]. destruct (N (T0 w G)). }
  pose proof (find_first 4 (lh_vlrs h)) as E. unfold parse_first. destruct (find _ (lh_vlrs h)) as [w|]; [|destruct (first_none _ _ _ F E)].
  rewrite (first_unique _ _ _ _ E F), (extra_empty v (first_kind _ _ _ F) Q). reflexivity.
Qed.
Lemma described h m : metadata_of_header h = Ok m ->
  holds_first 4 (fun v es => length (v_data v) = 192 * length es /\ forall i e, nth_error es i = Some e -> entry_content (v_data v) i e) (lh_vlrs h) (lm_extra m).
Proof.
  intros H. destruct (metadata_ok h m H) as (_ & _ & _ & _ & _ & _ & _ & X). unfold holds_first in *. destruct (lm_extra m) as [es|]; [|exact X]. destruct X as (v & F & E). exists v. split; [exact F|].
  destruct (extra_parsed v es E) as (_ & _ & _ & L & N). auto.
Qed.
