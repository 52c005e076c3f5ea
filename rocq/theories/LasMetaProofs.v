(* Metadata of LAS files: proofs. *)
From Coq Require Import String List ZArith Lia Bool Arith SpecFloat.
From Verif Require Import Base ListLemmas NumModel MathModel LasModel LasMetaModel Utf8Spec LasMetaSpec Utf8Proofs.
Import ListNotations.
Local Open Scope string_scope.
Open Scope nat_scope.

Lemma bounds_same b : same_bounds b (pasture_bounds b).
Proof. repeat split. Qed.
Lemma bounds_back b : pasture_bounds (las_bounds_of b) = b.
Proof. now destruct b as [[] []]. Qed.
Lemma bounds_there b : las_bounds_of (pasture_bounds b) = b.
Proof. now destruct b as [[] []]. Qed.

Lemma kind_spec id v : (String.eqb (v_user v) "LASF_Spec" && Z.eqb (v_record v) id = true) <-> of_kind id v.
Proof. rewrite andb_true_iff, String.eqb_eq, Z.eqb_eq. reflexivity. Qed.
Lemma find_first id vlrs :
  match find (fun v => String.eqb (v_user v) "LASF_Spec" && Z.eqb (v_record v) id) vlrs with
  | Some v => first_of id vlrs v
  | None => none_of id vlrs
  end.
Proof.
  induction vlrs as [|w l IH]; [constructor|]. cbn [find]. destruct (_ && _) eqn:E.
  - exists [], l. split; [reflexivity|]. split; [now apply kind_spec|constructor].
  - assert (N : ~ of_kind id w) by (rewrite <- kind_spec, E; discriminate). destruct (find _ l).
    + destruct IH as (b & a & -> & K & F). exists (w :: b), a. split; [reflexivity|]. split; [exact K|now constructor].
    + now constructor.
Qed.
Lemma first_unique id vlrs v w : first_of id vlrs v -> first_of id vlrs w -> v = w.
Proof.
  intros (b & a & -> & K & F) (b' & a' & E & K' & F'). revert b' E F'. induction b as [|x b IH]; intros [|y b'] E F'.
  - now injection E.
  - injection E as -> ->. inversion F'; subst. contradiction.
  - injection E as -> E. inversion F; subst. contradiction.
  - injection E as -> E. inversion F; inversion F'; subst. eauto.
Qed.
Lemma first_none id vlrs v : first_of id vlrs v -> none_of id vlrs -> False.
Proof. intros (b & a & -> & K & _) N. unfold none_of in N. rewrite Forall_app in N. destruct N as [_ N]. inversion N; subst. contradiction. Qed.

Lemma parse_first_spec {A} id (parse : vlr -> res A) (content : vlr -> A -> Prop) vlrs : (forall v a, parse v = Ok a -> content v a) ->
  match parse_first id parse vlrs with
  | Ok o => holds_first id content vlrs o /\ first_accepted id parse vlrs
  | Err => exists v, first_of id vlrs v /\ parse v = Err
  | Panic => exists v, first_of id vlrs v /\ parse v = Panic
  end.
Proof.
  intros H. unfold parse_first. pose proof (find_first id vlrs) as F. destruct (find _ vlrs) as [v|].
  - destruct (parse v) as [a| |] eqn:E; cbn [bind holds_first].
    + split; [exists v; auto|]. intros w W. rewrite (first_unique _ _ _ _ W F). now exists a.
    + now exists v.
    + now exists v.
  - split; [exact F|]. intros v V. destruct (first_none _ _ _ V F).
Qed.
Lemma class_parsed v l : classification_of_vlr v = Ok l -> class_content v l.
Proof.
  unfold classification_of_vlr. destruct (negb _); [discriminate|]. destruct (negb (Z.eqb _ _)); [discriminate|].
  destruct (Nat.eqb_spec (List.length (v_data v)) (256 * 16)) as [E|E]; cbn [negb]; [|discriminate].
  intros H. apply (f_equal (fun r => match r with Ok x => x | _ => [] end)) in H. subst l.
  change (256 * 16) with 4096 in E. split; [exact E|]. split; [rewrite map_length, seq_length; reflexivity|].
  intros i I. rewrite nth_error_map, (nth_error_nth' _ 0) by now rewrite seq_length. rewrite seq_nth by exact I. cbn [option_map].
  eexists. eexists. split; [reflexivity|].
  assert (P : forall k, k < 16 -> nth_error (sub (v_data v) (i * 16) 16) k = nth_error (v_data v) (16 * i + k)).
  { intros k K. unfold sub. rewrite ListLemmas.nth_error_firstn, (proj2 (Nat.ltb_lt _ _) K). rewrite ListLemmas.nth_error_skipn. f_equal. lia. }
  split.
  - assert (L : 0 < List.length (sub (v_data v) (i * 16) 16)) by (unfold sub; rewrite firstn_length, skipn_length; lia).
    pose proof (P 0 ltac:(lia)) as P0. rewrite Nat.add_0_r in P0. rewrite <- P0. symmetry. cbn [Nat.add]. now rewrite (nth_error_nth' _ 0%Z L).
  - cbn [Nat.add]. replace (firstn 15 (skipn (16 * i + 1) (v_data v))) with (sub (sub (v_data v) (i * 16) 16) 1 15); [apply lossy_ok|].
    change (firstn 15 (skipn (16 * i + 1) (v_data v))) with (sub (v_data v) (16 * i + 1) 15). apply nth_error_ext. intros k. unfold sub at 1. rewrite ListLemmas.nth_error_firstn.
    unfold sub at 2. rewrite ListLemmas.nth_error_firstn, !ListLemmas.nth_error_skipn. destruct (Nat.ltb_spec k 15); [|reflexivity]. rewrite P by lia. f_equal. lia.
Qed.
Lemma text_parsed v t : text_of_vlr v = Ok t -> text_content v t.
Proof.
  unfold text_of_vlr. destruct (negb _); [discriminate|]. destruct (negb _); [discriminate|]. unfold from_utf8. destruct (utf8_valid _); [|discriminate]. intros [= <-]. reflexivity.
Qed.
Lemma metadata_ok h m : metadata_of_header h = Ok m ->
  same_bounds (lh_bounds h) (lm_bounds m) /\ lm_bounds_of m = Some (lm_bounds m)
  /\ lm_number_of_points m = Some (lh_points h) /\ lm_format m = lh_format h /\ lm_header m = Some h
  /\ holds_first 0 class_content (lh_vlrs h) (lm_classes m) /\ holds_first 3 text_content (lh_vlrs h) (lm_text m)
  /\ holds_first 4 (fun v es => eb_of_vlr v = Ok es) (lh_vlrs h) (lm_extra m).
Proof.
  unfold metadata_of_header.
  pose proof (parse_first_spec 0 classification_of_vlr class_content (lh_vlrs h) class_parsed) as C. destruct (parse_first 0 _ _) as [c| |]; cbn [bind]; try discriminate.
  pose proof (parse_first_spec 3 text_of_vlr text_content (lh_vlrs h) text_parsed) as T. destruct (parse_first 3 _ _) as [t| |]; cbn [bind]; try discriminate.
  pose proof (parse_first_spec 4 eb_of_vlr (fun v es => eb_of_vlr v = Ok es) (lh_vlrs h) (fun _ _ E => E)) as E. destruct (parse_first 4 _ _) as [e| |]; cbn [bind]; try discriminate.
  intros H. apply (f_equal (fun r => match r with Ok x => x | _ => m end)) in H. subst m.
  destruct C as [C _], T as [T _], E as [E _]. split; [apply bounds_same|]. cbn [lm_bounds lm_classes lm_text lm_extra]. auto 8.
Qed.
Lemma metadata_opens h : (exists m, metadata_of_header h = Ok m) <->
  first_accepted 0 classification_of_vlr (lh_vlrs h) /\ first_accepted 3 text_of_vlr (lh_vlrs h) /\ first_accepted 4 eb_of_vlr (lh_vlrs h).
Proof.
  unfold metadata_of_header.
  assert (N : forall A id (parse : vlr -> res A), (exists v, first_of id (lh_vlrs h) v /\ (parse v = Err \/ parse v = Panic)) -> ~ first_accepted id parse (lh_vlrs h)).
  { intros A id parse (v & F & P) FA. destruct (FA v F) as [a E]. destruct P; congruence. }
  pose proof (parse_first_spec 0 classification_of_vlr class_content (lh_vlrs h) class_parsed) as C. destruct (parse_first 0 _ _) as [c| |]; cbn [bind].
  2,3: split; [intros [m E]; discriminate E|intros (F & _); exfalso; destruct C as (v & V & P); eapply N; [|exact F]; eauto].
  pose proof (parse_first_spec 3 text_of_vlr text_content (lh_vlrs h) text_parsed) as T. destruct (parse_first 3 _ _) as [t| |]; cbn [bind].
  2,3: split; [intros [m E]; discriminate E|intros (_ & F & _); exfalso; destruct T as (v & V & P); eapply N; [|exact F]; eauto].
  pose proof (parse_first_spec 4 eb_of_vlr (fun v es => eb_of_vlr v = Ok es) (lh_vlrs h) (fun _ _ E => E)) as E. destruct (parse_first 4 _ _) as [e| |]; cbn [bind].
  2,3: split; [intros [m E']; discriminate E'|intros (_ & _ & F); exfalso; destruct E as (v & V & P); eapply N; [|exact F]; eauto].
  destruct C as [_ C], T as [_ T], E as [_ E]. split; [auto|]. intros _. eexists. reflexivity.
Qed.
Lemma class_accepts id v : of_kind id v -> id = 0%Z -> (exists l, classification_of_vlr v = Ok l) <-> List.length (v_data v) = 4096.
Proof.
  intros [U R] ->. unfold classification_of_vlr. rewrite U, R. cbn [String.eqb Ascii.eqb Bool.eqb negb Z.eqb]. change (256 * 16) with 4096.
  destruct (Nat.eqb_spec (List.length (v_data v)) 4096) as [E|E]; cbn [negb]; [split; [auto|intros _; eexists; reflexivity]|split; [intros [l H]; discriminate H|contradiction]].
Qed.
Lemma named_fields h m : metadata_of_header h = Ok m ->
  lm_named_field m "LASFIELD_FileSourceID" = Ok (Some (AnyU16 (lh_source h)))
  /\ lm_named_field m "LASFIELD_GeneratingSoftware" = Ok (Some (AnyString (lh_software h)))
  /\ lm_named_field m "LASFIELD_SystemIdentifier" = Ok (Some (AnyString (lh_system h)))
  /\ lm_named_field m "LASFIELD_Version" = Ok (Some (AnyString (lh_version h)))
  /\ (lh_date h = None -> lm_named_field m "LASFIELD_FileCreationYear" = Ok None /\ lm_named_field m "LASFIELD_FileCreationDayOfYear" = Ok None)
  /\ (forall year day, lh_date h = Some (year, day) -> date_fits (year, day) ->
      lm_named_field m "LASFIELD_FileCreationYear" = Ok (Some (AnyU16 year)) /\ lm_named_field m "LASFIELD_FileCreationDayOfYear" = Ok (Some (AnyU16 day))).
Proof.
  intros E. apply metadata_ok in E. destruct E as (_ & _ & _ & _ & H & _). unfold lm_named_field. cbn [String.eqb Ascii.eqb Bool.eqb]. rewrite H. cbn [option_map].
  repeat (split; [reflexivity|]). split.
  - intros ->. now split.
  - intros y d -> [Y D]. cbn [fst snd] in *. unfold u16_or_panic.
    assert (EY : ((0 <=? y) && (y <? 65536))%Z = true) by (apply andb_true_iff; rewrite Z.leb_le, Z.ltb_lt; lia).
    assert (ED : ((0 <=? d) && (d <? 65536))%Z = true) by (apply andb_true_iff; rewrite Z.leb_le, Z.ltb_lt; lia).
    now rewrite EY, ED.
Qed.
Lemma other_names m name : ~ In name field_names -> lm_named_field m name = Ok None.
Proof.
  intros N. unfold lm_named_field.
  repeat match goal with |- context [String.eqb name ?s] => destruct (String.eqb_spec name s) as [->|_]; [exfalso; apply N; cbn; tauto|] end. reflexivity.
Qed.
Lemma no_header b n f name : lm_named_field (metadata_new b n f) name = Ok None.
Proof. unfold lm_named_field, metadata_new. cbn [lm_header option_map]. repeat (destruct (String.eqb name _); [reflexivity|]). reflexivity. Qed.
