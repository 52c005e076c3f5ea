(* Refutations for 3D Tiles: numbers that are not finite, tables with values of the wrong shape, the place where the reader stops. *)
From Coq Require Import String List ZArith Lia Bool Arith SpecFloat.
From Verif Require Import Base LayoutModel NumModel MathModel MathSpec PntsModel TilesModel TilesSpec TilesProofs TilesProofs2 TilesProofs3 TilesProofs4.
Import ListNotations.
Local Open Scope string_scope.
Open Scope nat_scope.
Local Open Scope list_scope.

(* the first number that is not finite is written as null *)
Lemma infinite_lost e calls t : ~ finite e -> lt f64_cmp e f64_zero = false -> build (calls ++ [CError e]) = Ok t ->
  tileset_of_json (json_of_tileset t) = Err.
Proof.
  intros NF NL B. unfold build in B. rewrite foldM_snoc in B. destruct (foldM tile_step calls ts_default) as [s| |]; cbn [bind] in B; try discriminate B.
  cbn [tile_step] in B. unfold set_geometric_error in B. rewrite NL in B. injection B as <-.
  assert (N : json_f64 e = JNull) by (destruct e; try reflexivity; destruct NF; exact I).
  unfold tileset_of_json. set (v := json_of_tileset _).
  assert (V : exists fs, v = JObj (("geometricError", JNull) :: fs)) by (unfold v; cbn [json_of_tileset ts_error]; rewrite N; eexists; reflexivity).
  destruct V as [fs ->]. cbn [depth]. cbn [tileset_of_json_fuel]. unfold field at 1. rewrite assoc_cons. reflexivity.
Qed.
Lemma infinite_accepted : exists e t, build [CError e] = Ok t /\ tileset_of_json (json_of_tileset t) = Err.
Proof. exists (S754_infinity false). eexists. split; [reflexivity|]. apply (infinite_lost (S754_infinity false) []); [intros []|reflexivity|reflexivity]. Qed.

(* a single value that is an array comes back as an array value; an object with a byteOffset that is not a reference is not read at all *)
Lemma single_array_changed c r limit p rest l : prints_and_parses c r limit -> Forall keys_unique l -> depth (JArr l) < limit ->
  let h := [("X", SingleValue (JArr l))] in let blob := ser_feature_table_header c h p in
  exists l', deser_feature_table_header c (blob ++ rest) (List.length blob) = Ok [("X", ArrayValue l')].
Proof.
  intros C K D h blob. unfold blob, ser_feature_table_header.
  destruct (blob_parsed c (JObj (map (fun e => (fst e, json_of_ft_value (snd e))) h)) p r limit rest
    (List.length (write_json_header c (JObj (map (fun e => (fst e, json_of_ft_value (snd e))) h)) p))) as (v' & E & R); [exact C| | |unfold write_json_header; rewrite app_length; lia|].
  - cbn [h map fst snd json_of_ft_value]. constructor; [constructor; [intros []|constructor]|]. constructor; [constructor; exact K|constructor].
  - cbn [h map fst snd json_of_ft_value]. change (depth (JObj [("X", JArr l)])) with (S (Nat.max (depth (JArr l)) 0)). lia.
  - unfold deser_feature_table_header. rewrite E. cbn [bind]. cbn [h map fst snd json_of_ft_value] in R. inversion R as [| | | | | |fs fs' ND N S]; subst.
    assert (F : exists l', fs' = [("X", JArr l')]).
    { destruct (S "X" (JArr l)) as (w & W & RW); [reflexivity|]. inversion RW; subst. exists l'.
      apply assoc_single; [exact ND|exact W|]. intros k NK. apply N. rewrite assoc_cons. destruct (String.eqb_spec "X" k); [congruence|reflexivity]. }
    destruct F as [l' ->]. exists l'. reflexivity.
Qed.
(* the reader stops behind the text, not behind the padding *)
Lemma stops_early c r limit h p rest : prints_and_parses c r limit -> 2 <= limit -> ft_printable limit h -> Forall (fun e => ft_plain (snd e)) h ->
  let blob := ser_feature_table_header c h p in
  let text := json_text c (JObj (map (fun e => (fst e, json_of_ft_value (snd e))) h)) in
  List.length text < List.length blob -> exists h' n, deser_feature_table c (blob ++ rest) (List.length text) p = Ok (h', n) /\ n < List.length blob.
Proof.
  intros C L P PL blob text LT. destruct (feature_table_survives c r limit h p rest (List.length text) C L P PL) as (_ & _ & S).
  destruct S as (h' & E & _); [split; [apply Nat.le_refl|apply Nat.lt_le_incl, LT]|]. now exists h', (List.length text).
Qed.
Lemma batch_length_field : exists h m, metadata_of_table h = Ok m /\ assoc "BATCH_LENGTH" h = None /\ pm_named_field m "BATCH_LENGTH" <> None.
Proof. exists [("POINTS_LENGTH", SingleValue (JInt 1))]. eexists. split; [reflexivity|]. split; [reflexivity|discriminate]. Qed.
