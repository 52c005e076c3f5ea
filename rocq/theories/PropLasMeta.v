(* Theorems about the metadata of LAS files. *)
From Coq Require Import String List ZArith Lia Bool Arith SpecFloat.
From Verif Require Import Base NumModel MathModel LasModel LasMetaModel LasMetaSpec LasMetaProofs LasMetaExamples.
Import ListNotations.
Local Open Scope string_scope.
Open Scope nat_scope.

(* ---- C83: the metadata are what the header of the file says ---- *)
Theorem C83_metadata : forall h m, metadata_of_header h = Ok m ->
  same_bounds (lh_bounds h) (lm_bounds m) /\ lm_bounds_of m = Some (lm_bounds m)
  /\ lm_number_of_points m = Some (lh_points h) /\ lm_format m = lh_format h /\ lm_header m = Some h
  /\ holds_first 0 class_content (lh_vlrs h) (lm_classes m) /\ holds_first 3 text_content (lh_vlrs h) (lm_text m)
  /\ holds_first 4 (fun v es => eb_of_vlr v = Ok es) (lh_vlrs h) (lm_extra m).
Proof. exact metadata_ok. Qed.
Print Assumptions C83_metadata.
Theorem C83_bounds_convert : forall b b', pasture_bounds (las_bounds_of b) = b /\ las_bounds_of (pasture_bounds b') = b'.
Proof. intros b b'. exact (conj (bounds_back b) (bounds_there b')). Qed.
Print Assumptions C83_bounds_convert.
(* a file opens exactly if the first VLR of each known kind is accepted *)
Theorem C83_opens : forall h, (exists m, metadata_of_header h = Ok m) <->
  first_accepted 0 classification_of_vlr (lh_vlrs h) /\ first_accepted 3 text_of_vlr (lh_vlrs h) /\ first_accepted 4 eb_of_vlr (lh_vlrs h).
Proof. exact metadata_opens. Qed.
Print Assumptions C83_opens.
Example C83_metadata_example : exists m, metadata_of_header ex_head = Ok m /\ lm_text m = Some [72; 105]%Z /\ lm_classes m = None
  /\ lm_number_of_points m = Some 7 /\ px (b_max (lm_bounds m)) = lv_x (lb_max (lh_bounds ex_head)).
Proof. exact ex_opens. Qed.
(* an Extra Bytes VLR without entries makes it panic *)
Theorem C83_empty_extra_refuted : exists h, metadata_of_header h = Panic.
Proof. exact empty_extra_panics. Qed.
Print Assumptions C83_empty_extra_refuted.
(* the named fields: years that fit 16 bits *)
Theorem C83_named_fields_partial : forall h m, metadata_of_header h = Ok m ->
  lm_named_field m "LASFIELD_FileSourceID" = Ok (Some (AnyU16 (lh_source h)))
  /\ lm_named_field m "LASFIELD_GeneratingSoftware" = Ok (Some (AnyString (lh_software h)))
  /\ lm_named_field m "LASFIELD_SystemIdentifier" = Ok (Some (AnyString (lh_system h)))
  /\ lm_named_field m "LASFIELD_Version" = Ok (Some (AnyString (lh_version h)))
  /\ (lh_date h = None -> lm_named_field m "LASFIELD_FileCreationYear" = Ok None /\ lm_named_field m "LASFIELD_FileCreationDayOfYear" = Ok None)
  /\ (forall year day, lh_date h = Some (year, day) -> date_fits (year, day) ->
      lm_named_field m "LASFIELD_FileCreationYear" = Ok (Some (AnyU16 year)) /\ lm_named_field m "LASFIELD_FileCreationDayOfYear" = Ok (Some (AnyU16 day))).
Proof. exact named_fields. Qed.
Print Assumptions C83_named_fields_partial.
Example C83_named_example : lh_date ex_head = Some (2023, 17)%Z /\ date_fits (2023, 17)%Z.
Proof. split; [reflexivity|]. unfold date_fits; cbn; lia. Qed.
(* any other name, and metadata without a header, have no named fields *)
Theorem C83_other_names : forall m name, ~ In name field_names -> lm_named_field m name = Ok None.
Proof. exact other_names. Qed.
Print Assumptions C83_other_names.
Theorem C83_without_header : forall b n f name, lm_named_field (metadata_new b n f) name = Ok None
  /\ lm_bounds_of (metadata_new b n f) = Some b /\ lm_number_of_points (metadata_new b n f) = Some n /\ lm_format (metadata_new b n f) = f.
Proof. intros b n f name. exact (conj (no_header b n f name) (conj eq_refl (conj eq_refl eq_refl))). Qed.
Print Assumptions C83_without_header.
(* a year before the year zero makes it panic *)
Theorem C83_year_refuted : exists h m, metadata_of_header h = Ok m /\ lm_named_field m "LASFIELD_FileCreationYear" = Panic.
Proof. exact early_year_panics. Qed.
Print Assumptions C83_year_refuted.
