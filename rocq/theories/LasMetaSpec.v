(* Vocabulary of the statements about the metadata of LAS files. *)
From Coq Require Import String List ZArith Bool Arith SpecFloat.
From Verif Require Import Base NumModel MathModel LasModel LasMetaModel Utf8Spec.
Import ListNotations.
Local Open Scope string_scope.
Open Scope nat_scope.

(* the VLR is of the kind that the LAS specification defines under the record id *)
Definition of_kind (record_id : Z) (v : vlr) : Prop := v_user v = "LASF_Spec" /\ v_record v = record_id.
(* the first VLR of that kind *)
Definition first_of (record_id : Z) (vlrs : list vlr) (v : vlr) : Prop :=
  exists before after, vlrs = (before ++ v :: after)%list /\ of_kind record_id v /\ Forall (fun w => ~ of_kind record_id w) before.
Definition none_of (record_id : Z) (vlrs : list vlr) : Prop := Forall (fun w => ~ of_kind record_id w) vlrs.
(* a field of the metadata is the content of the first VLR of its kind *)
Definition holds_first {A : Type} (record_id : Z) (content : vlr -> A -> Prop) (vlrs : list vlr) (field : option A) : Prop :=
  match field with
  | None => none_of record_id vlrs
  | Some a => exists v, first_of record_id vlrs v /\ content v a
  end.
(* 256 classes of 16 bytes: the number and the text of the class *)
Definition class_content (v : vlr) (l : list (Z * list Z)) : Prop :=
  List.length (v_data v) = 4096 /\ List.length l = 256
  /\ forall i, i < 256 -> exists c d, nth_error l i = Some (c, d) /\ nth_error (v_data v) (16 * i) = Some c
     /\ lossy_text (firstn 15 (skipn (16 * i + 1) (v_data v))) d.
Definition text_content (v : vlr) (t : list Z) : Prop := t = v_data v.
Definition same_vector (a : las_vector) (p : p3 spec_float) : Prop := lv_x a = px p /\ lv_y a = py p /\ lv_z a = pz p.
Definition same_bounds (a : las_bounds) (b : aabb spec_float) : Prop := same_vector (lb_min a) (b_min b) /\ same_vector (lb_max a) (b_max b).
(* the first VLR of the kind, if there is one, is accepted by its parser *)
Definition first_accepted {A : Type} (record_id : Z) (parse : vlr -> res A) (vlrs : list vlr) : Prop :=
  forall v, first_of record_id vlrs v -> exists a, parse v = Ok a.
(* a date that a LAS file can hold *)
Definition date_fits (d : Z * Z) : Prop := (0 <= fst d < 65536 /\ 0 <= snd d < 65536)%Z.
(* the named fields that the documentation lists *)
Definition field_names : list string :=
  ["LASFIELD_FileSourceID"; "LASFIELD_Version"; "LASFIELD_SystemIdentifier"; "LASFIELD_GeneratingSoftware"; "LASFIELD_FileCreationDayOfYear"; "LASFIELD_FileCreationYear"].
