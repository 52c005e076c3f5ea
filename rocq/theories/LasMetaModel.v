(* Metadata of LAS files (pasture-io/src/las/las_metadata.rs). Definitions only. *)
From Coq Require Import String List ZArith Bool Arith SpecFloat.
From Verif Require Import Base NumModel MathModel LasModel.
Import ListNotations.
Set Implicit Arguments.
Open Scope nat_scope.
Local Open Scope string_scope.

(* las::Vector and las::Bounds *)
Record las_vector : Type := mk_lv { lv_x : spec_float; lv_y : spec_float; lv_z : spec_float }.
Record las_bounds : Type := mk_lb { lb_min : las_vector; lb_max : las_vector }.
(* las_bounds_to_pasture_bounds, las_metadata.rs:44-48 *)
Definition pasture_bounds (b : las_bounds) : aabb spec_float :=
  mk_aabb (mk_p3 (lv_x (lb_min b)) (lv_y (lb_min b)) (lv_z (lb_min b))) (mk_p3 (lv_x (lb_max b)) (lv_y (lb_max b)) (lv_z (lb_max b))).
(* pasture_bounds_to_las_bounds, las_metadata.rs:51-64 *)
Definition las_bounds_of (b : aabb spec_float) : las_bounds :=
  mk_lb (mk_lv (px (b_min b)) (py (b_min b)) (pz (b_min b))) (mk_lv (px (b_max b)) (py (b_max b)) (pz (b_max b))).

(* What is used of las::Header. The date is the year and the day of the year (chrono's NaiveDate), the strings are those las-rs returns. *)
Record las_head : Type := mk_head {
  lh_bounds : las_bounds; lh_points : nat; lh_format : Z; lh_vlrs : list vlr; lh_date : option (Z * Z); lh_source : Z;
  lh_software : string; lh_system : string; lh_version : string }.
(* LASMetadata, las_metadata.rs:775-784 *)
Record las_metadata : Type := mk_lm {
  lm_bounds : aabb spec_float; lm_points : nat; lm_format : Z; lm_classes : option (list (Z * list Z));
  lm_text : option (list Z); lm_extra : option (list eb_entry); lm_header : option las_head }.
(* LASMetadata::new, las_metadata.rs:798-808 *)
Definition metadata_new (b : aabb spec_float) (n : nat) (f : Z) : las_metadata := mk_lm b n f None None None None.
(* header.vlrs().iter().find(..).map(..).transpose(), las_metadata.rs:1027-1056 *)
Definition parse_first {A : Type} (record_id : Z) (parse : vlr -> res A) (vlrs : list vlr) : res (option A) :=
  match find (fun v => String.eqb (v_user v) "LASF_Spec" && Z.eqb (v_record v) record_id) vlrs with
  | Some v => let* a := parse v in Ok (Some a)
  | None => Ok None
  end.
(* TryFrom<&las::Header> for LASMetadata, las_metadata.rs:1023-1068 *)
Definition metadata_of_header (h : las_head) : res las_metadata :=
  let* c := parse_first 0 classification_of_vlr (lh_vlrs h) in
  let* t := parse_first 3 text_of_vlr (lh_vlrs h) in
  let* e := parse_first 4 eb_of_vlr (lh_vlrs h) in
  Ok (mk_lm (pasture_bounds (lh_bounds h)) (lh_points h) (lh_format h) c t e (Some h)).
(* Metadata::bounds and number_of_points, las_metadata.rs:973-980 *)
Definition lm_bounds_of (m : las_metadata) : option (aabb spec_float) := Some (lm_bounds m).
Definition lm_number_of_points (m : las_metadata) : option nat := Some (lm_points m).
(* a value behind Box<dyn Any> *)
Inductive las_any : Type := AnyU16 (z : Z) | AnyString (s : string).
(* try_into::<u16>().unwrap() *)
Definition u16_or_panic (z : Z) : res Z := if ((0 <=? z) && (z <? 65536))%Z then Ok z else Panic.
(* get_named_field, las_metadata.rs:982-1015, with the names of las_metadata.rs:26-39 *)
Definition lm_named_field (m : las_metadata) (name : string) : res (option las_any) :=
  let dated (f : Z * Z -> Z) :=
    match match lm_header m with Some h => lh_date h | None => None end with
    | Some d => let* z := u16_or_panic (f d) in Ok (Some (AnyU16 z))
    | None => Ok None
    end in
  let from_header (f : las_head -> las_any) := Ok (option_map f (lm_header m)) in
  if String.eqb name "LASFIELD_FileCreationDayOfYear" then dated snd
  else if String.eqb name "LASFIELD_FileCreationYear" then dated fst
  else if String.eqb name "LASFIELD_FileSourceID" then from_header (fun h => AnyU16 (lh_source h))
  else if String.eqb name "LASFIELD_GeneratingSoftware" then from_header (fun h => AnyString (lh_software h))
  else if String.eqb name "LASFIELD_SystemIdentifier" then from_header (fun h => AnyString (lh_system h))
  else if String.eqb name "LASFIELD_Version" then from_header (fun h => AnyString (lh_version h))
  else Ok None.
