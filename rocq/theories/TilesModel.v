(* 3D Tiles: tilesets and their JSON form (pasture-io/src/tiles3d/tileset.rs), batch tables (batch_table.rs), positions of the reader
   after the table headers, metadata of PNTS files (pnts_metadata.rs, pnts_reader.rs). Definitions only.

   The Serialize and Deserialize implementations are derived by serde: to_json and of_json are what the derive generates for the tree of
   values. A [f64; n] and a Matrix4 (column by column) are arrays of numbers. Simplification: the derived Deserialize also accepts an array
   in the place of a struct and an object in the place of a unit variant; the model rejects them. *)
From Coq Require Import String List ZArith Bool Arith SpecFloat.
From Verif Require Import Base LayoutModel NumModel MathModel PntsModel.
Import ListNotations.
Set Implicit Arguments.
Open Scope nat_scope.
Local Open Scope string_scope.

(* ------------------------------------------------------------------ bounding volumes *)

Section Volumes.
Variable T : Type.
Variable zero : T.
(* BoundingRegion([f64; 6]), tileset.rs:21-58 *)
Definition region_new (west south east north min_height max_height : T) : list T := [west; south; east; north; min_height; max_height].
Definition region_west (r : list T) : T := nth 0 r zero.
Definition region_south (r : list T) : T := nth 1 r zero.
Definition region_east (r : list T) : T := nth 2 r zero.
Definition region_north (r : list T) : T := nth 3 r zero.
Definition region_min_height (r : list T) : T := nth 4 r zero.
Definition region_max_height (r : list T) : T := nth 5 r zero.
(* BoundingBox([f64; 12]), tileset.rs:61-88 *)
Definition box_new (c x y z : p3 T) : list T :=
  [px c; py c; pz c; px x; py x; pz x; px y; py y; pz y; px z; py z; pz z].
Definition box_center (b : list T) : p3 T := mk_p3 (nth 0 b zero) (nth 1 b zero) (nth 2 b zero).
Definition box_x (b : list T) : p3 T := mk_p3 (nth 3 b zero) (nth 4 b zero) (nth 5 b zero).
Definition box_y (b : list T) : p3 T := mk_p3 (nth 6 b zero) (nth 7 b zero) (nth 8 b zero).
Definition box_z (b : list T) : p3 T := mk_p3 (nth 9 b zero) (nth 10 b zero) (nth 11 b zero).
(* BoundingSphere([f64; 4]), tileset.rs:108-124 *)
Definition sphere_new (c : p3 T) (radius : T) : list T := [px c; py c; pz c; radius].
Definition sphere_center (s : list T) : p3 T := mk_p3 (nth 0 s zero) (nth 1 s zero) (nth 2 s zero).
Definition sphere_radius (s : list T) : T := nth 3 s zero.

(* the arithmetic of AABB::extent and AABB::center, and the multiplication by 0.5 *)
Variables (add sub_ : T -> T -> T) (half times_half : T -> T).
(* From<&AABB<f64>> for BoundingBox, tileset.rs:90-105 *)
Definition box_of_aabb (b : aabb T) : list T :=
  let e := extent sub_ b in
  let half_extent := mk_p3 (times_half (px e)) (times_half (py e)) (times_half (pz e)) in
  box_new (center add half b)
          (mk_p3 (px half_extent) zero zero)
          (mk_p3 zero (py half_extent) zero)
          (mk_p3 zero zero (pz half_extent)).
End Volumes.
(* 0.5 *)
Definition f64_one_half : spec_float := S754_finite false (2 ^ 52)%positive (-53).
Definition f64_zero : spec_float := S754_zero false.
Definition f64_box_of_aabb : aabb spec_float -> list spec_float :=
  box_of_aabb f64_zero f64_add f64_sub f64_half (fun x => f64_mul x f64_one_half).

(* ------------------------------------------------------------------ tilesets *)

(* Refinement, tileset.rs:11-19 *)
Inductive refinement : Type := Replace | Add.
(* BoundingVolume, tileset.rs:127-135. The numbers are the array inside the struct. *)
Inductive volume : Type :=
| Region (r : list spec_float) | Box (b : list spec_float) | Sphere (s : list spec_float).
(* TilesetContent, tileset.rs:146-151 *)
Record content : Type := mk_content { ct_volume : option volume; ct_uri : string }.
(* Tileset, tileset.rs:154-174. The transformation matrix is the list of its sixteen numbers, column by column. *)
Inductive tileset : Type := mk_ts {
  ts_error : spec_float; ts_refinement : option refinement; ts_volume : volume; ts_request_volume : option volume;
  ts_content : option content; ts_transform : option (list spec_float); ts_children : list tileset }.

(* Tileset::default, tileset.rs:137-141, 154 *)
Definition ts_default : tileset :=
  mk_ts f64_zero None (Region (repeat f64_zero 6)) None None None [].
(* TilesetBuilder, tileset.rs:177-244 *)
Definition set_geometric_error (t : tileset) (e : spec_float) : res tileset :=
  if lt f64_cmp e f64_zero then Panic
  else Ok (mk_ts e (ts_refinement t) (ts_volume t) (ts_request_volume t) (ts_content t) (ts_transform t) (ts_children t)).
Definition set_refinement (t : tileset) (r : refinement) : tileset :=
  mk_ts (ts_error t) (Some r) (ts_volume t) (ts_request_volume t) (ts_content t) (ts_transform t) (ts_children t).
Definition set_bounding_volume (t : tileset) (v : volume) : tileset :=
  mk_ts (ts_error t) (ts_refinement t) v (ts_request_volume t) (ts_content t) (ts_transform t) (ts_children t).
Definition set_viewer_request_volume (t : tileset) (v : volume) : tileset :=
  mk_ts (ts_error t) (ts_refinement t) (ts_volume t) (Some v) (ts_content t) (ts_transform t) (ts_children t).
Definition set_content (t : tileset) (uri : string) (v : option volume) : tileset :=
  mk_ts (ts_error t) (ts_refinement t) (ts_volume t) (ts_request_volume t) (Some (mk_content v uri)) (ts_transform t) (ts_children t).
Definition set_transform (t : tileset) (m : list spec_float) : tileset :=
  mk_ts (ts_error t) (ts_refinement t) (ts_volume t) (ts_request_volume t) (ts_content t) (Some m) (ts_children t).
Definition add_child (t : tileset) (c : tileset) : tileset :=
  mk_ts (ts_error t) (ts_refinement t) (ts_volume t) (ts_request_volume t) (ts_content t) (ts_transform t) (ts_children t ++ [c]).
Definition add_children (t : tileset) (cs : list tileset) : tileset :=
  mk_ts (ts_error t) (ts_refinement t) (ts_volume t) (ts_request_volume t) (ts_content t) (ts_transform t) (ts_children t ++ cs).

(* TilesetAssetInfo, tileset.rs:254-261, 268-274 *)
Record asset : Type := mk_asset { as_version : string; as_tileset_version : option string }.
Definition asset_default : asset := mk_asset "1.0" None.
(* TilesetProperty, tileset.rs:272-275 *)
Record property : Type := mk_property { p_minimum : spec_float; p_maximum : spec_float }.
(* RootTileset, tileset.rs:278-285; properties is a HashMap *)
Record root_tileset : Type := mk_root {
  rt_asset : asset; rt_properties : option (list (string * property)); rt_error : spec_float; rt_root : tileset }.

(* ------------------------------------------------------------------ Serialize *)

Definition json_floats (l : list spec_float) : json := JArr (map json_f64 l).
(* tileset.rs:127-135: an object with the name of the variant as its key *)
Definition json_of_volume (v : volume) : json :=
  match v with
  | Region r => JObj [("region", json_floats r)]
  | Box b => JObj [("box", json_floats b)]
  | Sphere s => JObj [("sphere", json_floats s)]
  end.
(* tileset.rs:11-19 *)
Definition json_of_refinement (r : refinement) : json := JText match r with Replace => "REPLACE" | Add => "ADD" end.
(* a field that is skipped if it is None *)
Definition optional {A : Type} (key : string) (f : A -> json) (o : option A) : list (string * json) :=
  match o with Some a => [(key, f a)] | None => [] end.
(* tileset.rs:146-151 *)
Definition json_of_content (c : content) : json :=
  JObj (optional "boundingVolume" json_of_volume (ct_volume c) ++ [("uri", JText (ct_uri c))]).
(* tileset.rs:154-174 *)
Fixpoint json_of_tileset (t : tileset) : json :=
  JObj ([("geometricError", json_f64 (ts_error t))]
        ++ optional "refine" json_of_refinement (ts_refinement t)
        ++ [("boundingVolume", json_of_volume (ts_volume t))]
        ++ optional "viewerRequestVolume" json_of_volume (ts_request_volume t)
        ++ optional "content" json_of_content (ts_content t)
        ++ optional "transform" json_floats (ts_transform t)
        ++ match ts_children t with [] => [] | cs => [("children", JArr (map json_of_tileset cs))] end).
(* tileset.rs:254-261 *)
Definition json_of_asset (a : asset) : json :=
  JObj (("version", JText (as_version a)) :: optional "tilesetVersion" JText (as_tileset_version a)).
(* tileset.rs:272-275 *)
Definition json_of_property (p : property) : json :=
  JObj [("minimum", json_f64 (p_minimum p)); ("maximum", json_f64 (p_maximum p))].
(* tileset.rs:278-285: properties is null if it is None *)
Definition json_of_root (r : root_tileset) : json :=
  JObj [("asset", json_of_asset (rt_asset r));
        ("properties", match rt_properties r with
                       | Some ps => JObj (map (fun e => (fst e, json_of_property (snd e))) ps)
                       | None => JNull
                       end);
        ("geometricError", json_f64 (rt_error r));
        ("root", json_of_tileset (rt_root r))].

(* ------------------------------------------------------------------ Deserialize *)

Definition float_of_json (v : json) : res spec_float := match as_f64 v with Some f => Ok f | None => Err end.
Definition text_of_json (v : json) : res string := match v with JText s => Ok s | _ => Err end.
(* an array of n numbers *)
Definition floats_of_json (n : nat) (v : json) : res (list spec_float) :=
  match v with JArr l => if Nat.eqb (List.length l) n then mapM float_of_json l else Err | _ => Err end.
Definition volume_of_json (v : json) : res volume :=
  match v with
  | JObj [(k, x)] =>
      if String.eqb k "region" then let* r := floats_of_json 6 x in Ok (Region r)
      else if String.eqb k "box" then let* b := floats_of_json 12 x in Ok (Box b)
      else if String.eqb k "sphere" then let* s := floats_of_json 4 x in Ok (Sphere s)
      else Err
  | _ => Err
  end.
Definition refinement_of_json (v : json) : res refinement :=
  match v with
  | JText s => if String.eqb s "REPLACE" then Ok Replace else if String.eqb s "ADD" then Ok Add else Err
  | _ => Err
  end.
(* a mandatory field, and a field of type Option *)
Definition field {A : Type} (key : string) (f : json -> res A) (fields : list (string * json)) : res A :=
  match assoc key fields with Some v => f v | None => Err end.
Definition option_field {A : Type} (key : string) (f : json -> res A) (fields : list (string * json)) : res (option A) :=
  match assoc key fields with
  | None | Some JNull => Ok None
  | Some v => let* a := f v in Ok (Some a)
  end.
Definition content_of_json (v : json) : res content :=
  match v with
  | JObj fields =>
      let* bv := option_field "boundingVolume" volume_of_json fields in
      let* uri := field "uri" text_of_json fields in
      Ok (mk_content bv uri)
  | _ => Err
  end.
(* nesting of arrays and objects *)
Fixpoint depth (v : json) : nat :=
  match v with
  | JArr l => S (list_max (map depth l))
  | JObj fields => S (list_max (map (fun e => depth (snd e)) fields))
  | _ => 0
  end.
(* fuel: the depth of the value is enough *)
Fixpoint tileset_of_json_fuel (fuel : nat) (v : json) : res tileset :=
  match fuel, v with
  | S fuel, JObj fields =>
      let* e := field "geometricError" float_of_json fields in
      let* r := option_field "refine" refinement_of_json fields in
      let* bv := field "boundingVolume" volume_of_json fields in
      let* rv := option_field "viewerRequestVolume" volume_of_json fields in
      let* c := option_field "content" content_of_json fields in
      let* m := option_field "transform" (floats_of_json 16) fields in
      let* cs := match assoc "children" fields with
                 | None => Ok []
                 | Some (JArr l) => mapM (tileset_of_json_fuel fuel) l
                 | Some _ => Err
                 end in
      Ok (mk_ts e r bv rv c m cs)
  | _, _ => Err
  end.
Definition tileset_of_json (v : json) : res tileset := tileset_of_json_fuel (depth v) v.
Definition asset_of_json (v : json) : res asset :=
  match v with
  | JObj fields =>
      let* ver := field "version" text_of_json fields in
      let* tv := option_field "tilesetVersion" text_of_json fields in
      Ok (mk_asset ver tv)
  | _ => Err
  end.
Definition property_of_json (v : json) : res property :=
  match v with
  | JObj fields =>
      let* mn := field "minimum" float_of_json fields in
      let* mx := field "maximum" float_of_json fields in
      Ok (mk_property mn mx)
  | _ => Err
  end.
Definition properties_of_json (v : json) : res (list (string * property)) :=
  match v with
  | JObj fields => mapM (fun e => let* p := property_of_json (snd e) in Ok (fst e, p)) fields
  | _ => Err
  end.
Definition root_of_json (v : json) : res root_tileset :=
  match v with
  | JObj fields =>
      let* a := field "asset" asset_of_json fields in
      let* ps := option_field "properties" properties_of_json fields in
      let* e := field "geometricError" float_of_json fields in
      let* t := field "root" tileset_of_json fields in
      Ok (mk_root a ps e t)
  | _ => Err
  end.

(* ------------------------------------------------------------------ batch tables *)

(* BatchTableDataReference and BatchTableEntry, batch_table.rs:14-32 *)
Inductive bt_entry : Type :=
| BatchArray (l : list json)
| BatchReference (byte_offset : nat) (component_type scalar_or_vector_type : string).
(* BatchTableHeader, batch_table.rs:90: a HashMap *)
Definition bt_header : Type := list (string * bt_entry).
(* TryFrom<&Value> for BatchTableEntry, batch_table.rs:51-66, and TryFrom<Value>, batch_table.rs:34-49 *)
Definition bt_entry_of_json (v : json) : res bt_entry :=
  match v with
  | JArr l => Ok (BatchArray l)
  | JObj fields =>
      let* o := field "byteOffset" (fun v => match as_u64 v with Some z => Ok (Z.to_nat z) | None => Err end) fields in
      let* c := field "componentType" text_of_json fields in
      let* t := field "type" text_of_json fields in
      Ok (BatchReference o c t)
  | _ => Err
  end.
(* From<&BatchTableEntry> for Value, batch_table.rs:78-86, and From<BatchTableEntry>, batch_table.rs:68-76 *)
Definition json_of_bt_entry (e : bt_entry) : json :=
  match e with
  | BatchArray l => JArr l
  | BatchReference o c t => JObj [("byteOffset", JInt (Z.of_nat o)); ("componentType", JText c); ("type", JText t)]
  end.
(* deser_batch_table_header, batch_table.rs:95-125, on the bytes that follow: the header and the number of bytes by which the reader
   has advanced *)
Definition deser_batch_table_header (c : json_codec) (bytes : list Z) (size start : nat) : res (bt_header * nat) :=
  let* v := read_json_header c bytes size in
  let current := start + size in
  let padding := align_to current 8 - current in
  match v with
  | JObj fields =>
      let* h := mapM (fun e => let* x := bt_entry_of_json (snd e) in Ok (fst e, x)) fields in
      Ok (h, size + padding)
  | _ => Err
  end.
(* ser_batch_table_header, batch_table.rs:129-143 *)
Definition ser_batch_table_header (c : json_codec) (h : bt_header) (position : nat) : list Z :=
  write_json_header c (JObj (map (fun e => (fst e, json_of_bt_entry (snd e))) h)) position.
(* deser_feature_table_header, feature_table.rs:114-145, with the number of bytes by which the reader has advanced: the lines that would
   skip the padding are commented out (feature_table.rs:123-131) *)
Definition deser_feature_table (c : json_codec) (bytes : list Z) (size start : nat) : res (ft_header * nat) :=
  let* h := deser_feature_table_header c bytes size in Ok (h, size).

(* ------------------------------------------------------------------ metadata of PNTS files *)

(* PntsMetadata, pnts_metadata.rs:11-18. The coordinates of the two f32 vectors are f32 numbers. *)
Record pnts_metadata : Type := mk_pm {
  pm_points_length : nat; pm_rtc_center : option (p3 spec_float); pm_volume_offset : option (p3 spec_float);
  pm_volume_scale : option (p3 spec_float); pm_constant_rgba : option (list Z); pm_batch_length : option nat }.
(* json_arr_to_vec3f32, common.rs:57-76: the numbers are rounded to f32 *)
Definition json_arr_to_vec3f32 (l : list json) : res (p3 spec_float) :=
  let* v := json_arr_to_vec3f64 l in
  let f x := match as_cast PF32 (NFlt x) with NFlt y => y | NInt _ => x end in
  Ok (mk_p3 (f (px v)) (f (py v)) (f (pz v))).
(* metadata_from_feature_table_header, pnts_reader.rs:178-246 *)
Definition metadata_of_table (h : ft_header) : res pnts_metadata :=
  let* n := number_entry h "POINTS_LENGTH" in
  let* n := match n with Some n => Ok n | None => Err end in
  let* c := array_entry h "RTC_CENTER" json_arr_to_vec3f64 in
  let* o := array_entry h "QUANTIZED_VOLUME_OFFSET" json_arr_to_vec3f32 in
  let* s := array_entry h "QUANTIZED_VOLUME_SCALE" json_arr_to_vec3f32 in
  let* rgba := array_entry h "CONSTANT_RGBA" json_arr_to_vec4u8 in
  let* b := number_entry h "BATCH_LENGTH" in
  Ok (mk_pm n c o s rgba b).
(* a value behind Box<dyn Any>, with its type *)
Inductive any : Type :=
| AnyVec3f64 (v : p3 spec_float) | AnyVec3f32 (v : p3 spec_float) | AnyVec4u8 (v : list Z) | AnyOptionUsize (o : option nat).
(* Metadata for PntsMetadata, pnts_metadata.rs:54-80 *)
Definition pm_bounds (m : pnts_metadata) : option (aabb spec_float) := None.
Definition pm_number_of_points (m : pnts_metadata) : option nat := Some (pm_points_length m).
Definition pm_named_field (m : pnts_metadata) (name : string) : option any :=
  if String.eqb name "RTC_CENTER" then option_map AnyVec3f64 (pm_rtc_center m)
  else if String.eqb name "QUANTIZED_VOLUME_OFFSET" then option_map AnyVec3f32 (pm_volume_offset m)
  else if String.eqb name "QUANTIZED_VOLUME_SCALE" then option_map AnyVec3f32 (pm_volume_scale m)
  else if String.eqb name "CONSTANT_RGBA" then option_map AnyVec4u8 (pm_constant_rgba m)
  else if String.eqb name "BATCH_LENGTH" then Some (AnyOptionUsize (pm_batch_length m))
  else None.
