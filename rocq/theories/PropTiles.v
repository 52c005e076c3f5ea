(* Theorems about 3D Tiles: tilesets, tables, metadata. *)
From Coq Require Import String List ZArith Lia Bool Arith SpecFloat.
From Verif Require Import Base LayoutModel NumModel MathModel MathSpec PntsModel PntsExamples TilesModel TilesSpec TilesProofs2 TilesProofs3 TilesProofs4 TilesProofs5 TilesProofs6 TilesExamples.
Import ListNotations.
Local Open Scope string_scope.
Open Scope nat_scope.
Local Open Scope list_scope.

(* ---- C78: a tileset that is written as JSON is read back ---- *)
(* the tree of values *)
Theorem C78_tileset_survives : forall t, tileset_ok t -> tileset_of_json (json_of_tileset t) = Ok t.
Proof. exact tileset_survives. Qed.
Print Assumptions C78_tileset_survives.
Example C78_tileset_example : tileset_ok ex_tiles /\ tileset_of_json (json_of_tileset ex_tiles) = Ok ex_tiles /\ height ex_tiles = 2.
Proof. split; [exact ex_tiles_ok|]. split; [apply tileset_survives, ex_tiles_ok|reflexivity]. Qed.
(* the text of the whole file: within the recursion limit of the parser *)
Theorem C78_root_text_survives_partial : forall c reread limit t, prints_and_parses c reread limit -> root_ok t -> 2 * height (rt_root t) + 5 <= limit ->
  exists v t', json_parse c (json_text c (json_of_root t)) = Some v /\ root_of_json v = Ok t' /\ root_as reread t t'.
Proof. exact root_text_survives. Qed.
Print Assumptions C78_root_text_survives_partial.
Example C78_root_text_example : prints_and_parses (tree_codec 127) ex_reread 127 /\ root_ok ex_root /\ 2 * height (rt_root ex_root) + 5 <= 127.
Proof. split; [apply tree_codec_ok|]. split; [exact ex_root_ok|cbn; lia]. Qed.
(* a chain of tilesets deeper than the limit is written but cannot be read *)
Theorem C78_deep_refuted : forall c limit, rejects_deeper c limit -> exists t, tileset_ok t /\ json_parse c (json_text c (json_of_tileset t)) = None.
Proof. exact deep_lost. Qed.
Print Assumptions C78_deep_refuted.
Example C78_deep_example : rejects_deeper (tree_codec 127) 127 /\ json_parse (tree_codec 127) (json_text (tree_codec 127) (json_of_tileset (chain 3))) <> None.
Proof. split; [apply tree_codec_limit|]. vm_compute. discriminate. Qed.
(* the builder accepts an infinite geometric error or NaN, and such a tileset cannot be read *)
Theorem C78_infinite_refuted : exists e t, build [CError e] = Ok t /\ tileset_of_json (json_of_tileset t) = Err.
Proof. exact infinite_accepted. Qed.
Print Assumptions C78_infinite_refuted.
Theorem C78_not_finite_lost : forall e calls t, ~ finite e -> lt f64_cmp e f64_zero = false -> build (calls ++ [CError e]) = Ok t ->
  tileset_of_json (json_of_tileset t) = Err.
Proof. exact infinite_lost. Qed.
Print Assumptions C78_not_finite_lost.
Example C78_infinite_example : ~ finite S754_nan /\ lt f64_cmp S754_nan f64_zero = false /\ exists t, build ([CRefine Add] ++ [CError S754_nan]) = Ok t.
Proof. split; [intros []|]. split; [reflexivity|]. eexists. reflexivity. Qed.

(* what a bounding volume is made of is what its accessors return, also after writing and reading *)
Theorem C78_region_survives : forall w s e n lo hi, Forall finite [w; s; e; n; lo; hi] ->
  exists r, volume_of_json (json_of_volume (Region (region_new w s e n lo hi))) = Ok (Region r)
    /\ region_west f64_zero r = w /\ region_south f64_zero r = s /\ region_east f64_zero r = e /\ region_north f64_zero r = n
    /\ region_min_height f64_zero r = lo /\ region_max_height f64_zero r = hi.
Proof. exact region_back. Qed.
Print Assumptions C78_region_survives.
Theorem C78_box_survives : forall c x y z, Forall finite_point [c; x; y; z] ->
  exists b, volume_of_json (json_of_volume (Box (box_new c x y z))) = Ok (Box b)
    /\ box_center f64_zero b = c /\ box_x f64_zero b = x /\ box_y f64_zero b = y /\ box_z f64_zero b = z.
Proof. exact box_back. Qed.
Print Assumptions C78_box_survives.
Theorem C78_sphere_survives : forall c r, finite_point c -> finite r ->
  exists s, volume_of_json (json_of_volume (Sphere (sphere_new c r))) = Ok (Sphere s) /\ sphere_center f64_zero s = c /\ sphere_radius f64_zero s = r.
Proof. exact sphere_back. Qed.
Print Assumptions C78_sphere_survives.
Example C78_volumes_example : Forall finite [one; two; one; one; two; two] /\ Forall finite_point [mk_p3 one two one; mk_p3 two one one; mk_p3 one one two; mk_p3 two two one].
Proof. split; repeat constructor. Qed.

Example C78_default_asset : json_of_asset asset_default = JObj [("version", JText "1.0")] /\ asset_of_json (json_of_asset asset_default) = Ok asset_default.
Proof. split; reflexivity. Qed.

(* any other JSON value is an error or a tileset whose arrays have the right lengths; reading never panics *)
Theorem C78_any_json : forall v, root_of_json v = Err \/ exists t, root_of_json v = Ok t /\ tileset_shaped (rt_root t).
Proof. exact any_json. Qed.
Print Assumptions C78_any_json.
Example C78_any_json_example : root_of_json (JObj [("asset", JNull)]) = Err /\ exists t, root_of_json (json_of_root ex_root) = Ok t.
Proof. split; [reflexivity|]. eexists. vm_compute. reflexivity. Qed.

(* ---- C79: the builder ---- *)
Theorem C79_builder : forall calls, Forall (fun c => match c with CError e => lt f64_cmp e f64_zero = false | _ => True end) calls ->
  build calls = Ok (mk_ts (finish f64_zero (last_of errors calls)) (last_of refinements calls) (finish (Region (repeat f64_zero 6)) (last_of volumes calls))
    (last_of requests calls) (last_of contents calls) (last_of transforms_set calls) (flat_map children_added calls)).
Proof. exact build_ok. Qed.
Print Assumptions C79_builder.
Example C79_builder_example : exists t, build [CError two; CChild ex_tiles; CVolume (Sphere [one; one; one; one]); CChildren [ex_tiles; leaf "a" (Region [])]; CError one] = Ok t
  /\ ts_error t = one /\ List.length (ts_children t) = 3.
Proof. eexists. split; [reflexivity|]. split; reflexivity. Qed.
Theorem C79_negative_panics : forall calls, Exists (fun c => match c with CError e => lt f64_cmp e f64_zero = true | _ => False end) calls -> build calls = Panic.
Proof. exact build_panics. Qed.
Print Assumptions C79_negative_panics.
Example C79_negative_example : lt f64_cmp (S754_finite true 1 0) f64_zero = true /\ build [CRefine Add; CError (S754_finite true 1 0); CError one] = Panic.
Proof. split; reflexivity. Qed.

(* ---- C81: table headers ---- *)
Theorem C81_batch_table : forall c reread limit h p rest size, prints_and_parses c reread limit -> 2 <= limit -> bt_printable limit h ->
  let blob := ser_batch_table_header c h p in
  let text := json_text c (JObj (map (fun e => (fst e, json_of_bt_entry (snd e))) h)) in
  (p + List.length blob) mod 8 = 0 /\ List.length text <= List.length blob
  /\ (List.length text <= size <= List.length blob ->
      exists h', deser_batch_table_header c (blob ++ rest) size p = Ok (h', List.length blob) /\ same_keys (map_entry (reparsed reread)) h h').
Proof. exact batch_table_survives. Qed.
Print Assumptions C81_batch_table.
Example C81_batch_example : prints_and_parses (tree_codec 127) ex_reread 127 /\ bt_printable 4 ex_bt
  /\ exists h', deser_batch_table_header (tree_codec 127) (ser_batch_table_header (tree_codec 127) ex_bt 28 ++ [1; 2]%Z) 84 28 = Ok (h', 84).
Proof. split; [apply tree_codec_ok|]. split; [exact ex_bt_printable|]. eexists. vm_compute. reflexivity. Qed.
(* the reader of the feature table stops after the given number of bytes *)
Theorem C81_feature_table_partial : forall c reread limit h p rest size, prints_and_parses c reread limit -> 2 <= limit -> ft_printable limit h ->
  Forall (fun e => ft_plain (snd e)) h ->
  let blob := ser_feature_table_header c h p in
  let text := json_text c (JObj (map (fun e => (fst e, json_of_ft_value (snd e))) h)) in
  (p + List.length blob) mod 8 = 0 /\ List.length text <= List.length blob
  /\ (List.length text <= size <= List.length blob ->
      exists h', deser_feature_table c (blob ++ rest) size p = Ok (h', size) /\ same_keys (map_ft_entry (reparsed reread)) h h').
Proof. exact feature_table_survives. Qed.
Print Assumptions C81_feature_table_partial.
Example C81_feature_example : ft_printable 4 ex_ft /\ Forall (fun e => ft_plain (snd e)) ex_ft.
Proof. split; [exact ex_ft_printable|exact ex_ft_plain]. Qed.
(* with the length of the text it stops before the padding, so that it is not at the body of the table *)
Theorem C81_stops_early_refuted : forall c reread limit h p rest, prints_and_parses c reread limit -> 2 <= limit -> ft_printable limit h ->
  Forall (fun e => ft_plain (snd e)) h ->
  let blob := ser_feature_table_header c h p in
  let text := json_text c (JObj (map (fun e => (fst e, json_of_ft_value (snd e))) h)) in
  List.length text < List.length blob ->
  exists h' n, deser_feature_table c (blob ++ rest) (List.length text) p = Ok (h', n) /\ n < List.length blob.
Proof. exact stops_early. Qed.
Print Assumptions C81_stops_early_refuted.
Example C81_stops_early_example : let c := tree_codec 127 in
  List.length (json_text c (JObj (map (fun e => (fst e, json_of_ft_value (snd e))) ex_ft))) < List.length (ser_feature_table_header c ex_ft 28).
Proof. vm_compute. lia. Qed.
(* a single value that is an array comes back as another kind of entry *)
Theorem C81_single_array_refuted : forall c reread limit p rest l, prints_and_parses c reread limit -> Forall keys_unique l -> depth (JArr l) < limit ->
  let h := [("X", SingleValue (JArr l))] in let blob := ser_feature_table_header c h p in
  exists l', deser_feature_table_header c (blob ++ rest) (List.length blob) = Ok [("X", ArrayValue l')].
Proof. exact single_array_changed. Qed.
Print Assumptions C81_single_array_refuted.
Example C81_single_array_example : Forall keys_unique [JInt 1; JInt 2] /\ depth (JArr [JInt 1; JInt 2]) < 127.
Proof. split; [repeat constructor|cbn; lia]. Qed.

(* ---- C82: metadata of a PNTS file ---- *)
Theorem C82_metadata_partial : forall h m, metadata_of_table h = Ok m ->
  pm_number_of_points m = unsigned (assoc "POINTS_LENGTH" h) /\ pm_bounds m = None
  /\ (forall name, name <> "BATCH_LENGTH" -> pm_named_field m name = stated_field h name)
  /\ pm_named_field m "BATCH_LENGTH" = Some (AnyOptionUsize (unsigned (assoc "BATCH_LENGTH" h))).
Proof. exact metadata_fields. Qed.
Print Assumptions C82_metadata_partial.
Example C82_metadata_example : exists m, metadata_of_table ex_ft = Ok m /\ pm_number_of_points m = Some 5
  /\ pm_named_field m "RTC_CENTER" = Some (AnyVec3f64 (mk_p3 one two two)) /\ pm_named_field m "CONSTANT_RGBA" = Some (AnyVec4u8 [1; 2; 3; 255]%Z)
  /\ pm_named_field m "QUANTIZED_VOLUME_SCALE" = None.
Proof. eexists. split; [vm_compute; reflexivity|]. repeat split. Qed.
Theorem C82_metadata_exists : forall h, (exists m, metadata_of_table h = Ok m) <-> table_ok h.
Proof. exact metadata_iff. Qed.
Print Assumptions C82_metadata_exists.
Theorem C82_reader_metadata : forall c bytes r, from_read c bytes = Ok r -> exists size h m,
  deser_feature_table_header c (skipn HEADER_LENGTH bytes) size = Ok h /\ metadata_of_table h = Ok m
  /\ pm_number_of_points m = Some (pr_num r) /\ pm_named_field m "RTC_CENTER" = option_map AnyVec3f64 (pr_rtc r).
Proof. exact reader_metadata. Qed.
Print Assumptions C82_reader_metadata.
Example C82_reader_example : from_read ex_codec t_file = Ok t_reader.
Proof. exact (proj2 (proj2 (proj2 t_runs))). Qed.
(* the batch length is there even if the table does not state it *)
Theorem C82_batch_length_refuted : exists h m, metadata_of_table h = Ok m /\ assoc "BATCH_LENGTH" h = None /\ pm_named_field m "BATCH_LENGTH" <> None.
Proof. exact batch_length_field. Qed.
Print Assumptions C82_batch_length_refuted.
