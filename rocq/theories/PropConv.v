(* Property theorems C26 to C29 (conversions between attribute types and layouts), C66 (converting views) and C67 (convert_into). *)
From Coq Require Import String List ZArith Lia Bool Arith.
From Verif Require Import Base LayoutModel LayoutSpec LayoutProofs BufferModel BufferSpec ListLemmas BufferProofs
  BufferSteps TraitModel TraitSpec TraitProofs2 BufferFacts BufferExamples NumModel ConvModel ConvSpec ConvProofs5.
Import ListNotations.
Open Scope nat_scope.

(* ---- C26 ---- *)
(* a converter between any two different scalar types and any two different 3-vector types, which computes the value *)
Theorem C26_converter_exists :
  forall a b, ad_name a = ad_name b -> ad_type a <> ad_type b -> supported (ad_type a) (ad_type b) ->
  exists c, get_converter_for_attributes a b = Ok (Some c)
    /\ forall v dst, length dst = dt_size (ad_type b) -> value_as (ad_type a) (ad_type b) v = Some (conv_into c v dst).
Proof. exact converter_spec. Qed.
Print Assumptions C26_converter_exists.

Theorem C26_equal_types_need_no_converter :
  forall a b, ad_name a = ad_name b -> ad_type a = ad_type b -> get_converter_for_attributes a b = Ok None.
Proof. exact converter_none. Qed.
Print Assumptions C26_equal_types_need_no_converter.

Theorem C26_other_pairs_panic :
  forall a b, ad_name a <> ad_name b \/ (ad_type a <> ad_type b /\ ~ supported (ad_type a) (ad_type b)) ->
  get_converter_for_attributes a b = Panic.
Proof. exact converter_panics. Qed.
Print Assumptions C26_other_pairs_panic.

Theorem C26_existence_is_symmetric :
  forall a b, is_ok (get_converter_for_attributes a b) = true <-> is_ok (get_converter_for_attributes b a) = true.
Proof. exact converter_symmetric. Qed.
Print Assumptions C26_existence_is_symmetric.

Example C26_nonvacuous :
  let a := mk_def "x" I16 in let b := mk_def "x" F64 in
  ad_name a = ad_name b /\ ad_type a <> ad_type b /\ supported (ad_type a) (ad_type b)
  /\ value_as I16 F64 [254%Z; 255%Z] = Some [0; 0; 0; 0; 0; 0; 0; 192]%Z
  /\ supported Vec3u16 Vec3f32 /\ ~ supported U8 Vec3u8 /\ ~ supported Vec4u8 U32.
Proof.
  cbv zeta. split; [reflexivity|]. split; [discriminate|]. split; [left; split; discriminate|]. split; [vm_compute; reflexivity|].
  split; [right; split; discriminate|]. unfold supported. simpl. intuition congruence.
Qed.

(* ---- C27 ---- *)
(* which converters can be built; every other request panics *)
Theorem C27_converters_that_can_be_built :
  forall strict from to calls, good_layout from -> good_layout to ->
  ((exists c, build strict from to calls = Ok c) <-> (layouts_ok strict from to /\ Forall (call_ok from to) calls))
  /\ ((forall c, build strict from to calls <> Ok c) -> build strict from to calls = Panic).
Proof. exact build_iff. Qed.
Print Assumptions C27_converters_that_can_be_built.

(* convert into a new VectorBuffer, from any source buffer or slice, interleaved or columnar *)
Theorem C27_convert_to_vector_buffer :
  forall strict from to calls c sb,
  good_layout from -> good_layout to -> Forall typed calls -> build strict from to calls = Ok c -> bf_wf sb -> bf_layout sb = from ->
  exists tb', convert_vec c sb = Ok tb' /\ mb_wf tb' /\ mb_layout tb' = to /\ mb_len tb' = bf_len sb
    /\ forall i p, nth_error (bf_points sb) i = Some p ->
         exists r', nth_error (mb_points tb') i = Some r'
           /\ (forall tm, In tm (l_attrs to) -> converted from calls tm p (repeat 0%Z (m_size tm)) = Some (attr_value tm r'))
           /\ (forall q, q < l_size to -> (forall tm, In tm (l_attrs to) -> q < m_offset tm \/ m_offset tm + m_size tm <= q) ->
                nth_error r' q = Some 0%Z).
Proof. exact convert_vec_ok. Qed.
Print Assumptions C27_convert_to_vector_buffer.

Theorem C27_convert_to_columnar_buffer :
  forall strict from to calls c sb,
  good_layout from -> good_layout to -> Forall typed calls -> build strict from to calls = Ok c -> bf_wf sb -> bf_layout sb = from ->
  exists tb', convert_map c sb = Ok tb' /\ mb_wf tb' /\ mb_layout tb' = to /\ mb_len tb' = bf_len sb
    /\ forall i p, nth_error (bf_points sb) i = Some p ->
         exists r', nth_error (mb_points tb') i = Some r'
           /\ (forall tm, In tm (l_attrs to) -> converted from calls tm p (repeat 0%Z (m_size tm)) = Some (attr_value tm r'))
           /\ (forall q, q < l_size to -> (forall tm, In tm (l_attrs to) -> q < m_offset tm \/ m_offset tm + m_size tm <= q) ->
                nth_error r' q = Some 0%Z).
Proof. exact convert_map_ok. Qed.
Print Assumptions C27_convert_to_columnar_buffer.

(* two sources with the same points give two targets with the same points, whatever their memory layouts *)
Theorem C27_memory_layout_does_not_matter :
  forall strict from to calls c sb sb',
  good_layout from -> good_layout to -> Forall typed calls -> build strict from to calls = Ok c ->
  bf_wf sb -> bf_layout sb = from -> bf_wf sb' -> bf_layout sb' = from ->
  length (bf_points sb) = length (bf_points sb') ->
  (forall i m, In m (l_attrs from) -> attr_value m (nth i (bf_points sb) []) = attr_value m (nth i (bf_points sb') [])) ->
  exists tb tb', convert_vec c sb = Ok tb /\ convert_map c sb' = Ok tb' /\ mb_points tb = mb_points tb'.
Proof. exact convert_same. Qed.
Print Assumptions C27_memory_layout_does_not_matter.

(* intensity as u32, gps time as f32 and negated, classification taken from the intensity, a color that has no source *)
Definition conv_target : layout :=
  match from_attributes [with_custom_datatype GPS_TIME F32; COLOR_RGB; CLASSIFICATION; with_custom_datatype INTENSITY U32] with
  | Ok l => l | _ => layout_default end.
Definition flip_sign (v : list Z) : list Z := blit v 3 [((nth 3 v 0%Z + 128) mod 256)%Z].
Definition conv_calls : list call :=
  [Plain GPS_TIME CLASSIFICATION; Plain INTENSITY CLASSIFICATION;
   Transformed F32 GPS_TIME (with_custom_datatype GPS_TIME F32) flip_sign false].
Lemma conv_target_good : good_layout conv_target.
Proof.
  apply (grown_good [(with_custom_datatype GPS_TIME F32, Default); (COLOR_RGB, Default); (CLASSIFICATION, Default); (with_custom_datatype INTENSITY U32, Default)]).
  - vm_compute. reflexivity.
  - discriminate.
  - intros a fa [H|[H|[H|[H|[]]]]]; injection H as <- <-; vm_compute; lia.
Qed.
Lemma conv_calls_typed : Forall typed conv_calls.
Proof.
  repeat constructor. intros v L. change (length v = 4) in L. change (length (flip_sign v) = 4). unfold flip_sign. rewrite length_blit; simpl; lia.
Qed.
Example C27_nonvacuous :
  good_layout ex_layout /\ good_layout conv_target /\ Forall typed conv_calls
  /\ is_ok (build false ex_layout conv_target conv_calls) = true
  /\ build true ex_layout conv_target conv_calls = Panic
  /\ bf_wf (Of (VecB ex_vec)) /\ bf_wf (SliceB (Of (MapB ex_map)) 1 4)
  /\ (forall c, build false ex_layout conv_target conv_calls = Ok c ->
        match convert_vec c (SliceB (Of (MapB ex_map)) 1 4), convert_map c (SliceB (Of (VecB ex_vec)) 1 4) with
        | Ok a, Ok b => mb_points a = mb_points b /\ mb_len a = 3
             /\ (* intensity 25 + 26 * 256 = 6681, classification 6681 mod 256 *)
                map (fun p => sub p 12 4) (mb_points a) = [[25; 26; 0; 0]; [49; 50; 0; 0]; [73; 74; 0; 0]]%Z
             /\ map (fun p => sub p 10 1) (mb_points a) = [[25]; [49]; [73]]%Z
        | _, _ => False
        end).
Proof.
  split; [exact ex_layout_good|]. split; [exact conv_target_good|]. split; [exact conv_calls_typed|].
  split; [vm_compute; reflexivity|]. split; [vm_compute; reflexivity|]. split; [exact ex_vec_inv|].
  split; [split; [exact ex_map_inv|vm_compute; lia]|].
  intros c H. vm_compute in H. injection H as <-. vm_compute. auto.
Qed.

(* ---- C28 ---- *)
Theorem C28_convert_into_range_touches_only_the_range :
  forall strict from to calls c sb s e tb ts te,
  good_layout from -> good_layout to -> Forall typed calls -> build strict from to calls = Ok c ->
  bf_wf sb -> bf_layout sb = from -> mb_wf tb -> mb_layout tb = to ->
  s <= e -> e <= bf_len sb -> ts <= te -> te <= mb_len tb -> e - s = te - ts ->
  exists tb', convert_into_range c sb s e tb ts te = Ok tb' /\ converts from to calls sb s tb ts te tb'.
Proof. exact convert_into_range_ok. Qed.
Print Assumptions C28_convert_into_range_touches_only_the_range.

Theorem C28_convert_into_range_panics :
  forall strict from to calls c sb s e tb ts te, build strict from to calls = Ok c ->
  bf_layout sb <> from \/ mb_layout tb <> to \/ e - s <> te - ts \/ bf_len sb < e \/ mb_len tb < te ->
  convert_into_range c sb s e tb ts te = Panic.
Proof. exact convert_range_panics. Qed.
Print Assumptions C28_convert_into_range_panics.

(* points 1 and 2 of a slice of the columnar buffer into points 0 and 1 of a slice of a slice *)
Example C28_nonvacuous :
  exists c tb, build true ex_layout ex_layout [] = Ok c /\ bf_wf (SliceB (Of (MapB ex_map)) 1 5) /\ mb_wf ex_slice /\ mb_layout ex_slice = ex_layout
  /\ convert_into_range c (SliceB (Of (MapB ex_map)) 1 5) 1 2 ex_slice 1 2 = Ok tb
  /\ attr_value m_gps (nth 0 (mb_points tb) []) = attr_value m_gps (nth 2 (mb_points (VecB ex_vec)) [])
  /\ attr_value m_gps (nth 1 (mb_points tb) []) = attr_value m_gps (nth 2 (mb_points (VecB ex_vec)) [])
  /\ attr_value m_gps (nth 1 (mb_points ex_slice) []) = attr_value m_gps (nth 3 (mb_points (VecB ex_vec)) []).
Proof.
  eexists. eexists. split; [vm_compute; reflexivity|]. split; [split; [exact ex_map_inv|vm_compute; lia]|].
  split; [exact ex_slice_wf|]. split; [vm_compute; reflexivity|]. split; [vm_compute; reflexivity|]. vm_compute. auto.
Qed.

(* ---- C29 ---- *)
(* Attributes of different types are converted, everything else stays. Missing for the full property: attributes that have the same
   name and the same type are not copied (refuted below). *)
Theorem C29_raw_converter_partial :
  forall from to src tgt, good_layout from -> good_layout to -> length src = l_size from -> length tgt = l_size to ->
  (forall sm tm, In sm (l_attrs from) -> In tm (l_attrs to) -> m_name sm = m_name tm -> convertible (m_type sm) (m_type tm)) ->
  exists tgt', (let* c := raw_from_to from to in raw_convert c src tgt) = Ok tgt' /\ length tgt' = l_size to
    /\ (forall sm tm, In sm (l_attrs from) -> In tm (l_attrs to) -> m_name sm = m_name tm -> m_type sm <> m_type tm ->
          value_as (m_type sm) (m_type tm) (attr_value sm src) = Some (attr_value tm tgt'))
    /\ (forall tm, In tm (l_attrs to) -> (forall sm, In sm (l_attrs from) -> m_name sm = m_name tm -> m_type sm = m_type tm) ->
          attr_value tm tgt' = attr_value tm tgt)
    /\ (forall q, (forall tm, In tm (l_attrs to) -> q < m_offset tm \/ m_offset tm + m_size tm <= q) -> nth_error tgt' q = nth_error tgt q).
Proof. exact raw_converter_ok. Qed.
Print Assumptions C29_raw_converter_partial.

Theorem C29_every_common_attribute_is_transferred_refuted :
  exists from to src tgt tgt' sm tm, good_layout from /\ good_layout to /\ length src = l_size from /\ length tgt = l_size to
  /\ (forall sm tm, In sm (l_attrs from) -> In tm (l_attrs to) -> m_name sm = m_name tm -> convertible (m_type sm) (m_type tm))
  /\ (let* c := raw_from_to from to in raw_convert c src tgt) = Ok tgt'
  /\ In sm (l_attrs from) /\ In tm (l_attrs to) /\ m_name sm = m_name tm
  /\ value_as (m_type sm) (m_type tm) (attr_value sm src) <> Some (attr_value tm tgt').
Proof. exact raw_converter_skips. Qed.
Print Assumptions C29_every_common_attribute_is_transferred_refuted.

Example C29_nonvacuous :
  good_layout ex_layout /\ good_layout conv_target /\ length (sub ex_bytes 0 24) = l_size ex_layout
  /\ length (repeat 9%Z (l_size conv_target)) = l_size conv_target
  /\ (forall sm tm, In sm (l_attrs ex_layout) -> In tm (l_attrs conv_target) -> m_name sm = m_name tm -> convertible (m_type sm) (m_type tm))
  /\ exists t, (let* c := raw_from_to ex_layout conv_target in raw_convert c (sub ex_bytes 0 24) (repeat 9%Z (l_size conv_target))) = Ok t
       /\ sub t 12 4 = [1; 2; 0; 0]%Z /\ sub t 10 1 = [9]%Z.
Proof.
  split; [exact ex_layout_good|]. split; [exact conv_target_good|]. split; [reflexivity|]. split; [reflexivity|]. split.
  - intros sm tm Hs Ht HN. vm_compute in Hs, Ht.
    destruct Hs as [<-|[<-|[<-|[]]]], Ht as [<-|[<-|[<-|[<-|[]]]]]; try discriminate HN; try (now left); right; left; split; discriminate.
  - eexists. split; [vm_compute; reflexivity|]. vm_compute. auto.
Qed.

(* ---- C66 ---- *)
Theorem C66_converting_view_reads_the_converted_value :
  forall b m a t i p, bf_wf b -> In m (l_attrs (bf_layout b)) -> m_name m = ad_name a -> ad_type a = t ->
  convertible (m_type m) t -> nth_error (bf_points b) i = Some p ->
  exists v, converting_view_at b a t i = Ok v /\ value_as (m_type m) t (attr_value m p) = Some v.
Proof. exact converting_view_ok. Qed.
Print Assumptions C66_converting_view_reads_the_converted_value.

Theorem C66_converting_view_panics :
  forall b a t i, good_layout (bf_layout b) ->
  t <> ad_type a \/ (forall m, In m (l_attrs (bf_layout b)) -> m_name m <> ad_name a)
  \/ (exists m, In m (l_attrs (bf_layout b)) /\ m_name m = ad_name a /\ ~ convertible (m_type m) t) ->
  converting_view_at b a t i = Panic.
Proof. exact converting_view_panics. Qed.
Print Assumptions C66_converting_view_panics.

Example C66_nonvacuous :
  bf_wf (SliceB (Of (MapB ex_map)) 1 4) /\ In m_intensity (l_attrs ex_layout) /\ convertible (m_type m_intensity) I64
  /\ converting_view_at (SliceB (Of (MapB ex_map)) 1 4) (with_custom_datatype INTENSITY I64) I64 0 = Ok [25; 26; 0; 0; 0; 0; 0; 0]%Z.
Proof.
  split; [split; [exact ex_map_inv|vm_compute; lia]|]. split; [exact ex_intensity|]. split; [right; left; split; discriminate|vm_compute; reflexivity].
Qed.

(* ---- C67 ---- *)
(* A target of the same length gets the converted points; a shorter target panics. Missing: a longer target should panic according to the
   documentation, but does not (refuted below). *)
Theorem C67_convert_into_partial :
  forall strict from to calls c sb tb,
  good_layout from -> good_layout to -> Forall typed calls -> build strict from to calls = Ok c ->
  bf_wf sb -> bf_layout sb = from -> mb_wf tb -> mb_layout tb = to ->
  (mb_len tb < bf_len sb -> convert_into c sb tb = Panic)
  /\ (bf_len sb <= mb_len tb -> exists tb', convert_into c sb tb = Ok tb' /\ converts from to calls sb 0 tb 0 (bf_len sb) tb').
Proof. exact convert_into_ok. Qed.
Print Assumptions C67_convert_into_partial.

Theorem C67_convert_into_checks_the_length_refuted :
  exists from to c sb tb tb', build true from to [] = Ok c /\ bf_wf sb /\ bf_layout sb = from /\ mb_wf tb /\ mb_layout tb = to
  /\ mb_len tb <> bf_len sb /\ convert_into c sb tb = Ok tb'.
Proof. exact convert_into_longer. Qed.
Print Assumptions C67_convert_into_checks_the_length_refuted.
