(* Attribute converters, RawPointConverter, AttributeViewConverting and BufferLayoutConverter
   (pasture-core/src/layout/conversion/{attribute_conversion,buffer_conversion}.rs,
   pasture-core/src/containers/{buffer_views,raw_attribute_view,slice}.rs). Definitions only. *)
From Coq Require Import String List ZArith Bool Arith.
From Verif Require Import Base LayoutModel BufferModel TraitModel NumModel.
Import ListNotations.
Set Implicit Arguments.
Open Scope nat_scope.

(* ------------------------------------------------------------------ converters *)

(* AttributeConversionFn, attribute_conversion.rs:112: one of the instantiated functions *)
Inductive conv_fn : Type :=
| ConvScalar (from to : prim)
| ConvVec3 (from to : prim)
| ConvUnit.

(* Calling it: the bytes of the source value to the bytes of the target value (attribute_conversion.rs:297-345) *)
Definition conv_apply (c : conv_fn) (src : list Z) : list Z :=
  match c with
  | ConvScalar f t => convert_scalar_using_as f t src
  | ConvVec3 f t => convert_vec3_using_as f t src
  | ConvUnit => convert_unit src
  end.
(* converter(src, dst): the value is written through a pointer to the start of dst *)
Definition conv_into (c : conv_fn) (src dst : list Z) : list Z := blit dst 0 (conv_apply c src).

(* The rows of the table, attribute_conversion.rs:194-253 (scalars) *)
Definition scalar_rows : list (prim * prim * datatype * datatype) :=
  [ (PU8, PU16, U8, U16); (PU8, PU32, U8, U32); (PU8, PU64, U8, U64); (PU8, PI8, U8, I8); (PU8, PI16, U8, I16);
    (PU8, PI32, U8, I32); (PU8, PI64, U8, I64); (PU8, PF32, U8, F32); (PU8, PF64, U8, F64);
    (PU16, PU32, U16, U32); (PU16, PU64, U16, U64); (PU16, PI8, U16, I8); (PU16, PI16, U16, I16);
    (PU16, PI32, U16, I32); (PU16, PI64, U16, I64); (PU16, PF32, U16, F32); (PU16, PF64, U16, F64);
    (PU32, PU64, U32, U64); (PU32, PI8, U32, I8); (PU32, PI16, U32, I16); (PU32, PI32, U32, I32);
    (PU32, PI64, U32, I64); (PU32, PF32, U32, F32); (PU32, PF64, U32, F64);
    (PU64, PI8, U64, I8); (PU64, PI16, U64, I16); (PU64, PI32, U64, I32); (PU64, PI64, U64, I64);
    (PU64, PF32, U64, F32); (PU64, PF64, U64, F64);
    (PI8, PI16, I8, I16); (PI8, PI32, I8, I32); (PI8, PI64, I8, I64); (PI8, PF32, I8, F32); (PI8, PF64, I8, F64);
    (PI16, PI32, I16, I32); (PI16, PI64, I16, I64); (PI16, PF32, I16, F32); (PI16, PF64, I16, F64);
    (PI32, PI64, I32, I64); (PI32, PF32, I32, F32); (PI32, PF64, I32, F64);
    (PI64, PF32, I64, F32); (PI64, PF64, I64, F64);
    (PF32, PF64, F32, F64) ].
(* attribute_conversion.rs:255-267 (vectors) *)
Definition vec3_rows : list (prim * prim * datatype * datatype) :=
  [ (PF32, PF64, Vec3f32, Vec3f64);
    (PU8, PU16, Vec3u8, Vec3u16); (PU8, PI32, Vec3u8, Vec3i32); (PU8, PF32, Vec3u8, Vec3f32); (PU8, PF64, Vec3u8, Vec3f64);
    (PU16, PI32, Vec3u16, Vec3i32); (PU16, PF32, Vec3u16, Vec3f32); (PU16, PF64, Vec3u16, Vec3f64);
    (PI32, PF32, Vec3i32, Vec3f32); (PI32, PF64, Vec3i32, Vec3f64) ].

(* HashMap keyed by (from, to): get and insert (asserting that the key is new, attribute_conversion.rs:137-155) *)
Definition conv_table : Type := list ((datatype * datatype) * conv_fn).
Definition table_get (t : conv_table) (from to : datatype) : option conv_fn :=
  option_map snd (find (fun e => datatype_eqb (fst (fst e)) from && datatype_eqb (snd (fst e)) to) t).
Definition table_insert_new (t : conv_table) (from to : datatype) (c : conv_fn) : res conv_table :=
  match table_get t from to with Some _ => Panic | None => Ok (((from, to), c) :: t) end.
(* insert_scalar_converter_using_as!, attribute_conversion.rs:134-156 *)
Definition insert_scalar_row (t : conv_table) (r : prim * prim * datatype * datatype) : res conv_table :=
  let '(pf, pt, d, d') := r in
  let* t := table_insert_new t d d' (ConvScalar pf pt) in
  table_insert_new t d' d (ConvScalar pt pf).
(* insert_vec3_converter_using_as!, attribute_conversion.rs:158-180 *)
Definition insert_vec3_row (t : conv_table) (r : prim * prim * datatype * datatype) : res conv_table :=
  let '(pf, pt, d, d') := r in
  let* t := table_insert_new t d d' (ConvVec3 pf pt) in
  table_insert_new t d' d (ConvVec3 pt pf).
(* GENERIC_CONVERTERS, attribute_conversion.rs:188-270 *)
Definition generic_converters : res conv_table :=
  let* t := foldM insert_scalar_row scalar_rows [] in foldM insert_vec3_row vec3_rows t.

(* get_generic_converter, attribute_conversion.rs:184-277 *)
Definition get_generic_converter (from to : datatype) : res (option conv_fn) :=
  let* t := generic_converters in
  let* f := unwrap (table_get t from to) in
  Ok (Some f).

(* get_converter_for_attributes, attribute_conversion.rs:122-132 *)
Definition get_converter_for_attributes (from to : attr_def) : res (option conv_fn) :=
  let* _ := assert (String.eqb (ad_name from) (ad_name to)) in
  if datatype_eqb (ad_type from) (ad_type to) then Ok None
  else get_generic_converter (ad_type from) (ad_type to).

(* ------------------------------------------------------------------ RawPointConverter *)

(* RawAttributeConverter, attribute_conversion.rs:25-49: function, source range, target range (start, end) *)
Record raw_attr_conv : Type := mk_rac { rac_fn : conv_fn; rac_src : nat * nat; rac_tgt : nat * nat }.

(* RawPointConverter::from_to, attribute_conversion.rs:69-97 *)
Definition raw_from_to (from to : layout) : res (list raw_attr_conv) :=
  let present := filter (fun m => has_attribute_with_name to (m_name m)) (l_attrs from) in
  let* cs := mapM (fun m =>
               let* tm := unwrap (get_attribute_by_name to (m_name m)) in
               let* c := get_converter_for_attributes (m_def m) (m_def tm) in
               Ok (match c with
                   | Some f => [mk_rac f (m_offset m, m_offset m + m_size m) (m_offset tm, m_offset tm + m_size tm)]
                   | None => []
                   end)) present in
  Ok (concat cs).
(* RawAttributeConverter::convert, attribute_conversion.rs:52-57 *)
Definition rac_convert (c : raw_attr_conv) (src tgt : list Z) : res (list Z) :=
  let* s := slice_get src (fst (rac_src c)) (snd (rac_src c)) in
  let* t := slice_get tgt (fst (rac_tgt c)) (snd (rac_tgt c)) in
  Ok (blit tgt (fst (rac_tgt c)) (conv_into (rac_fn c) s t)).
(* RawPointConverter::convert, attribute_conversion.rs:105-109: the new content of target_point *)
Definition raw_convert (cs : list raw_attr_conv) (src tgt : list Z) : res (list Z) :=
  foldM (fun t c => rac_convert c src t) cs tgt.

(* ------------------------------------------------------------------ AttributeViewConverting *)

(* AttributeViewConverting::new for the Rust type with datatype t, buffer_views.rs:533-558 *)
Definition converting_view (l : layout) (a : attr_def) (t : datatype) : res (member * conv_fn) :=
  let* _ := assert (datatype_eqb t (ad_type a)) in
  let* m := unwrap (get_attribute_by_name l (ad_name a)) in
  let* c := (if datatype_eqb (m_type m) t then Ok ConvUnit
             else let* o := get_converter_for_attributes (m_def m) (with_custom_datatype a t) in
                  match o with Some c => Ok c | None => Err end) in
  Ok (m, c).
(* AttributeViewConverting::at, buffer_views.rs:561-577 *)
Definition converting_view_at (b : buffer) (a : attr_def) (t : datatype) (i : nat) : res (list Z) :=
  let* '(m, c) := converting_view (bf_layout b) a t in
  let* v := bf_get_attribute_unchecked b m i (repeat 0%Z (m_size m)) in
  Ok (conv_into c v (repeat 0%Z (dt_size t))).

(* ------------------------------------------------------------------ references into buffers *)

(* get_attribute_range_ref of columnar buffers, point_buffer.rs:1354-1367, slice.rs:173-186, 371-377, 604-616, 695-707;
   other buffers have no such method (Err) *)
Fixpoint mb_get_attribute_range_ref (b : mbuf) (a : attr_def) (i j : nat) : res (list Z) :=
  match b with
  | MapB h => hb_get_attribute_range_ref h a i j
  | SliceMutB b s e => let* g := slice_mut_range s e i j in mb_get_attribute_range_ref b a (fst g) (snd g)
  | _ => Err
  end.
Fixpoint bf_get_attribute_range_ref (b : buffer) (a : attr_def) (i j : nat) : res (list Z) :=
  match b with
  | Of m => mb_get_attribute_range_ref m a i j
  | SliceB b s e => let* g := slice_range s e i j in bf_get_attribute_range_ref b a (fst g) (snd g)
  end.
(* get_point_range_ref of interleaved buffers, point_buffer.rs:799-804, 1631-1642, slice.rs:151-158, 338-346 *)
Fixpoint mb_get_point_range_ref (b : mbuf) (i j : nat) : res (list Z) :=
  match b with
  | VecB v => vb_get_point_range_ref v i j
  | ExtB e => slice_get (eb_mem e) (i * eb_psize e) (j * eb_psize e)
  | MapB _ => Err
  | SliceMutB b s e => let* g := slice_mut_range s e i j in mb_get_point_range_ref b (fst g) (snd g)
  end.
Fixpoint bf_get_point_range_ref (b : buffer) (i j : nat) : res (list Z) :=
  match b with
  | Of m => mb_get_point_range_ref m i j
  | SliceB b s e => let* g := slice_range s e i j in bf_get_point_range_ref b (fst g) (snd g)
  end.
(* get_attribute_range_mut with f applied to the memory: point_buffer.rs:1389-1403, slice.rs:404-419 *)
Fixpoint mb_modify_attribute_range (b : mbuf) (a : attr_def) (i j : nat) (f : list Z -> res (list Z)) : res mbuf :=
  match b with
  | MapB h =>
      let* c := hb_column h a in
      let* p := slice_get c (i * ad_size a) (j * ad_size a) in
      let* p' := f p in
      Ok (MapB (hb_with_map h (hm_set (hb_map h) a (blit c (i * ad_size a) p'))))
  | SliceMutB b s e =>
      let* g := slice_mut_range s e i j in
      let* b := mb_modify_attribute_range b a (fst g) (snd g) f in Ok (SliceMutB b s e)
  | _ => Err
  end.
(* get_point_range_mut with f applied to the memory: point_buffer.rs:819-825, 1644-1654, slice.rs:362-368 *)
Fixpoint mb_modify_point_range (b : mbuf) (i j : nat) (f : list Z -> res (list Z)) : res mbuf :=
  match b with
  | VecB v =>
      let* p := slice_get (vb_storage v) (i * vb_psize v) (j * vb_psize v) in
      let* p' := f p in
      Ok (VecB (vb_with_storage v (blit (vb_storage v) (i * vb_psize v) p')))
  | ExtB e =>
      let* p := slice_get (eb_mem e) (i * eb_psize e) (j * eb_psize e) in
      let* p' := f p in
      Ok (ExtB (eb_with_mem e (blit (eb_mem e) (i * eb_psize e) p')))
  | MapB _ => Err
  | SliceMutB b s e =>
      let* g := slice_mut_range s e i j in
      let* b := mb_modify_point_range b (fst g) (snd g) f in Ok (SliceMutB b s e)
  end.

(* as_columnar / as_columnar_mut is Some, point_buffer.rs:857-865, 1425-1433, 1675-1683; for slices slice.rs:508-516,
   622-636, 709-716, 829-843. A plain BufferSlice / BufferSliceMut answers None here and to as_interleaved, so converting it panics;
   the model covers the slices obtained with slice() of an interleaved or columnar buffer, which answer like the buffer. *)
Fixpoint mb_is_columnar (b : mbuf) : bool :=
  match b with MapB _ => true | SliceMutB b _ _ => mb_is_columnar b | _ => false end.
Fixpoint bf_is_columnar (b : buffer) : bool :=
  match b with Of m => mb_is_columnar m | SliceB b _ _ => bf_is_columnar b end.

(* slice::chunks_exact(n) / chunks_exact_mut(n): panics for n = 0 *)
Definition chunks_exact (n : nat) (bytes : list Z) : res (list (list Z)) :=
  let* _ := assert (negb (Nat.eqb n 0)) in Ok (as_points n bytes).
(* for (k, chunk) in data.chunks_exact_mut(n).enumerate().take(limit) { chunk = f k chunk } *)
Definition for_chunks_mut (n limit : nat) (f : nat -> list Z -> res (list Z)) (data : list Z) : res (list Z) :=
  let* cs := chunks_exact n data in
  foldM (fun d k =>
           let* c := slice_get d (k * n) ((k + 1) * n) in
           let* c' := f k c in
           Ok (blit d (k * n) c'))
        (range 0 (Nat.min limit (length cs))) data.
(* RawAttributeView::index, raw_attribute_view.rs:66-72: point_data, offset, stride, size, index *)
Definition raw_view_index (data : list Z) (offset stride size i : nat) : res (list Z) :=
  slice_get data (offset + stride * i) (offset + stride * i + size).
(* RawAttributeViewMut::index_mut with the chunk replaced by f chunk, raw_attribute_view.rs:132-139 *)
Definition raw_view_update (data : list Z) (offset stride size i : nat) (f : list Z -> res (list Z)) : res (list Z) :=
  let* c := slice_get data (offset + stride * i) (offset + stride * i + size) in
  let* c' := f c in
  Ok (blit data (offset + stride * i) c').

(* ------------------------------------------------------------------ BufferLayoutConverter *)

(* Transformation, buffer_conversion.rs:34-37. to_untyped_transform_fn (17-32) overwrites the bytes of a T with the bytes of the
   result, so func is a function on bytes. *)
Record transformation : Type := mk_tf { tf_func : list Z -> list Z; tf_source : bool }.
(* AttributeMapping, buffer_conversion.rs:42-47 *)
Record mapping : Type := mk_mapping { mp_tgt : member; mp_src : member; mp_conv : option conv_fn; mp_tf : option transformation }.
(* BufferLayoutConverter, buffer_conversion.rs:98-102 *)
Record converter : Type := mk_converter { cv_from : layout; cv_to : layout; cv_maps : list mapping }.

(* make_default_mapping, buffer_conversion.rs:370-400 *)
Definition make_default_mapping (from to : member) : res mapping :=
  if datatype_eqb (m_type from) (m_type to) then Ok (mk_mapping to from None None)
  else let* o := get_generic_converter (m_type from) (m_type to) in
       let* c := unwrap o in
       Ok (mk_mapping to from (Some c) None).
(* make_transformed_mapping, buffer_conversion.rs:408-420 *)
Definition make_transformed_mapping (from to : member) (f : list Z -> list Z) (source : bool) : res mapping :=
  let* mp := make_default_mapping from to in
  Ok (mk_mapping (mp_tgt mp) (mp_src mp) (mp_conv mp) (Some (mk_tf f source))).

(* for_layouts, buffer_conversion.rs:112-122 *)
Definition for_layouts (from to : layout) : res converter :=
  let* ms := mapM (fun ta =>
               let* fa := unwrap (get_attribute_by_name from (m_name ta)) in
               make_default_mapping fa ta) (l_attrs to) in
  Ok (mk_converter from to ms).
(* for_layouts_with_default, buffer_conversion.rs:126-145 *)
Definition for_layouts_with_default (from to : layout) : res converter :=
  let* ms := mapM (fun ta =>
               match get_attribute_by_name from (m_name ta) with
               | Some fa => let* mp := make_default_mapping fa ta in Ok [mp]
               | None => Ok []
               end) (l_attrs to) in
  Ok (mk_converter from to (concat ms)).

(* replace the first mapping whose target is `to`, or push (buffer_conversion.rs:170-183, 215-236) *)
Fixpoint replace_mapping (ms : list mapping) (to : attr_def) (mp : mapping) : option (list mapping) :=
  match ms with
  | [] => None
  | m :: ms' => if attr_def_eqb (m_def (mp_tgt m)) to then Some (mp :: ms')
                else option_map (cons m) (replace_mapping ms' to mp)
  end.
Definition put_mapping (ms : list mapping) (to : attr_def) (mp : mapping) : list mapping :=
  match replace_mapping ms to mp with Some ms' => ms' | None => ms ++ [mp] end.
(* set_custom_mapping, buffer_conversion.rs:156-184 *)
Definition set_custom_mapping (c : converter) (from to : attr_def) : res converter :=
  let* fm := unwrap (get_attribute (cv_from c) from) in
  let* tm := unwrap (get_attribute (cv_to c) to) in
  let* mp := make_default_mapping fm tm in
  Ok (mk_converter (cv_from c) (cv_to c) (put_mapping (cv_maps c) to mp)).
(* set_custom_mapping_with_transformation for a function on the type with datatype t, buffer_conversion.rs:194-238 *)
Definition set_custom_mapping_with_transformation (c : converter) (t : datatype) (from to : attr_def)
           (f : list Z -> list Z) (source : bool) : res converter :=
  let* fm := unwrap (get_attribute (cv_from c) from) in
  let* tm := unwrap (get_attribute (cv_to c) to) in
  let* _ := (if source then assert (datatype_eqb t (m_type fm)) else assert (datatype_eqb t (m_type tm))) in
  let* mp := make_transformed_mapping fm tm f source in
  Ok (mk_converter (cv_from c) (cv_to c) (put_mapping (cv_maps c) to mp)).

(* The buffers of a conversion step: source buffer and range, target range *)
(* convert_columnar_to_columnar for one mapping, buffer_conversion.rs:428-487 *)
Definition convert_cc (mp : mapping) (sb : buffer) (s e : nat) (tb : mbuf) (ts te : nat) : res mbuf :=
  let sm := mp_src mp in let tm := mp_tgt mp in
  let* sdata := bf_get_attribute_range_ref sb (m_def sm) s e in
  match mp_conv mp with
  | Some c =>
      mb_modify_attribute_range tb (m_def tm) ts te (fun tdata =>
        let* schunks := chunks_exact (m_size sm) sdata in
        for_chunks_mut (m_size tm) (length schunks) (fun k tchunk =>
          let* schunk := unwrap (nth_error schunks k) in
          match mp_tf mp with
          | Some tf =>
              if tf_source tf
              then let* tmp := copy_from_slice (repeat 0%Z (m_size sm)) schunk in
                   Ok (conv_into c (tf_func tf tmp) tchunk)
              else Ok (tf_func tf (conv_into c schunk tchunk))
          | None => Ok (conv_into c schunk tchunk)
          end) tdata)
  | None =>
      let* tb := mb_set_attribute_range tb (m_def tm) ts te sdata in
      match mp_tf mp with
      | Some tf =>
          mb_modify_attribute_range tb (m_def tm) ts te (fun tdata =>
            for_chunks_mut (m_size tm) (length tdata) (fun _ tchunk => Ok (tf_func tf tchunk)) tdata)
      | None => Ok tb
      end
  end.

(* convert_columnar_to_interleaved for one mapping, buffer_conversion.rs:498-545 *)
Definition convert_ci (mp : mapping) (sb : buffer) (s e : nat) (tb : mbuf) (ts te : nat) : res mbuf :=
  let sm := mp_src mp in let tm := mp_tgt mp in
  let* sdata := bf_get_attribute_range_ref sb (m_def sm) s e in
  mb_modify_point_range tb 0 (mb_len tb) (fun tdata =>
    let* schunks := chunks_exact (m_size sm) sdata in
    foldM (fun d k =>
             let* schunk := unwrap (nth_error schunks k) in
             raw_view_update d (m_offset tm) (l_size (mb_layout tb)) (m_size tm) (k + ts) (fun tchunk =>
               match mp_conv mp with
               | Some c =>
                   match mp_tf mp with
                   | Some tf =>
                       if tf_source tf
                       then let* tmp := copy_from_slice (repeat 0%Z (m_size sm)) schunk in
                            Ok (conv_into c (tf_func tf tmp) tchunk)
                       else Ok (tf_func tf (conv_into c schunk tchunk))
                   | None => Ok (conv_into c schunk tchunk)
                   end
               | None =>
                   let* tchunk := copy_from_slice tchunk schunk in
                   match mp_tf mp with Some tf => Ok (tf_func tf tchunk) | None => Ok tchunk end
               end))
          (range 0 (length schunks)) tdata).

(* the scratch memory buffer[..n] with src copied into it, buffer_conversion.rs:578-579, 640-641 *)
Definition scratch (max n : nat) (src : list Z) : res (list Z) :=
  let* buf := slice_get (repeat 0%Z max) 0 n in copy_from_slice buf src.

(* convert_interleaved_to_columnar for one mapping, buffer_conversion.rs:558-605 *)
Definition convert_ic (max : nat) (mp : mapping) (sb : buffer) (s e : nat) (tb : mbuf) (ts te : nat) : res mbuf :=
  let sm := mp_src mp in let tm := mp_tgt mp in
  let* sdata := bf_get_point_range_ref sb 0 (bf_len sb) in
  mb_modify_attribute_range tb (m_def tm) ts te (fun tdata =>
    for_chunks_mut (m_size tm) (length tdata) (fun k tchunk =>
      let* schunk := raw_view_index sdata (m_offset sm) (l_size (bf_layout sb)) (m_size sm) (k + s) in
      match mp_conv mp with
      | Some c =>
          match mp_tf mp with
          | Some tf =>
              if tf_source tf
              then let* buf := scratch max (length schunk) schunk in Ok (conv_into c (tf_func tf buf) tchunk)
              else Ok (tf_func tf (conv_into c schunk tchunk))
          | None => Ok (conv_into c schunk tchunk)
          end
      | None =>
          match mp_tf mp with
          | Some tf => let* buf := scratch max (length schunk) schunk in copy_from_slice tchunk (tf_func tf buf)
          | None => copy_from_slice tchunk schunk
          end
      end) tdata).

(* convert_interleaved_to_interleaved for one mapping, buffer_conversion.rs:623-663 *)
Definition convert_ii (max : nat) (mp : mapping) (sb : buffer) (s e : nat) (tb : mbuf) (ts te : nat) : res mbuf :=
  let sm := mp_src mp in let tm := mp_tgt mp in
  let* sdata := bf_get_point_range_ref sb 0 (bf_len sb) in
  mb_modify_point_range tb 0 (mb_len tb) (fun tdata =>
    foldM (fun d (ix : nat * nat) =>
             let (source_index, target_index) := ix in
             let* schunk := raw_view_index sdata (m_offset sm) (l_size (bf_layout sb)) (m_size sm) source_index in
             raw_view_update d (m_offset tm) (l_size (mb_layout tb)) (m_size tm) target_index (fun tchunk =>
               match mp_conv mp with
               | Some c =>
                   match mp_tf mp with
                   | Some tf =>
                       if tf_source tf
                       then let* buf := scratch max (m_size sm) schunk in Ok (conv_into c (tf_func tf buf) tchunk)
                       else Ok (tf_func tf (conv_into c schunk tchunk))
                   | None => Ok (conv_into c schunk tchunk)
                   end
               | None =>
                   match mp_tf mp with
                   | Some tf => let* buf := scratch max (m_size sm) schunk in copy_from_slice tchunk (tf_func tf buf)
                   | None => copy_from_slice tchunk schunk
                   end
               end))
          (combine (range s e) (range ts te)) tdata).

(* required_buffer_size, buffer_conversion.rs:51-55 *)
Definition required_buffer_size (mp : mapping) : nat := Nat.max (m_size (mp_src mp)) (m_size (mp_tgt mp)).

(* convert_into_range, buffer_conversion.rs:294-362. Range::len of a reversed range is 0. *)
Definition convert_into_range (c : converter) (sb : buffer) (s e : nat) (tb : mbuf) (ts te : nat) : res mbuf :=
  let* _ := assert (layout_eqb (bf_layout sb) (cv_from c)) in
  let* _ := assert (layout_eqb (mb_layout tb) (cv_to c)) in
  let* _ := assert (Nat.eqb (e - s) (te - ts)) in
  let* _ := assert (Nat.leb e (bf_len sb)) in
  let* _ := assert (Nat.leb te (mb_len tb)) in
  match cv_maps c with
  | [] => Ok tb
  | _ =>
      let max := fold_right Nat.max 0 (map required_buffer_size (cv_maps c)) in
      foldM (fun tb mp =>
               match bf_is_columnar sb, mb_is_columnar tb with
               | true, true => convert_cc mp sb s e tb ts te
               | true, false => convert_ci mp sb s e tb ts te
               | false, true => convert_ic max mp sb s e tb ts te
               | false, false => convert_ii max mp sb s e tb ts te
               end) (cv_maps c) tb
  end.

(* convert_into, buffer_conversion.rs:270-285 *)
Definition convert_into (c : converter) (sb : buffer) (tb : mbuf) : res mbuf :=
  convert_into_range c sb 0 (bf_len sb) tb 0 (bf_len sb).

(* convert, buffer_conversion.rs:244-261, for the output types VectorBuffer and HashMapBuffer *)
Definition convert_vec (c : converter) (sb : buffer) : res mbuf :=
  convert_into c sb (VecB (vb_resize (vb_new (cv_to c)) (bf_len sb))).
Definition convert_map (c : converter) (sb : buffer) : res mbuf :=
  convert_into c sb (MapB (hb_resize (hb_new (cv_to c)) (bf_len sb))).
