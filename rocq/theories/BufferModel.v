(* Model of pasture-core/src/containers/point_buffer.rs. Definitions only.
   Bytes are Z and opaque. Sizes and indices are unbounded (usize overflow of index * size is not modelled). *)
From Coq Require Import String List ZArith Lia Bool Arith.
From Verif Require Import Base LayoutModel.
Import ListNotations.
Set Implicit Arguments.

(* &st[s..e]: panics unless s <= e <= len *)
Definition slice_get (st : list Z) (s e : nat) : res (list Z) :=
  if Nat.leb s e && Nat.leb e (length st) then Ok (sub st s (e - s)) else Panic.

(* dst.copy_from_slice(src): panics if the lengths differ; the new contents of dst *)
Definition copy_from_slice (dst src : list Z) : res (list Z) :=
  if Nat.eqb (length dst) (length src) then Ok src else Panic.

(* st[s..e].copy_from_slice(src) *)
Definition slice_set (st : list Z) (s e : nat) (src : list Z) : res (list Z) :=
  let* old := slice_get st s e in
  let* new := copy_from_slice old src in
  Ok (blit st s new).

(* Vec::resize(n, 0) *)
Definition vec_resize (st : list Z) (n : nat) : list Z := firstn n st ++ repeat 0%Z (n - length st).

(* the indices of a Range s..e *)
Definition range (s e : nat) : list nat := seq s (e - s).

(* ptr::swap_nonoverlapping of n bytes at offsets a and b of one allocation. Outside of the allocation or
   overlapping this is undefined behaviour in Rust; the model panics there. *)
Definition swap_bytes (st : list Z) (a b n : nat) : res (list Z) :=
  if Nat.leb (a + n) (length st) && Nat.leb (b + n) (length st)
     && (Nat.leb (a + n) b || Nat.leb (b + n) a)
  then Ok (blit (blit st a (sub st b n)) b (sub st a n))
  else Panic.

(* ------------------------------------------------------------------ VectorBuffer *)

(* VectorBuffer, point_buffer.rs:584-588 *)
Record vbuf : Type := mk_vbuf { vb_storage : list Z; vb_layout : layout; vb_len : nat }.

(* point_layout.size_of_point_entry() of the buffer *)
Definition vb_psize (b : vbuf) : nat := l_size (vb_layout b).

(* VectorBuffer::new_from_layout, point_buffer.rs:625-631 (with_capacity:593-600 differs only in capacity) *)
Definition vb_new (l : layout) : vbuf := mk_vbuf [] l 0.

(* InterleavedBuffer::get_point_ref / get_byte_range_of_point, point_buffer.rs:792-797, 602-605 *)
Definition vb_get_point_ref (b : vbuf) (i : nat) : res (list Z) :=
  slice_get (vb_storage b) (i * vb_psize b) ((i + 1) * vb_psize b).

(* get_point_range_ref / get_byte_range_of_points, point_buffer.rs:799-804, 607-610 *)
Definition vb_get_point_range_ref (b : vbuf) (s e : nat) : res (list Z) :=
  slice_get (vb_storage b) (s * vb_psize b) (e * vb_psize b).

(* BorrowedBuffer::get_point, point_buffer.rs:646-649; `data` is the caller's slice before the call *)
Definition vb_get_point (b : vbuf) (i : nat) (data : list Z) : res (list Z) :=
  let* p := vb_get_point_ref b i in copy_from_slice data p.

(* get_point_range, point_buffer.rs:651-654 *)
Definition vb_get_point_range (b : vbuf) (s e : nat) (data : list Z) : res (list Z) :=
  let* p := vb_get_point_range_ref b s e in copy_from_slice data p.

(* start of get_byte_range_of_attribute, point_buffer.rs:612-621 *)
Definition vb_attr_start (b : vbuf) (i : nat) (m : member) : nat := i * vb_psize b + m_offset m.

(* get_attribute_unchecked, point_buffer.rs:656-664 *)
Definition vb_get_attribute_unchecked (b : vbuf) (m : member) (i : nat) (data : list Z) : res (list Z) :=
  let* src := slice_get (vb_storage b) (vb_attr_start b i m) (vb_attr_start b i m + m_size m) in
  copy_from_slice data src.

(* get_attribute (default method), point_buffer.rs:81-90 *)
Definition vb_get_attribute (b : vbuf) (a : attr_def) (i : nat) (data : list Z) : res (list Z) :=
  let* m := unwrap (get_attribute (vb_layout b) a) in
  vb_get_attribute_unchecked b m i data.

(* get_attribute_range (default method), point_buffer.rs:102-123, over any get_attribute_unchecked *)
Definition get_attribute_range_default
           (get_unchecked : member -> nat -> list Z -> res (list Z)) (l : layout)
           (a : attr_def) (s e : nat) (data : list Z) : res (list Z) :=
  let* m := unwrap (get_attribute l a) in
  foldM (fun d i =>
           let z := i - s in
           let* old := slice_get d (z * m_size m) ((z + 1) * m_size m) in
           let* new := get_unchecked m i old in
           Ok (blit d (z * m_size m) new))
        (range s e) data.

Definition vb_get_attribute_range (b : vbuf) (a : attr_def) (s e : nat) (data : list Z) : res (list Z) :=
  get_attribute_range_default (vb_get_attribute_unchecked b) (vb_layout b) a s e data.

Definition vb_with_storage (b : vbuf) (st : list Z) : vbuf := mk_vbuf st (vb_layout b) (vb_len b).

(* set_point, point_buffer.rs:675-678 *)
Definition vb_set_point (b : vbuf) (i : nat) (data : list Z) : res vbuf :=
  let* st := slice_set (vb_storage b) (i * vb_psize b) ((i + 1) * vb_psize b) data in
  Ok (vb_with_storage b st).

(* set_point_range, point_buffer.rs:710-713 *)
Definition vb_set_point_range (b : vbuf) (s e : nat) (data : list Z) : res vbuf :=
  let* st := slice_set (vb_storage b) (s * vb_psize b) (e * vb_psize b) data in
  Ok (vb_with_storage b st).

(* set_attribute, point_buffer.rs:680-693 *)
Definition vb_set_attribute (b : vbuf) (a : attr_def) (i : nat) (data : list Z) : res vbuf :=
  let* m := unwrap (get_attribute (vb_layout b) a) in
  let* st := slice_set (vb_storage b) (vb_attr_start b i m) (vb_attr_start b i m + m_size m) data in
  Ok (vb_with_storage b st).

(* set_attribute_range, point_buffer.rs:715-736 *)
Definition vb_set_attribute_range (b : vbuf) (a : attr_def) (s e : nat) (data : list Z) : res vbuf :=
  let* m := unwrap (get_attribute (vb_layout b) a) in
  let* st := foldM (fun st i =>
               let z := i - s in
               let* src := slice_get data (z * m_size m) ((z + 1) * m_size m) in
               slice_set st (vb_attr_start b i m) (vb_attr_start b i m + m_size m) src)
             (range s e) (vb_storage b) in
  Ok (vb_with_storage b st).

(* swap, point_buffer.rs:695-708 *)
Definition vb_swap (b : vbuf) (i j : nat) : res vbuf :=
  let* _ := assert (Nat.ltb i (vb_len b)) in
  let* _ := assert (Nat.ltb j (vb_len b)) in
  if Nat.eqb i j then Ok b
  else
    let* st := swap_bytes (vb_storage b) (i * vb_psize b) (j * vb_psize b) (vb_psize b) in
    Ok (vb_with_storage b st).

(* push_points, point_buffer.rs:747-756 *)
Definition vb_push_points (b : vbuf) (bytes : list Z) : res vbuf :=
  if Nat.eqb (vb_psize b) 0 then
    let* _ := assert (Nat.eqb 0 (length bytes)) in Ok b
  else
    let* _ := assert (Nat.eqb (length bytes mod vb_psize b) 0) in
    Ok (mk_vbuf (vb_storage b ++ bytes) (vb_layout b) (vb_len b + length bytes / vb_psize b)).

(* resize, point_buffer.rs:758-762 *)
Definition vb_resize (b : vbuf) (n : nat) : vbuf :=
  mk_vbuf (vec_resize (vb_storage b) (n * vb_psize b)) (vb_layout b) n.

(* clear, point_buffer.rs:764-767 *)
Definition vb_clear (b : vbuf) : vbuf := mk_vbuf [] (vb_layout b) 0.

(* ------------------------------------------------------------------ HashMapBuffer *)

(* HashMapBuffer, point_buffer.rs:974-978. The HashMap is an association list without duplicate keys;
   all uses in the code are lookups by key or an independent update of every entry, so its iteration
   order (not modelled) has no influence. *)
Record hbuf : Type := mk_hbuf { hb_map : list (attr_def * list Z); hb_layout : layout; hb_len : nat }.

(* HashMap::get *)
Fixpoint hm_get (h : list (attr_def * list Z)) (a : attr_def) : option (list Z) :=
  match h with
  | [] => None
  | (k, v) :: h' => if attr_def_eqb k a then Some v else hm_get h' a
  end.

(* assignment through HashMap::get_mut (the key is present) *)
Fixpoint hm_set (h : list (attr_def * list Z)) (a : attr_def) (v : list Z) : list (attr_def * list Z) :=
  match h with
  | [] => []
  | (k, w) :: h' => if attr_def_eqb k a then (k, v) :: h' else (k, w) :: hm_set h' a v
  end.

(* HashMapBuffer::new_from_layout, point_buffer.rs:1099-1109 (with_capacity:983-999 alike). The code collects
   pairs with distinct keys into a map. *)
Definition hb_new (l : layout) : hbuf := mk_hbuf (map (fun m => (m_def m, [])) (l_attrs l)) l 0.

Definition hb_psize (b : hbuf) : nat := l_size (hb_layout b).

(* storage of one attribute: attributes_storage.get(..).expect(..) *)
Definition hb_column (b : hbuf) (a : attr_def) : res (list Z) := unwrap (hm_get (hb_map b) a).

(* PointAttributeDefinition::size *)
Definition ad_size (a : attr_def) : nat := dt_size (ad_type a).

(* ColumnarBuffer::get_attribute_ref with get_byte_range_for_attribute, point_buffer.rs:1339-1352, 1081-1087 *)
Definition hb_get_attribute_ref (b : hbuf) (a : attr_def) (i : nat) : res (list Z) :=
  let* c := hb_column b a in slice_get c (i * ad_size a) ((i + 1) * ad_size a).

(* get_attribute_range_ref with get_byte_range_for_attributes, point_buffer.rs:1354-1367, 1089-1095 *)
Definition hb_get_attribute_range_ref (b : hbuf) (a : attr_def) (s e : nat) : res (list Z) :=
  let* c := hb_column b a in slice_get c (s * ad_size a) (e * ad_size a).

(* get_point, point_buffer.rs:1124-1135 *)
Definition hb_get_point (b : hbuf) (i : nat) (data : list Z) : res (list Z) :=
  foldM (fun d m =>
           let* src := hb_get_attribute_ref b (m_def m) i in
           slice_set d (m_offset m) (m_offset m + m_size m) src)
        (l_attrs (hb_layout b)) data.

(* get_point_range, point_buffer.rs:1137-1154. `&mut data[x..]` followed by `[o..o+n]` is data[x+o..x+o+n]
   plus the check x <= data.len(), which is implied. *)
Definition hb_get_point_range (b : hbuf) (s e : nat) (data : list Z) : res (list Z) :=
  foldM (fun d m =>
           let* c := hb_column b (m_def m) in
           foldM (fun d i =>
                    let* src := slice_get c (i * ad_size (m_def m)) ((i + 1) * ad_size (m_def m)) in
                    let base := (i - s) * hb_psize b in
                    slice_set d (base + m_offset m) (base + m_offset m + m_size m) src)
                 (range s e) d)
        (l_attrs (hb_layout b)) data.

(* get_attribute, point_buffer.rs:1156-1163 *)
Definition hb_get_attribute (b : hbuf) (a : attr_def) (i : nat) (data : list Z) : res (list Z) :=
  let* src := hb_get_attribute_ref b a i in copy_from_slice data src.

(* get_attribute_unchecked, point_buffer.rs:1165-1178 *)
Definition hb_get_attribute_unchecked (b : hbuf) (m : member) (i : nat) (data : list Z) : res (list Z) :=
  let* src := hb_get_attribute_ref b (m_def m) i in copy_from_slice data src.

(* get_attribute_range: the default method, point_buffer.rs:102-123 *)
Definition hb_get_attribute_range (b : hbuf) (a : attr_def) (s e : nat) (data : list Z) : res (list Z) :=
  get_attribute_range_default (hb_get_attribute_unchecked b) (hb_layout b) a s e data.

Definition hb_with_map (b : hbuf) (h : list (attr_def * list Z)) : hbuf := mk_hbuf h (hb_layout b) (hb_len b).

(* set_point, point_buffer.rs:1189-1202 *)
Definition hb_set_point (b : hbuf) (i : nat) (data : list Z) : res hbuf :=
  let* h := foldM (fun h m =>
              let* c := unwrap (hm_get h (m_def m)) in
              let* src := slice_get data (m_offset m) (m_offset m + m_size m) in
              let* c' := slice_set c (i * ad_size (m_def m)) ((i + 1) * ad_size (m_def m)) src in
              Ok (hm_set h (m_def m) c'))
            (l_attrs (hb_layout b)) (hb_map b) in
  Ok (hb_with_map b h).

(* set_attribute, point_buffer.rs:1204-1217 *)
Definition hb_set_attribute (b : hbuf) (a : attr_def) (i : nat) (data : list Z) : res hbuf :=
  let* c := hb_column b a in
  let* c' := slice_set c (i * ad_size a) ((i + 1) * ad_size a) data in
  Ok (hb_with_map b (hm_set (hb_map b) a c')).

(* swap, point_buffer.rs:1219-1235 *)
Definition hb_swap (b : hbuf) (i j : nat) : res hbuf :=
  let* _ := assert (Nat.ltb i (hb_len b)) in
  let* _ := assert (Nat.ltb j (hb_len b)) in
  if Nat.eqb i j then Ok b
  else
    let* h := mapM (fun kv =>
                let* c := swap_bytes (snd kv) (i * ad_size (fst kv)) (j * ad_size (fst kv)) (ad_size (fst kv)) in
                Ok (fst kv, c)) (hb_map b) in
    Ok (hb_with_map b h).

(* set_point_range, point_buffer.rs:1237-1258 *)
Definition hb_set_point_range (b : hbuf) (s e : nat) (data : list Z) : res hbuf :=
  let* h := foldM (fun h m =>
              let* c := unwrap (hm_get h (m_def m)) in
              let* c' := foldM (fun c i =>
                let z := i - s in
                let* p := slice_get data (z * hb_psize b) ((z + 1) * hb_psize b) in
                let* src := slice_get p (m_offset m) (m_offset m + m_size m) in
                slice_set c (i * ad_size (m_def m)) ((i + 1) * ad_size (m_def m)) src)
                (range s e) c in
              Ok (hm_set h (m_def m) c'))
            (l_attrs (hb_layout b)) (hb_map b) in
  Ok (hb_with_map b h).

(* set_attribute_range with get_attribute_range_mut, point_buffer.rs:1260-1268, 1390-1404 *)
Definition hb_set_attribute_range (b : hbuf) (a : attr_def) (s e : nat) (data : list Z) : res hbuf :=
  let* c := hb_column b a in
  let* c' := slice_set c (s * ad_size a) (e * ad_size a) data in
  Ok (hb_with_map b (hm_set (hb_map b) a c')).

(* push_points, point_buffer.rs:1279-1295; `% 0` and `/ 0` panic *)
Definition hb_push_points (b : hbuf) (bytes : list Z) : res hbuf :=
  if Nat.eqb (hb_psize b) 0 then Panic else
  let* _ := assert (Nat.eqb (length bytes mod hb_psize b) 0) in
  let num := length bytes / hb_psize b in
  let* h := foldM (fun h m =>
              let* c := unwrap (hm_get h (m_def m)) in
              let* c' := foldM (fun c i =>
                let* p := slice_get bytes (i * hb_psize b) ((i + 1) * hb_psize b) in
                let* src := slice_get p (m_offset m) (m_offset m + m_size m) in
                Ok (c ++ src))
                (range 0 num) c in
              Ok (hm_set h (m_def m) c'))
            (l_attrs (hb_layout b)) (hb_map b) in
  Ok (mk_hbuf h (hb_layout b) (hb_len b + num)).

(* resize, point_buffer.rs:1297-1303 *)
Definition hb_resize (b : hbuf) (n : nat) : hbuf :=
  mk_hbuf (map (fun kv => (fst kv, vec_resize (snd kv) (n * ad_size (fst kv)))) (hb_map b)) (hb_layout b) n.

(* clear, point_buffer.rs:1305-1310 *)
Definition hb_clear (b : hbuf) : hbuf :=
  mk_hbuf (map (fun kv => (fst kv, [])) (hb_map b)) (hb_layout b) 0.

(* ------------------------------------------------------------------ append *)

(* Any buffer, as the generic argument of append. *)
Inductive anybuf : Type := BV (v : vbuf) | BH (h : hbuf).
Definition any_len (o : anybuf) : nat := match o with BV v => vb_len v | BH h => hb_len h end.
Definition any_layout (o : anybuf) : layout := match o with BV v => vb_layout v | BH h => hb_layout h end.
Definition any_get_point (o : anybuf) (i : nat) (data : list Z) : res (list Z) :=
  match o with BV v => vb_get_point v i data | BH h => hb_get_point h i data end.

(* OwningBuffer::append (default method), point_buffer.rs:377-389; one scratch point is reused *)
Definition append_default {B : Type} (lay : B -> layout) (len : B -> nat) (resize : B -> nat -> B)
           (set_point : B -> nat -> list Z -> res B) (self : B) (other : anybuf) : res B :=
  let* _ := assert (layout_eqb (lay self) (any_layout other)) in
  let old := len self in
  let* r := foldM (fun st i =>
              let* p := any_get_point other i (snd st) in
              let* b := set_point (fst st) (old + i) p in
              Ok (b, p))
            (range 0 (any_len other))
            (resize self (old + any_len other), repeat 0%Z (l_size (lay self))) in
  Ok (fst r).

Definition vb_append (b : vbuf) (other : anybuf) : res vbuf :=
  append_default vb_layout vb_len vb_resize vb_set_point b other.
Definition hb_append (b : hbuf) (other : anybuf) : res hbuf :=
  append_default hb_layout hb_len hb_resize hb_set_point b other.

(* VectorBuffer::append_interleaved, point_buffer.rs:769-775 *)
Definition vb_append_interleaved (b other : vbuf) : res vbuf :=
  let* _ := assert (layout_eqb (vb_layout b) (vb_layout other)) in
  let* bytes := vb_get_point_range_ref other 0 (vb_len other) in
  vb_push_points b bytes.

(* VectorBuffer::append_columnar, point_buffer.rs:777-785: get_point writes into the buffer's own memory *)
Definition vb_append_columnar (b : vbuf) (other : hbuf) : res vbuf :=
  let* _ := assert (layout_eqb (vb_layout b) (hb_layout other)) in
  let old := vb_len b in
  foldM (fun b i =>
           let* self_memory := vb_get_point_ref b (old + i) in
           let* new := hb_get_point other i self_memory in
           Ok (vb_with_storage b (blit (vb_storage b) ((old + i) * vb_psize b) new)))
        (range 0 (hb_len other)) (vb_resize b (old + hb_len other)).

(* HashMapBuffer::append_interleaved, point_buffer.rs:1312-1318 *)
Definition hb_append_interleaved (b : hbuf) (other : vbuf) : res hbuf :=
  let* _ := assert (layout_eqb (hb_layout b) (vb_layout other)) in
  let* bytes := vb_get_point_range_ref other 0 (vb_len other) in
  hb_push_points b bytes.

(* HashMapBuffer::append_columnar, point_buffer.rs:1320-1332 *)
Definition hb_append_columnar (b other : hbuf) : res hbuf :=
  let* _ := assert (layout_eqb (hb_layout b) (hb_layout other)) in
  let* h := foldM (fun h m =>
              let* c := unwrap (hm_get h (m_def m)) in
              let* o := hb_get_attribute_range_ref other (m_def m) 0 (hb_len other) in
              Ok (hm_set h (m_def m) (c ++ o)))
            (l_attrs (hb_layout b)) (hb_map b) in
  Ok (mk_hbuf h (hb_layout b) (hb_len b + hb_len other)).

(* ------------------------------------------------------------------ filter, collect *)

(* (0..len).filter(predicate) *)
Definition matching (n : nat) (p : nat -> bool) : list nat := filter p (range 0 n).

(* filter_into a columnar target, point_buffer.rs:1027-1056 *)
Definition hb_filter_into_columnar (b target : hbuf) (p : nat -> bool) (hint : option nat) : res hbuf :=
  let* _ := assert (layout_eqb (hb_layout target) (hb_layout b)) in
  let num := match hint with Some n => n | None => length (matching (hb_len b) p) end in
  let* _ := assert (negb (Nat.ltb (hb_len target) num)) in
  let* h := foldM (fun h m =>
              let* src := hb_get_attribute_range_ref b (m_def m) 0 (hb_len b) in
              let* c := unwrap (hm_get h (m_def m)) in
              let* dst := slice_get c (0 * ad_size (m_def m)) (num * ad_size (m_def m)) in
              let stride := m_size m in
              let* dst' := foldM (fun d ij =>
                let '(di, si) := ij in
                let* v := slice_get src (si * stride) ((si + 1) * stride) in
                slice_set d (di * stride) ((di + 1) * stride) v)
                (combine (range 0 (length (matching (hb_len b) p))) (matching (hb_len b) p)) dst in
              Ok (hm_set h (m_def m) (blit c 0 dst')))
            (l_attrs (hb_layout b)) (hb_map target) in
  Ok (hb_with_map target h).

(* filter_into an interleaved target, point_buffer.rs:1027-1040, 1057-1075 *)
Definition hb_filter_into_interleaved (b : hbuf) (target : vbuf) (p : nat -> bool) (hint : option nat) : res vbuf :=
  let* _ := assert (layout_eqb (vb_layout target) (hb_layout b)) in
  let num := match hint with Some n => n | None => length (matching (hb_len b) p) end in
  let* _ := assert (negb (Nat.ltb (vb_len target) num)) in
  let* dst := vb_get_point_range_ref target 0 num in
  let* dst' := foldM (fun d m =>
              let* src := hb_get_attribute_range_ref b (m_def m) 0 (hb_len b) in
              let stride := m_size m in
              foldM (fun d ij =>
                let '(di, si) := ij in
                let start := m_offset m + di * hb_psize b in
                let* v := slice_get src (si * stride) ((si + 1) * stride) in
                slice_set d start (start + stride) v)
                (combine (range 0 (length (matching (hb_len b) p))) (matching (hb_len b) p)) d)
            (l_attrs (hb_layout b)) dst in
  Ok (vb_with_storage target (blit (vb_storage target) 0 dst')).

(* filter into a new buffer of either kind, point_buffer.rs:1007-1019 *)
Definition hb_filter_columnar (b : hbuf) (p : nat -> bool) : res hbuf :=
  let num := length (matching (hb_len b) p) in
  hb_filter_into_columnar b (hb_resize (hb_new (hb_layout b)) num) p (Some num).
Definition hb_filter_interleaved (b : hbuf) (p : nat -> bool) : res vbuf :=
  let num := length (matching (hb_len b) p) in
  hb_filter_into_interleaved b (vb_resize (vb_new (hb_layout b)) num) p (Some num).

(* FromIterator for VectorBuffer, point_buffer.rs:850-888: `upper` is the upper bound of the iterator's
   size_hint, `points` the bytes of the items it yields. *)
Definition vb_from_iter (l : layout) (upper : option nat) (points : list (list Z)) : res vbuf :=
  match upper with
  | Some known =>
    foldM (fun b ip => vb_set_point b (fst ip) (snd ip))
          (combine (range 0 (length points)) points)
          (mk_vbuf (repeat 0%Z (known * l_size l)) l known)
  | None => foldM vb_push_points points (mk_vbuf [] l 0)
  end.

(* FromIterator for HashMapBuffer, point_buffer.rs:1426-1439 *)
Definition hb_from_iter (l : layout) (points : list (list Z)) : res hbuf :=
  foldM hb_push_points points (hb_new l).

(* ------------------------------------------------------------------ attribute pusher *)

(* HashMapBufferAttributePusher, point_buffer.rs:893-911; the borrowed buffer is passed to done *)
Record pusher : Type := mk_pusher { pu_map : list (attr_def * list Z); pu_num : option nat }.
Definition pusher_new (b : hbuf) : pusher :=
  mk_pusher (map (fun m => (m_def m, [])) (l_attrs (hb_layout b))) None.

(* push_attribute_range, point_buffer.rs:923-939. T is given by its datatype; data as its values' bytes
   (each of length size of T, guaranteed by the Rust type). *)
Definition pusher_push (p : pusher) (t : datatype) (a : attr_def) (data : list (list Z)) : res pusher :=
  let* _ := assert (datatype_eqb t (ad_type a)) in
  let* c := unwrap (hm_get (pu_map p) a) in
  let* _ := assert (match pu_num p with Some n => Nat.eqb n (length data) | None => true end) in
  Ok (mk_pusher (hm_set (pu_map p) a (c ++ concat data))
                (match pu_num p with Some n => Some n | None => Some (length data) end)).

(* done, point_buffer.rs:948-968 *)
Definition pusher_done (p : pusher) (b : hbuf) : res hbuf :=
  let num := match pu_num p with Some n => n | None => 0 end in
  if Nat.eqb num 0 then Ok b else
  let* _ := assert (forallb (fun kv => negb (Nat.eqb (length (snd kv)) 0)) (pu_map p)) in
  let* h := foldM (fun h kv =>
              let* c := unwrap (hm_get h (fst kv)) in
              Ok (hm_set h (fst kv) (c ++ snd kv))) (pu_map p) (hb_map b) in
  Ok (mk_hbuf h (hb_layout b) (hb_len b + num)).

(* ------------------------------------------------------------------ ExternalMemoryBuffer *)

(* ExternalMemoryBuffer, point_buffer.rs:1444-1448 *)
Record ebuf : Type := mk_ebuf { eb_mem : list Z; eb_layout : layout; eb_len : nat }.
Definition eb_psize (b : ebuf) : nat := l_size (eb_layout b).

(* ExternalMemoryBuffer::new, point_buffer.rs:1452-1468 *)
Definition eb_new (mem : list Z) (l : layout) : res ebuf :=
  if Nat.eqb (l_size l) 0 then
    let* _ := assert (Nat.eqb 0 (length mem)) in Ok (mk_ebuf mem l 0)
  else
    let* _ := assert (Nat.eqb (length mem mod l_size l) 0) in
    Ok (mk_ebuf mem l (length mem / l_size l)).

(* get_point, point_buffer.rs:1504-1507 *)
Definition eb_get_point (b : ebuf) (i : nat) (data : list Z) : res (list Z) :=
  let* p := slice_get (eb_mem b) (i * eb_psize b) ((i + 1) * eb_psize b) in copy_from_slice data p.
(* get_point_range, point_buffer.rs:1509-1513 *)
Definition eb_get_point_range (b : ebuf) (s e : nat) (data : list Z) : res (list Z) :=
  let* p := slice_get (eb_mem b) (s * eb_psize b) (e * eb_psize b) in copy_from_slice data p.
(* get_attribute_unchecked, point_buffer.rs:1515-1524 *)
Definition eb_get_attribute_unchecked (b : ebuf) (m : member) (i : nat) (data : list Z) : res (list Z) :=
  let start := i * eb_psize b + m_offset m in
  let* src := slice_get (eb_mem b) start (start + m_size m) in copy_from_slice data src.
(* get_attribute / get_attribute_range: default methods, point_buffer.rs:81-123 *)
Definition eb_get_attribute (b : ebuf) (a : attr_def) (i : nat) (data : list Z) : res (list Z) :=
  let* m := unwrap (get_attribute (eb_layout b) a) in eb_get_attribute_unchecked b m i data.
Definition eb_get_attribute_range (b : ebuf) (a : attr_def) (s e : nat) (data : list Z) : res (list Z) :=
  get_attribute_range_default (eb_get_attribute_unchecked b) (eb_layout b) a s e data.

Definition eb_with_mem (b : ebuf) (st : list Z) : ebuf := mk_ebuf st (eb_layout b) (eb_len b).
(* set_point, point_buffer.rs:1535-1539 *)
Definition eb_set_point (b : ebuf) (i : nat) (data : list Z) : res ebuf :=
  let* st := slice_set (eb_mem b) (i * eb_psize b) ((i + 1) * eb_psize b) data in Ok (eb_with_mem b st).
(* set_attribute, point_buffer.rs:1541-1554 *)
Definition eb_set_attribute (b : ebuf) (a : attr_def) (i : nat) (data : list Z) : res ebuf :=
  let* m := unwrap (get_attribute (eb_layout b) a) in
  let start := i * eb_psize b + m_offset m in
  let* st := slice_set (eb_mem b) start (start + m_size m) data in Ok (eb_with_mem b st).
(* swap, point_buffer.rs:1556-1577 *)
Definition eb_swap (b : ebuf) (i j : nat) : res ebuf :=
  let* _ := assert (Nat.ltb i (eb_len b)) in
  let* _ := assert (Nat.ltb j (eb_len b)) in
  if Nat.eqb i j then Ok b
  else
    let* st := swap_bytes (eb_mem b) (i * eb_psize b) (j * eb_psize b) (eb_psize b) in
    Ok (eb_with_mem b st).
(* set_point_range, point_buffer.rs:1579-1583 *)
Definition eb_set_point_range (b : ebuf) (s e : nat) (data : list Z) : res ebuf :=
  let* st := slice_set (eb_mem b) (s * eb_psize b) (e * eb_psize b) data in Ok (eb_with_mem b st).
(* set_attribute_range, point_buffer.rs:1585-1606 *)
Definition eb_set_attribute_range (b : ebuf) (a : attr_def) (s e : nat) (data : list Z) : res ebuf :=
  let* m := unwrap (get_attribute (eb_layout b) a) in
  let* st := foldM (fun st i =>
               let z := i - s in
               let* src := slice_get data (z * m_size m) ((z + 1) * m_size m) in
               let start := i * eb_psize b + m_offset m in
               slice_set st start (start + m_size m) src)
             (range s e) (eb_mem b) in
  Ok (eb_with_mem b st).

(* ------------------------------------------------------------------ memory left behind by a panic *)

(* Loops write as they go: the state in which a loop ends, and whether it ran to completion (false: it panicked). *)
Fixpoint foldM_state {A S : Type} (f : S -> A -> res S) (l : list A) (s : S) : bool * S :=
  match l with
  | [] => (true, s)
  | a :: l' => match f s a with Ok s' => foldM_state f l' s' | _ => (false, s) end
  end.
(* set_attribute_range, point_buffer.rs:716-737: like vb_set_attribute_range, but with the storage that a caller who
   catches the panic (or a Drop implementation) sees *)
Definition vb_set_attribute_range_state (b : vbuf) (m : member) (s e : nat) (data : list Z) : bool * vbuf :=
  let r := foldM_state (fun st i =>
             let z := i - s in
             let* src := slice_get data (z * m_size m) ((z + 1) * m_size m) in
             slice_set st (vb_attr_start b i m) (vb_attr_start b i m + m_size m) src)
             (range s e) (vb_storage b) in
  (fst r, vb_with_storage b (snd r)).
