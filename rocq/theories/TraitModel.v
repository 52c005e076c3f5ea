(* Buffers behind the BorrowedBuffer / BorrowedMutBuffer traits, slices, views, iterators and sorting
   (pasture-core/src/containers/{point_buffer,slice,buffer_views,point_iterators,attribute_iterators,
   raw_attribute_view}.rs). *)
From Coq Require Import String List ZArith Bool Arith.
From Verif Require Import Base LayoutModel BufferModel.
Import ListNotations.
Set Implicit Arguments.

(* Every mutable buffer: VectorBuffer, HashMapBuffer, ExternalMemoryBuffer, and BufferSliceMut over any of them
   (slice.rs:207-210). BufferSliceInterleavedMut / BufferSliceColumnarMut (slice.rs:525-654, 718-843) only delegate
   to BufferSliceMut and are identified with it. *)
Inductive mbuf : Type :=
| VecB (v : vbuf)
| MapB (h : hbuf)
| ExtB (e : ebuf)
| SliceMutB (b : mbuf) (s e : nat).

(* Every buffer: a mutable one, or BufferSlice over any buffer (slice.rs:78-91; BufferSliceInterleaved /
   BufferSliceColumnar, slice.rs:461-522, 653-716, only delegate). *)
Inductive buffer : Type :=
| Of (m : mbuf)
| SliceB (b : buffer) (s e : nat).

(* ------------------------------------------------------------------ index translation *)

(* get_and_check_global_point_index, slice.rs:51-54; Range::len is 0 for a reversed range *)
Definition slice_index (s e i : nat) : res nat :=
  let* _ := assert (Nat.ltb i (e - s)) in Ok (i + s).
(* get_and_check_global_point_range, slice.rs:62-73 *)
Definition slice_range (s e i j : nat) : res (nat * nat) :=
  let* _ := assert (Nat.leb j (e - s)) in
  if Nat.leb j i then Ok (e, e) else Ok (i + s, j + s).
(* BufferSliceMut::get_and_check_global_point_index, slice.rs:221-224 *)
Definition slice_mut_index (s e i : nat) : res nat :=
  let* _ := assert (Nat.ltb i e) in Ok (i + s).
(* BufferSliceMut::get_and_check_global_point_range, slice.rs:226-234 *)
Definition slice_mut_range (s e i j : nat) : res (nat * nat) :=
  let* _ := assert (Nat.leb j e) in
  if Nat.leb j i then Ok (e, e) else Ok (i + s, j + s).

(* ------------------------------------------------------------------ BorrowedBuffer for mutable buffers *)

(* point_layout, slice.rs:242-244 *)
Fixpoint mb_layout (b : mbuf) : layout :=
  match b with
  | VecB v => vb_layout v | MapB h => hb_layout h | ExtB e => eb_layout e
  | SliceMutB b _ _ => mb_layout b
  end.
(* len, slice.rs:238-240; for a reversed range the subtraction overflows, here it is 0 *)
Definition mb_len (b : mbuf) : nat :=
  match b with
  | VecB v => vb_len v | MapB h => hb_len h | ExtB e => eb_len e
  | SliceMutB _ s e => e - s
  end.
(* get_point, slice.rs:246-249 *)
Fixpoint mb_get_point (b : mbuf) (i : nat) (data : list Z) : res (list Z) :=
  match b with
  | VecB v => vb_get_point v i data | MapB h => hb_get_point h i data | ExtB e => eb_get_point e i data
  | SliceMutB b s e => let* g := slice_mut_index s e i in mb_get_point b g data
  end.
(* get_point_range, slice.rs:251-254 *)
Fixpoint mb_get_point_range (b : mbuf) (i j : nat) (data : list Z) : res (list Z) :=
  match b with
  | VecB v => vb_get_point_range v i j data | MapB h => hb_get_point_range h i j data
  | ExtB e => eb_get_point_range e i j data
  | SliceMutB b s e => let* g := slice_mut_range s e i j in mb_get_point_range b (fst g) (snd g) data
  end.
(* get_attribute_unchecked, slice.rs:264-275 *)
Fixpoint mb_get_attribute_unchecked (b : mbuf) (m : member) (i : nat) (data : list Z) : res (list Z) :=
  match b with
  | VecB v => vb_get_attribute_unchecked v m i data | MapB h => hb_get_attribute_unchecked h m i data
  | ExtB e => eb_get_attribute_unchecked e m i data
  | SliceMutB b s e => let* g := slice_mut_index s e i in mb_get_attribute_unchecked b m g data
  end.
(* get_attribute, slice.rs:256-262 *)
Fixpoint mb_get_attribute (b : mbuf) (a : attr_def) (i : nat) (data : list Z) : res (list Z) :=
  match b with
  | VecB v => vb_get_attribute v a i data | MapB h => hb_get_attribute h a i data
  | ExtB e => eb_get_attribute e a i data
  | SliceMutB b s e => let* g := slice_mut_index s e i in mb_get_attribute b a g data
  end.
(* get_attribute_range: slices use the default method, point_buffer.rs:101-123 *)
Definition mb_get_attribute_range (b : mbuf) (a : attr_def) (i j : nat) (data : list Z) : res (list Z) :=
  match b with
  | VecB v => vb_get_attribute_range v a i j data | MapB h => hb_get_attribute_range h a i j data
  | ExtB e => eb_get_attribute_range e a i j data
  | SliceMutB _ _ _ => get_attribute_range_default (mb_get_attribute_unchecked b) (mb_layout b) a i j data
  end.

(* ------------------------------------------------------------------ BorrowedMutBuffer *)

(* set_point, slice.rs:279-282 *)
Fixpoint mb_set_point (b : mbuf) (i : nat) (data : list Z) : res mbuf :=
  match b with
  | VecB v => let* v := vb_set_point v i data in Ok (VecB v)
  | MapB h => let* h := hb_set_point h i data in Ok (MapB h)
  | ExtB e => let* e := eb_set_point e i data in Ok (ExtB e)
  | SliceMutB b s e =>
      let* g := slice_mut_index s e i in let* b := mb_set_point b g data in Ok (SliceMutB b s e)
  end.
(* set_attribute, slice.rs:284-295 *)
Fixpoint mb_set_attribute (b : mbuf) (a : attr_def) (i : nat) (data : list Z) : res mbuf :=
  match b with
  | VecB v => let* v := vb_set_attribute v a i data in Ok (VecB v)
  | MapB h => let* h := hb_set_attribute h a i data in Ok (MapB h)
  | ExtB e => let* e := eb_set_attribute e a i data in Ok (ExtB e)
  | SliceMutB b s e =>
      let* g := slice_mut_index s e i in let* b := mb_set_attribute b a g data in Ok (SliceMutB b s e)
  end.
(* swap, slice.rs:297-302 *)
Fixpoint mb_swap (b : mbuf) (i j : nat) : res mbuf :=
  match b with
  | VecB v => let* v := vb_swap v i j in Ok (VecB v)
  | MapB h => let* h := hb_swap h i j in Ok (MapB h)
  | ExtB e => let* e := eb_swap e i j in Ok (ExtB e)
  | SliceMutB b s e =>
      let* g := slice_mut_index s e i in
      let* g' := slice_mut_index s e j in
      let* b := mb_swap b g g' in Ok (SliceMutB b s e)
  end.
(* set_point_range, slice.rs:304-309 *)
Fixpoint mb_set_point_range (b : mbuf) (i j : nat) (data : list Z) : res mbuf :=
  match b with
  | VecB v => let* v := vb_set_point_range v i j data in Ok (VecB v)
  | MapB h => let* h := hb_set_point_range h i j data in Ok (MapB h)
  | ExtB e => let* e := eb_set_point_range e i j data in Ok (ExtB e)
  | SliceMutB b s e =>
      let* g := slice_mut_range s e i j in
      let* b := mb_set_point_range b (fst g) (snd g) data in Ok (SliceMutB b s e)
  end.
(* set_attribute_range, slice.rs:311-322 *)
Fixpoint mb_set_attribute_range (b : mbuf) (a : attr_def) (i j : nat) (data : list Z) : res mbuf :=
  match b with
  | VecB v => let* v := vb_set_attribute_range v a i j data in Ok (VecB v)
  | MapB h => let* h := hb_set_attribute_range h a i j data in Ok (MapB h)
  | ExtB e => let* e := eb_set_attribute_range e a i j data in Ok (ExtB e)
  | SliceMutB b s e =>
      let* g := slice_mut_range s e i j in
      let* b := mb_set_attribute_range b a (fst g) (snd g) data in Ok (SliceMutB b s e)
  end.

(* The range used when a slice is sliced, slice.rs:189-202 (same at 426-439, 446-459) *)
Definition sub_slice_range (s e i j : nat) : res (nat * nat) :=
  let* _ := assert (Nat.ltb i (e - s)) in
  let* _ := assert (Nat.ltb j (e - s)) in
  if Nat.ltb j i then Ok (s + j, s + j) else Ok (s + i, s + j).

(* slice_mut, point_buffer.rs:845-847, 1421-1423, 1671-1673 (no check), slice.rs:446-459 *)
Definition mb_slice_mut (b : mbuf) (i j : nat) : res mbuf :=
  match b with
  | SliceMutB b s e => let* r := sub_slice_range s e i j in Ok (SliceMutB b (fst r) (snd r))
  | _ => Ok (SliceMutB b i j)
  end.

(* ------------------------------------------------------------------ BorrowedBuffer for all buffers *)

(* point_layout, slice.rs:98-100 *)
Fixpoint bf_layout (b : buffer) : layout :=
  match b with Of m => mb_layout m | SliceB b _ _ => bf_layout b end.
(* len, slice.rs:94-96 *)
Definition bf_len (b : buffer) : nat :=
  match b with Of m => mb_len m | SliceB _ s e => e - s end.
(* get_point, slice.rs:102-107 *)
Fixpoint bf_get_point (b : buffer) (i : nat) (data : list Z) : res (list Z) :=
  match b with
  | Of m => mb_get_point m i data
  | SliceB b s e => let* g := slice_index s e i in bf_get_point b g data
  end.
(* get_point_range, slice.rs:109-114 *)
Fixpoint bf_get_point_range (b : buffer) (i j : nat) (data : list Z) : res (list Z) :=
  match b with
  | Of m => mb_get_point_range m i j data
  | SliceB b s e => let* g := slice_range s e i j in bf_get_point_range b (fst g) (snd g) data
  end.
(* get_attribute_unchecked, slice.rs:124-135 *)
Fixpoint bf_get_attribute_unchecked (b : buffer) (m : member) (i : nat) (data : list Z) : res (list Z) :=
  match b with
  | Of mb => mb_get_attribute_unchecked mb m i data
  | SliceB b s e => let* g := slice_index s e i in bf_get_attribute_unchecked b m g data
  end.
(* get_attribute, slice.rs:116-122 *)
Fixpoint bf_get_attribute (b : buffer) (a : attr_def) (i : nat) (data : list Z) : res (list Z) :=
  match b with
  | Of m => mb_get_attribute m a i data
  | SliceB b s e => let* g := slice_index s e i in bf_get_attribute b a g data
  end.
(* get_attribute_range: default method for slices, point_buffer.rs:101-123 *)
Definition bf_get_attribute_range (b : buffer) (a : attr_def) (i j : nat) (data : list Z) : res (list Z) :=
  match b with
  | Of m => mb_get_attribute_range m a i j data
  | SliceB _ _ _ => get_attribute_range_default (bf_get_attribute_unchecked b) (bf_layout b) a i j data
  end.
(* slice, point_buffer.rs:834-836, 1413-1415, 1663-1665 (no check), slice.rs:189-202, 426-439 *)
Definition bf_slice (b : buffer) (i j : nat) : res buffer :=
  match b with
  | SliceB b s e => let* r := sub_slice_range s e i j in Ok (SliceB b (fst r) (snd r))
  | Of (SliceMutB b s e) => let* r := sub_slice_range s e i j in Ok (SliceB (Of b) (fst r) (snd r))
  | Of _ => Ok (SliceB b i j)
  end.

(* ------------------------------------------------------------------ typed views *)

(* A value of a Rust point type or attribute type is its bytes (bytemuck::bytes_of; all are Pod). A point type is given
   by its PointLayout, an attribute type by its datatype. *)

(* PointView::new and at, buffer_views.rs:47-72 *)
Definition point_view_at (b : buffer) (tl : layout) (i : nat) : res (list Z) :=
  let* _ := assert (layout_eqb tl (bf_layout b)) in
  bf_get_point b i (repeat 0%Z (l_size tl)).
(* PointViewMut::set_at, buffer_views.rs:183-188 *)
Definition point_view_set_at (b : mbuf) (tl : layout) (i : nat) (v : list Z) : res mbuf :=
  let* _ := assert (layout_eqb tl (mb_layout b)) in mb_set_point b i v.

(* AttributeView::new, buffer_views.rs:293-303 *)
Definition attribute_view (l : layout) (a : attr_def) (t : datatype) : res member :=
  let* _ := assert (datatype_eqb t (ad_type a)) in unwrap (get_attribute l a).
(* AttributeView::at, buffer_views.rs:310-321 *)
Definition attribute_view_at (b : buffer) (a : attr_def) (t : datatype) (i : nat) : res (list Z) :=
  let* m := attribute_view (bf_layout b) a t in
  bf_get_attribute_unchecked b m i (repeat 0%Z (dt_size t)).
(* AttributeViewMut::at, buffer_views.rs:415-426 *)
Definition attribute_view_mut_at (b : mbuf) (m : member) (t : datatype) (i : nat) : res (list Z) :=
  mb_get_attribute_unchecked b m i (repeat 0%Z (dt_size t)).
(* AttributeViewMut::set_at, buffer_views.rs:433-442 *)
Definition attribute_view_set_at (b : mbuf) (a : attr_def) (t : datatype) (i : nat) (v : list Z) : res mbuf :=
  let* m := attribute_view (mb_layout b) a t in mb_set_attribute b (m_def m) i v.

(* transform_attribute, point_buffer.rs:293-307 *)
Definition transform_attribute (b : mbuf) (a : attr_def) (t : datatype) (f : nat -> list Z -> list Z) : res mbuf :=
  let n := mb_len b in
  let* m := attribute_view (mb_layout b) a t in
  foldM (fun b i =>
           let* v := attribute_view_mut_at b m t i in
           mb_set_attribute b (m_def m) i (f i v))
        (range 0 n) b.

(* ------------------------------------------------------------------ iterators *)

(* All iterators have the same shape: a number of items, a current index and a way to produce item i
   (point_iterators.rs:8-141, attribute_iterators.rs:8-176). *)
(* next, point_iterators.rs:33-43 *)
Definition iter_next {T : Type} (len : nat) (item : nat -> res T) (cur : nat) : res (option T * nat) :=
  if Nat.eqb cur len then Ok (None, cur)
  else let* x := item cur in Ok (Some x, cur + 1).
(* nth, point_iterators.rs:45-48; the index stays advanced when the end is reached *)
Definition iter_nth {T : Type} (len : nat) (item : nat -> res T) (cur n : nat) : res (option T * nat) :=
  iter_next len item (cur + n).
(* items: PointIteratorByValue (point_iterators.rs:37-40) and AttributeIteratorByValue (attribute_iterators.rs:40-51)
   read from the buffer; the iterators by reference index a slice (point_iterators.rs:79, attribute_iterators.rs:91),
   panicking when out of bounds; the iterators by mutable reference add to a pointer without any check
   (point_iterators.rs:125-129, attribute_iterators.rs:150-154), so the item is the position it refers to. *)
Definition item_ref {T : Type} (items : list T) (i : nat) : res T := unwrap (nth_error items i).
Definition item_mut_position (i : nat) : res nat := Ok i.

(* Collecting an iterator: next until None. fuel bounds the number of items. *)
Fixpoint iter_collect {T : Type} (fuel len : nat) (item : nat -> res T) (cur : nat) : res (list T) :=
  match fuel with
  | O => Ok []
  | S fuel => let* r := iter_next len item cur in
              match r with
              | (None, _) => Ok []
              | (Some x, cur) => let* xs := iter_collect fuel len item cur in Ok (x :: xs)
              end
  end.

(* ------------------------------------------------------------------ sorting *)

(* slice::sort_by of the Rust standard library is a stable sort; written here as insertion sort. For a total preorder
   the stable sorted permutation is unique (sort_unique in TraitProofs3.v), so the choice of algorithm is immaterial. *)
Fixpoint insert_by {T : Type} (cmp : T -> T -> comparison) (x : T) (l : list T) : list T :=
  match l with
  | [] => [x]
  | y :: l' => match cmp x y with Gt => y :: insert_by cmp x l' | _ => x :: l end
  end.
Fixpoint stable_sort {T : Type} (cmp : T -> T -> comparison) (l : list T) : list T :=
  match l with [] => [] | x :: l' => insert_by cmp x (stable_sort cmp l') end.

(* get_point_range_mut with a function applied to the memory: point_buffer.rs:819-825, 1644-1654, slice.rs:362-368.
   HashMapBuffer has no such method (Err). *)
Fixpoint mb_update_point_range (b : mbuf) (i j : nat) (f : list Z -> list Z) : res mbuf :=
  match b with
  | VecB v =>
      let* p := slice_get (vb_storage v) (i * vb_psize v) (j * vb_psize v) in
      Ok (VecB (vb_with_storage v (blit (vb_storage v) (i * vb_psize v) (f p))))
  | ExtB e =>
      let* p := slice_get (eb_mem e) (i * eb_psize e) (j * eb_psize e) in
      Ok (ExtB (eb_with_mem e (blit (eb_mem e) (i * eb_psize e) (f p))))
  | MapB _ => Err
  | SliceMutB b s e =>
      let* g := slice_mut_range s e i j in
      let* b := mb_update_point_range b (fst g) (snd g) f in Ok (SliceMutB b s e)
  end.
(* bytes as a slice of points of sz bytes (bytemuck::cast_slice_mut) *)
Definition as_points (sz : nat) (bytes : list Z) : list (list Z) :=
  map (fun i => sub bytes (i * sz) sz) (seq 0 (length bytes / sz)).
(* PointViewMut::sort_by, buffer_views.rs:237-241 *)
Definition point_view_sort_by (b : mbuf) (tl : layout) (cmp : list Z -> list Z -> comparison) : res mbuf :=
  let* _ := assert (layout_eqb tl (mb_layout b)) in
  mb_update_point_range b 0 (mb_len b) (fun bytes => concat (stable_sort cmp (as_points (l_size tl) bytes))).
