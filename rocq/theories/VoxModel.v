(* Model of the voxel grid filter (pasture-algorithms/src/voxel_grid.rs). Definitions only. *)
From Coq Require Import String Ascii List ZArith Lia Bool Arith SpecFloat.
From Verif Require Import Base LayoutModel BufferModel TraitModel NumModel MathModel UntypedModel SegModel.
Import ListNotations.
Open Scope nat_scope.
Set Implicit Arguments.

(* ------------------------------------------------------------------ markers *)

(* one loop of create_markers_for_axis, voxel_grid.rs:64-67: "while curr < max { curr += leafsize; markers.push(curr) }". The loop may
   not end; after fuel rounds it is still running, written None. *)
Fixpoint axis_markers (fuel : nat) (curr max leaf : spec_float) : option (list spec_float) :=
  if SFltb curr max then
    match fuel with
    | 0 => None
    | S fuel => let curr := f64_add curr leaf in option_map (cons curr) (axis_markers fuel curr max leaf)
    end
  else Some [].
Record markers := mk_markers { mk_x : list spec_float; mk_y : list spec_float; mk_z : list spec_float }.
(* create_markers_for_axis, voxel_grid.rs:52-77 *)
Definition create_markers (fuel : nat) (box : aabb spec_float) (lx ly lz : spec_float) : option markers :=
  match axis_markers fuel (px (b_min box)) (px (b_max box)) lx with
  | None => None
  | Some xs =>
      match axis_markers fuel (py (b_min box)) (py (b_max box)) ly with
      | None => None
      | Some ys =>
          match axis_markers fuel (pz (b_min box)) (pz (b_max box)) lz with
          | None => None
          | Some zs => Some (mk_markers xs ys zs)
          end
      end
  end.

(* "while markers[index] < p { index += 1 }" from index on, voxel_grid.rs:29-37; the end of the markers is an index out of bounds *)
Fixpoint scan (ms : list spec_float) (p : spec_float) (index : nat) : res nat :=
  match ms with
  | [] => Panic
  | m :: ms => if SFltb m p then scan ms p (S index) else Ok index
  end.
(* one axis of find_leaf, voxel_grid.rs:26-31, 38-41 *)
Definition find_axis (ms : list spec_float) (p : spec_float) : res nat :=
  let* index := match ms with [] => Ok 0 | _ => scan ms p 0 end in
  if Nat.ltb 0 index then
    let* below := unwrap (nth_error ms (index - 1)) in
    let* above := unwrap (nth_error ms index) in
    if SFltb (f64_sub p below) (f64_sub above p) then Ok (index - 1) else Ok index
  else Ok index.
(* find_leaf, voxel_grid.rs:20-49 *)
Definition find_leaf (ms : markers) (p : p3 spec_float) : res (nat * nat * nat) :=
  let* x := find_axis (mk_x ms) (px p) in
  let* y := find_axis (mk_y ms) (py p) in
  let* z := find_axis (mk_z ms) (pz p) in
  Ok (x, y, z).

(* ------------------------------------------------------------------ voxels *)

(* struct Voxel, voxel_grid.rs:14-17 *)
Record voxel := mk_voxel { v_pos : nat * nat * nat; v_points : list nat }.
(* the order of (usize, usize, usize) *)
Definition pos_cmp (a b : nat * nat * nat) : comparison :=
  let '(ax, ay, az) := a in let '(bx, by_, bz) := b in
  match Nat.compare ax bx with
  | Eq => match Nat.compare ay by_ with Eq => Nat.compare az bz | c => c end
  | c => c
  end.
(* voxels.binary_search_by_key(&pos, |v| v.pos) followed by the push or the insertion, voxel_grid.rs:139-150. Simplification: a search
   from the start; on a slice that is sorted without duplicates (proved) it ends at the index that binary search finds. *)
Fixpoint add_to_voxels (vs : list voxel) (pos : nat * nat * nat) (i : nat) : list voxel :=
  match vs with
  | [] => [mk_voxel pos [i]]
  | v :: rest =>
      match pos_cmp (v_pos v) pos with
      | Lt => v :: add_to_voxels rest pos i
      | Eq => mk_voxel (v_pos v) (v_points v ++ [i]) :: rest
      | Gt => mk_voxel pos [i] :: vs
      end
  end.
(* the loop over the points, voxel_grid.rs:128-151 *)
Definition build_voxels (b : buffer) (ms : markers) : res (list voxel) :=
  let* _ := attribute_view (bf_layout b) POSITION_3D Vec3f64 in
  foldM (fun vs i =>
           let* p := position_at b i in
           let* pos := find_leaf ms p in
           Ok (add_to_voxels vs pos i))
        (range 0 (bf_len b)) [].

(* ------------------------------------------------------------------ pooling *)

(* the scalar types in the match arms *)
Definition scalar_prim (t : datatype) : option prim :=
  match t with
  | U8 => Some PU8 | I8 => Some PI8 | U16 => Some PU16 | I16 => Some PI16 | U32 => Some PU32 | I32 => Some PI32
  | U64 => Some PU64 | I64 => Some PI64 | F32 => Some PF32 | F64 => Some PF64
  | _ => None
  end.
Definition as_f64 (n : num) : spec_float := match as_cast PF64 n with NFlt f => f | NInt _ => S754_nan end.
(* buffer.view_attribute::<T>(a).at(p) for the scalar type T with datatype t *)
Definition scalar_at (b : buffer) (a : attr_def) (t : datatype) (p : nat) : res num :=
  let* pr := unwrap (scalar_prim t) in
  let* v := attribute_view_at b a t p in Ok (dec_num pr v).
(* the same for Vector3<T>, one component as f64 *)
Definition vector_prim (t : datatype) : option prim :=
  match t with Vec3u8 => Some PU8 | Vec3u16 => Some PU16 | Vec3f32 => Some PF32 | Vec3f64 => Some PF64 | _ => None end.
Definition vector_at (b : buffer) (a : attr_def) (t : datatype) (p : nat) : res (p3 spec_float) :=
  let* pr := unwrap (vector_prim t) in
  let* v := attribute_view_at b a t p in
  let c k := as_f64 (dec_num pr (sub v (k * prim_size pr) (prim_size pr))) in
  Ok (mk_p3 (c 0) (c 1) (c 2)).

Definition f64_zero : spec_float := S754_zero false.
(* centroid_max_pool, voxel_grid.rs:166-213 *)
Definition centroid_max_pool (v : voxel) (b : buffer) (a : attr_def) (t : datatype) : res spec_float :=
  foldM (fun curr_max p =>
           let* n := scalar_at b a t p in
           let value := as_f64 n in
           if SFltb curr_max value then Ok value else Ok curr_max)
        (v_points v) f64_zero.

(* the HashMap from the text of a value to its count, voxel_grid.rs:222-317. Simplification: the text of an integer is the integer. *)
Fixpoint count_value (m : list (Z * nat)) (k : Z) : list (Z * nat) :=
  match m with
  | [] => [(k, 1)]
  | (k', n) :: rest => if Z.eqb k' k then (k', n + 1) :: rest else (k', n) :: count_value rest k
  end.
(* The order in which a HashMap is iterated is unspecified: order rearranges the entries. *)
Definition order_fn := list (Z * nat) -> list (Z * nat).
(* centroid_most_common, voxel_grid.rs:216-327. The empty map leaves the empty text, which is no number. Only integers are modelled:
   set_all_attributes calls it for attributes of the types U8, I8, U16 and I16. *)
Definition centroid_most_common (order : order_fn) (v : voxel) (b : buffer) (a : attr_def) (t : datatype) : res Z :=
  let* m := foldM (fun m p =>
                     let* n := scalar_at b a t p in
                     match n with NInt z => Ok (count_value m z) | NFlt _ => Panic end)
                  (v_points v) [] in
  let '(_, key) := fold_left (fun (best : nat * option Z) (e : Z * nat) =>
                                if Nat.ltb (fst best) (snd e) then (snd e, Some (fst e)) else best)
                             (order m) (0, None) in
  let* z := unwrap key in
  let* _ := assert (Z.leb (- 2 ^ 63) z && Z.ltb z (2 ^ 63)) in Ok z.

(* v.points.len() as f64 *)
Definition len_f64 (v : voxel) : spec_float := as_f64 (NInt (Z.of_nat (length (v_points v)))).
(* centroid_average_vec, voxel_grid.rs:331-385 *)
Definition centroid_average_vec (v : voxel) (b : buffer) (a : attr_def) (t : datatype) : res (p3 spec_float) :=
  let* s := foldM (fun s p =>
                     let* x := vector_at b a t p in
                     Ok (mk_p3 (f64_add (px s) (px x)) (f64_add (py s) (py x)) (f64_add (pz s) (pz x))))
                  (v_points v) (mk_p3 f64_zero f64_zero f64_zero) in
  let n := len_f64 v in
  Ok (mk_p3 (f64_div (px s) n) (f64_div (py s) n) (f64_div (pz s) n)).
(* centroid_average_num, voxel_grid.rs:389-437 *)
Definition centroid_average_num (v : voxel) (b : buffer) (a : attr_def) (t : datatype) : res spec_float :=
  let* s := foldM (fun s p => let* x := scalar_at b a t p in Ok (f64_add s (as_f64 x))) (v_points v) f64_zero in
  Ok (f64_div s (len_f64 v)).

(* the bytes of a float cast to a primitive type, and of three *)
Definition cast_bytes (p : prim) (x : spec_float) : list Z := enc_num p (as_cast p (NFlt x)).
Definition cast_bytes3 (p : prim) (x : p3 spec_float) : list Z := cast_bytes p (px x) ++ cast_bytes p (py x) ++ cast_bytes p (pz x).
(* bytes of "most_common as T" and of the bool "most_common != 0" *)
Definition int_bytes (p : prim) (z : Z) : list Z := enc_num p (as_cast p (NInt z)).
Definition flag_bytes (z : Z) : list Z := [if Z.eqb z 0 then 0%Z else 1%Z].

(* the value that set_all_attributes computes for one attribute of the target, voxel_grid.rs:459-686 *)
Definition pooled_value (order : order_fn) (v : voxel) (b : buffer) (a : attr_def) : res (list Z) :=
  let average_num p := let* x := centroid_average_num v b a (ad_type a) in Ok (cast_bytes p x) in
  let average_vec p := let* x := centroid_average_vec v b a (ad_type a) in Ok (cast_bytes3 p x) in
  let most_common p := let* z := centroid_most_common order v b a (ad_type a) in Ok (int_bytes p z) in
  let flag := let* z := centroid_most_common order v b a (ad_type a) in Ok (flag_bytes z) in
  let max_pool p := let* x := centroid_max_pool v b a (ad_type a) in Ok (cast_bytes p x) in
  if attr_def_eqb a POSITION_3D then average_vec PF64
  else if attr_def_eqb a INTENSITY then average_num PU16
  else if attr_def_eqb a RETURN_NUMBER then most_common PU8
  else if attr_def_eqb a NUMBER_OF_RETURNS then most_common PU8
  else if attr_def_eqb a CLASSIFICATION_FLAGS then max_pool PU8
  else if attr_def_eqb a SCANNER_CHANNEL then most_common PU8
  else if attr_def_eqb a SCAN_DIRECTION_FLAG then flag
  else if attr_def_eqb a EDGE_OF_FLIGHT_LINE then flag
  else if attr_def_eqb a CLASSIFICATION then most_common PU8
  else if attr_def_eqb a SCAN_ANGLE_RANK then most_common PI8
  else if attr_def_eqb a SCAN_ANGLE then most_common PI16
  else if attr_def_eqb a USER_DATA then most_common PU8
  else if attr_def_eqb a POINT_SOURCE_ID then most_common PU16
  else if attr_def_eqb a COLOR_RGB then average_vec PU16
  else if attr_def_eqb a GPS_TIME then max_pool PF64
  else if attr_def_eqb a NIR then average_num PU16
  else if attr_def_eqb a POINT_ID then max_pool PU64
  else if attr_def_eqb a NORMAL then average_vec PF32
  else Panic.
(* set_all_attributes, voxel_grid.rs:441-687; order may differ from attribute to attribute *)
Definition set_all_attributes (order : attr_def -> order_fn) (target : layout) (centroid : untyped) (v : voxel) (b : buffer) : res untyped :=
  if has_attribute target WAVEFORM_DATA_OFFSET || has_attribute target WAVEFORM_PACKET_SIZE || has_attribute target WAVEFORM_PARAMETERS
     || has_attribute target WAVE_PACKET_DESCRIPTOR_INDEX || has_attribute target RETURN_POINT_WAVEFORM_LOCATION then Panic
  else foldM (fun c m =>
                let* bytes := pooled_value (order (m_def m)) v b (m_def m) in
                match set_raw_attribute c (m_def m) bytes with Ok c => Ok c | _ => Panic end)
             (l_attrs target) centroid.

(* ------------------------------------------------------------------ the filter *)

(* OwningBuffer::push_points of the two owning buffers; the other buffers are not owning *)
Definition owned_push (b : mbuf) (bytes : list Z) : res mbuf :=
  match b with
  | VecB v => let* v := vb_push_points v bytes in Ok (VecB v)
  | MapB h => let* h := hb_push_points h bytes in Ok (MapB h)
  | _ => Panic
  end.
(* voxelgrid_filter, voxel_grid.rs:107-163; order may differ from voxel to voxel. None: the markers are still being created after fuel
   rounds. *)
Definition voxelgrid_filter (fuel : nat) (order : nat * nat * nat -> attr_def -> order_fn) (b : buffer) (lx ly lz : spec_float) (out : mbuf) : option (res mbuf) :=
  if negb (has_attribute (bf_layout b) POSITION_3D) then Some Panic
  else match (let* o := calculate_bounds b in unwrap o) with
       | Ok box =>
           match create_markers fuel box lx ly lz with
           | None => None
           | Some ms =>
               Some (let* vs := build_voxels b ms in
                     foldM (fun out v =>
                              let layout := mb_layout out in
                              let* c := set_all_attributes (order (v_pos v)) layout (untyped_new layout) v b in
                              owned_push out (up_bytes c))
                           vs out)
           end
       | Err => Some Err
       | Panic => Some Panic
       end.
