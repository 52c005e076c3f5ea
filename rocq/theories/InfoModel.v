(* Model of GenericPointReader (pasture-io/src/base/io_factory.rs) and of the info tool (pasture-tools/src/bin/info.rs). Definitions only.
   Not modelled: the file extension decides which reader is opened; printing. *)
From Coq Require Import String Ascii List ZArith Lia Bool Arith SpecFloat.
From Verif Require Import Base LayoutModel BufferModel TraitModel NumModel ConvModel MathModel LasModel LasIoModel PntsModel.
Import ListNotations.
Open Scope nat_scope.

(* GenericPointReader, io_factory.rs:47-50 *)
Inductive generic_reader : Type := OfLas (r : las_reader) | OfPnts (r : pnts_reader).
(* get_default_point_layout, io_factory.rs:98-103 *)
Definition default_layout (r : generic_reader) : layout := match r with OfLas r => r_layout r | OfPnts r => pr_layout r end.
(* read_into, io_factory.rs:77-90. chunk is the buffer size in the LAS reader *)
Definition generic_read_into (chunk : nat) (r : generic_reader) (b : mbuf) (count : nat) : res (mbuf * generic_reader * nat) :=
  match r with
  | OfLas r =>
      let* '(b, r, n) := las_read_into chunk r b count in
      match n with ReadPoints n => Ok (b, OfLas r, n) | Unsupported => Err end
  | OfPnts r => let* '(n, b, r) := read_into r b count in Ok (b, OfPnts r, n)
  end.
(* point_count of SeekToPoint, seek.rs:16-27, with seek_point of io_factory.rs:106-113 *)
Definition generic_point_count (r : generic_reader) : res (generic_reader * nat) :=
  match r with
  | OfLas r => let* '(r, n) := las_point_count r in Ok (OfLas r, n)
  | OfPnts r =>
      let* '(current, r) := seek_point r (FromCurrent 0) in
      let* '(len, r) := seek_point r (FromEnd 0) in
      let* '(_, r) := seek_point r (FromStart (Z.of_nat current)) in
      Ok (OfPnts r, len)
  end.

(* the attributes that are analyzed, with the types of their values, info.rs:128-140 *)
Definition analyzed : list (attr_def * datatype) :=
  [ (POSITION_3D, Vec3f64); (INTENSITY, U16); (RETURN_NUMBER, U8); (NUMBER_OF_RETURNS, U8); (SCAN_DIRECTION_FLAG, U8); (EDGE_OF_FLIGHT_LINE, U8);
    (CLASSIFICATION, U8); (SCAN_ANGLE_RANK, I8); (USER_DATA, U8); (POINT_SOURCE_ID, U16); (COLOR_RGB, Vec3u16); (GPS_TIME, F64); (NIR, U16) ].
Definition range_of : Type := option (list num * list num).
(* minmax_chunk!, info.rs:66-85 *)
Definition minmax_chunk (b : buffer) (acc : range_of) (a : attr_def * datatype) : res range_of :=
  if has_attribute_with_name (bf_layout b) (ad_name (fst a)) then
    let* r := minmax_attribute b (fst a) (snd a) in
    let* '(lo, hi) := unwrap r in
    match acc with
    | None => Ok (Some (lo, hi))
    | Some (old_lo, old_hi) => Ok (Some (infimums old_lo lo, supremums old_hi hi))
    end
  else Ok acc.
(* the loop body, info.rs:121-146 *)
Definition analyze_chunk (chunk chunk_size total : nat) (st : generic_reader * vbuf * list range_of) (idx : nat) : res (generic_reader * vbuf * list range_of) :=
  let '(r, b, ranges) := st in
  let b := vb_clear b in
  let num_points_in_chunk := Nat.min chunk_size (total - idx * chunk_size) in
  let* '(b, r, _) := generic_read_into chunk r (VecB b) num_points_in_chunk in
  let* ranges := mapM (fun p => minmax_chunk (Of b) (fst p) (snd p)) (combine ranges analyzed) in
  match b with VecB b => Ok (r, b, ranges) | _ => Panic end.
(* analyze_file, info.rs:87-193: the ranges that are printed, one for each of the analyzed attributes. chunk_size is 1_000_000. *)
Definition analyze_file (chunk chunk_size : nat) (r : generic_reader) : res (list range_of) :=
  let* '(r, total) := generic_point_count r in
  if Nat.eqb total 0 then Ok []
  else
    let num_chunks := Nat.div (total + chunk_size - 1) chunk_size in
    let* '(_, _, ranges) := foldM (analyze_chunk chunk chunk_size total) (range 0 num_chunks) (r, vb_new (default_layout r), repeat None (List.length analyzed)) in
    Ok ranges.
