(* Model of read_all, read_all_into and write_all (pasture-io/src/base/mod.rs) on the files of a directory, with GenericPointReader::open_file and
   GenericPointWriter::open_file (pasture-io/src/base/io_factory.rs). Definitions only. Not modelled: errors of the operating system. *)
From Coq Require Import String Ascii List ZArith Bool Arith SpecFloat.
From Verif Require Import Base LayoutModel BufferModel TraitModel NumModel ConvModel MathModel LasModel LasIoModel PntsModel InfoModel.
Import ListNotations.
Open Scope nat_scope.

(* What is in a file. Simplification: LAS and LAZ files as in LasIoModel, not byte by byte; Remains is what a writer that failed in the middle
   leaves (LasFileModel has more about it). *)
Inductive content : Type := LasContent (f : las_file) | Bytes (bytes : list Z) | Remains.
Definition dir : Type := string -> option content.
(* File::create and what is written to it until the file is closed *)
Definition put (d : dir) (name : string) (c : content) : dir := fun n => if String.eqb n name then Some c else d n.

(* GenericPointReader::open_file, io_factory.rs:52-66, with LASReader::from_path, las_reader.rs:88-96 and 108-127. A LAZ reader does not open a file
   that is not compressed. Simplifications: bytes that no LAS writer wrote are no LAS file; a compressed file is not opened by a LAS reader (the code
   opens it and reads the compressed bytes as points). A LAS file does not start with the magic of PNTS files. *)
Definition open_file (c : json_codec) (d : dir) (name : string) : res generic_reader :=
  let* kind := get_extension_lookup name in
  match kind with
  | KindLas =>
      let* compressed := path_is_compressed_las_file name in
      match d name with
      | Some (LasContent f) => if Bool.eqb compressed (f_laz f) then let* r := open_reader f false in Ok (OfLas r) else Err
      | _ => Err
      end
  | KindTiles3D =>
      match d name with
      | Some (Bytes bytes) => let* r := from_read c bytes in Ok (OfPnts r)
      | _ => Err
      end
  end.
(* point_count, io_factory.rs:70-75, with number_of_points of the metadata, las_metadata.rs and pnts_metadata.rs:56-58 *)
Definition generic_count (r : generic_reader) : nat := match r with OfLas r => r_count r | OfPnts r => pr_num r end.
(* PointReader::read, reader.rs:23-32 *)
Definition generic_read (chunk : nat) (k : buffer_kind) (r : generic_reader) (count : nat) : res (mbuf * generic_reader) :=
  let* '(b, r, n) := generic_read_into chunk r (new_buffer k (default_layout r) count) count in
  Ok (resize_buffer b n, r).
(* read_all, base/mod.rs:24-36 *)
Definition read_all_file (c : json_codec) (chunk : nat) (k : buffer_kind) (d : dir) (name : string) : res mbuf :=
  let* r := open_file c d name in
  let* '(b, _) := generic_read chunk k r (generic_count r) in Ok b.
(* read_all_into, base/mod.rs:40-53 *)
Definition read_all_into_file (c : json_codec) (chunk : nat) (b : mbuf) (d : dir) (name : string) : res (mbuf * nat) :=
  let* r := open_file c d name in
  let* '(b, _, n) := generic_read_into chunk r b (generic_count r) in Ok (b, n).

(* a step of a call that has replaced the file: its result, or what the failure leaves *)
Definition or_leave {A} (d : dir) (name : string) (left : content) (x : res A) (k : A -> dir * res unit) : dir * res unit :=
  match x with Ok a => k a | Err => (put d name left, Err) | Panic => (put d name left, Panic) end.
(* write_all, base/mod.rs:56-71, with GenericPointWriter::open_file, io_factory.rs:121-139, LASWriter::from_path_and_point_layout,
   las_writer.rs:92-100 (the extension, File::create, the header) and the drop of the writer *)
Definition write_all_file (c : json_codec) (order : list (string * option conv_fn) -> list (string * option conv_fn)) (chunk : nat)
    (d : dir) (name : string) (b : buffer) : dir * res unit :=
  match get_extension_lookup name with
  | Ok KindLas =>
      match path_is_compressed_las_file name with
      | Ok laz =>
          or_leave d name (Bytes []) (open_writer_for_layout laz (bf_layout b)) (fun w =>
          or_leave d name Remains (las_write chunk w b) (fun w =>
          (put d name (LasContent (writer_file (las_flush w))), Ok tt)))
      | Err => (d, Err)
      | Panic => (d, Panic)
      end
  | Ok KindTiles3D =>
      or_leave d name (Bytes []) (writer_new order (bf_layout b)) (fun w =>
      or_leave d name Remains (write w b) (fun w =>
      or_leave d name Remains (flush c w) (fun w =>
      or_leave d name Remains (flush c w) (fun w =>
      (put d name (Bytes (pw_out w)), Ok tt)))))
  | Err => (d, Err)
  | Panic => (d, Panic)
  end.
