(* Model of GenericPointWriter (pasture-io/src/base/io_factory.rs) for calls that succeed; PathModel.v has write_all, with its failures.
   Definitions only. *)
From Coq Require Import String List ZArith Bool Arith.
From Verif Require Import Base LayoutModel BufferModel TraitModel NumModel ConvModel MathModel LasModel LasIoModel PntsModel InfoModel PathModel.
Import ListNotations.
Open Scope nat_scope.

(* GenericPointWriter, io_factory.rs:117-120 *)
Inductive generic_writer : Type := ToLas (w : las_writer) | ToPnts (w : pnts_writer).
(* open_file, io_factory.rs:123-139, with LASWriter::from_path_and_point_layout, las_writer.rs:92-100 *)
Definition create_file (order : list (string * option conv_fn) -> list (string * option conv_fn)) (name : string) (l : layout) : res generic_writer :=
  let* kind := get_extension_lookup name in
  match kind with
  | KindLas => let* laz := path_is_compressed_las_file name in let* w := open_writer_for_layout laz l in Ok (ToLas w)
  | KindTiles3D => let* w := writer_new order l in Ok (ToPnts w)
  end.
(* write, io_factory.rs:143-151. chunk is the buffer size in the LAS writer *)
Definition generic_write (chunk : nat) (g : generic_writer) (b : buffer) : res generic_writer :=
  match g with
  | ToLas w => let* w := las_write chunk w b in Ok (ToLas w)
  | ToPnts w => let* w := write w b in Ok (ToPnts w)
  end.
(* flush, io_factory.rs:153-158 *)
Definition generic_flush (c : json_codec) (g : generic_writer) : res generic_writer :=
  match g with
  | ToLas w => Ok (ToLas (las_flush w))
  | ToPnts w => let* w := flush c w in Ok (ToPnts w)
  end.
(* The file once the writer is dropped: a PNTS writer is flushed (Drop, pnts_writer.rs:403-407), LAS and LAZ writers are not, their header is that of
   the last flush *)
Definition generic_drop (c : json_codec) (g : generic_writer) : res content :=
  match g with
  | ToLas w => Ok (LasContent (writer_file w))
  | ToPnts w => let* w := flush c w in Ok (Bytes (pw_out w))
  end.
