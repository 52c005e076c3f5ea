(* Model of GenericPointReader as a SeekToPoint (pasture-io/src/base/io_factory.rs); read_into and point_count are in InfoModel.v, open_file is in
   PathModel.v. Definitions only. *)
From Coq Require Import String List ZArith Bool Arith.
From Verif Require Import Base LayoutModel BufferModel TraitModel NumModel ConvModel MathModel LasModel LasIoModel PntsModel InfoModel.
Import ListNotations.
Open Scope nat_scope.

(* seek_point, io_factory.rs:109-114 *)
Definition generic_seek_point (r : generic_reader) (s : seek_from) : res (generic_reader * nat) :=
  match r with
  | OfLas r => let* '(r, i) := las_seek_point r s in Ok (OfLas r, i)
  | OfPnts r => let* '(i, r) := seek_point r s in Ok (OfPnts r, i)
  end.
(* point_index of SeekToPoint, seek.rs:15-17 *)
Definition generic_point_index (r : generic_reader) : res (generic_reader * nat) := generic_seek_point r (FromCurrent 0).
