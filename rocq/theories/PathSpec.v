(* Vocabulary of the statements about files written and read by their names. *)
From Coq Require Import String Ascii List ZArith Bool Arith SpecFloat.
From Verif Require Import Base LayoutModel BufferModel TraitModel NumModel ConvModel MathModel LasModel LasSpec LasIoModel PntsModel InfoModel PathModel.
Import ListNotations.
Open Scope nat_scope.

(* A stem and an extension without dots, as in "scan.v2.las" *)
Definition proper (stem ext : string) : Prop := stem <> EmptyString /\ ext <> EmptyString /\ no_dot ext.
Definition las_extension (ext : string) : Prop := same_up_to_case ext "las" \/ same_up_to_case ext "laz".
Definition pnts_extension (ext : string) : Prop := same_up_to_case ext "pnts".

(* several calls of write_all, one after the other, whatever their results *)
Definition write_files c order chunk (d : dir) (ws : list (string * buffer)) : dir :=
  fold_left (fun d w => fst (write_all_file c order chunk d (fst w) (snd w))) ws d.
