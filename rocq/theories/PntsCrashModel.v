(* Writing a PNTS file call by call: what a program that stops in the middle leaves behind, and sinks that take fewer bytes than they are offered. *)
From Coq Require Import String List ZArith Bool Arith SpecFloat.
From Verif Require Import Base LayoutModel BufferModel TraitModel NumModel ConvModel MathModel LasModel LasIoModel PntsModel.
Import ListNotations.
Open Scope nat_scope.

(* the calls of write_feature_table_body, pnts_writer.rs:299-331, on a stream at the given position: what is passed to write_all *)
Definition body_writes (w : pnts_writer) (position : nat) : res (list (list Z)) :=
  let n := hb_len (pw_cache w) in
  let* ws := mapM (fun m =>
               let* data := hb_get_attribute_range_ref (pw_cache w) (m_def m) 0 n in
               let size := m_size m * n in
               let padding := align_to size 8 - size in
               Ok (data :: if Nat.eqb padding 0 then [] else [repeat 0%Z padding]))
             (l_attrs (pw_default w)) in
  let current := position + length (concat (concat ws)) in
  let padding := align_to current 8 - current in
  Ok (concat ws ++ if Nat.eqb padding 0 then [] else [repeat 0%Z padding]).

(* write, pnts_writer.rs:216, 220: Write::write of a sink at a position, which takes some of the bytes it is offered. The returned number is not
   looked at. take: the number of bytes taken, from the position and the number of bytes offered. *)
Definition write_some (take : nat -> nat -> nat) (out bytes : list Z) : list Z := out ++ firstn (take (length out) (length bytes)) bytes.
(* write_all, and the write of bincode::serialize_into: everything is taken *)
Definition write_whole (out bytes : list Z) : list Z := out ++ bytes.

(* write_cached_points, pnts_writer.rs:158-227, on such a sink *)
Definition write_cached_points_some (take : nat -> nat -> nat) (c : json_codec) (w : pnts_writer) : res pnts_writer :=
  let* table := create_feature_table w in
  let ft_blob := ser_feature_table_header c table HEADER_LENGTH in
  let before := HEADER_LENGTH + List.length ft_blob in
  let body := align_to (before + feature_table_body_length w) 8 - before in
  let bt_start := before + body in
  let bt_blob := ser_empty_batch_table_header c bt_start in
  let* total := to_u32 (bt_start + List.length bt_blob + 0) in
  let* ft_json := to_u32 (List.length ft_blob) in
  let* ft_binary := to_u32 body in
  let* bt_json := to_u32 (List.length bt_blob) in
  let* bt_binary := to_u32 0 in
  let out := write_whole (pw_out w) (header_bytes (mk_ph 1 total ft_json ft_binary bt_json bt_binary)) in
  let out := write_some take out ft_blob in
  let* ws := body_writes w (length out) in
  let out := fold_left write_whole ws out in
  let out := write_some take out bt_blob in
  Ok (mk_pw out (pw_expected w) (pw_default w) (pw_cache w) (pw_converters w) (pw_rtc w) false).

(* what is in the sink after each of the calls of write_cached_points, if it takes everything *)
Definition flush_writes (c : json_codec) (w : pnts_writer) : res (list (list Z)) :=
  let* table := create_feature_table w in
  let ft_blob := ser_feature_table_header c table HEADER_LENGTH in
  let before := HEADER_LENGTH + List.length ft_blob in
  let body := align_to (before + feature_table_body_length w) 8 - before in
  let bt_start := before + body in
  let bt_blob := ser_empty_batch_table_header c bt_start in
  let* total := to_u32 (bt_start + List.length bt_blob + 0) in
  let* ft_json := to_u32 (List.length ft_blob) in
  let* ft_binary := to_u32 body in
  let* bt_json := to_u32 (List.length bt_blob) in
  let* bt_binary := to_u32 0 in
  let header := header_bytes (mk_ph 1 total ft_json ft_binary bt_json bt_binary) in
  let* ws := body_writes w (length (pw_out w ++ header ++ ft_blob)) in
  Ok ([header; ft_blob] ++ ws ++ [bt_blob]).
