(* Model of the structure of LAS and LAZ files as the writers produce it: header, VLRs, point data, extended VLRs, as bytes of a stream with a
   position. pasture-io/src/las/raw_writers.rs. The values of the points are in LasIoModel.v; here the bytes of the records are given. *)
From Coq Require Import String List ZArith Bool Arith.
From Verif Require Import Base LasModel LasIoModel.
Import ListNotations.
Set Implicit Arguments.
Open Scope nat_scope.

(* las::Header, as far as the structure of the file depends on it *)
Record head : Type := mk_head { hd_vlrs : list vlr; hd_padding : list Z; hd_evlrs : list vlr }.
(* las::raw::Header: number of VLRs, offset to the point data, start and number of the extended VLRs, number of points. It does not contain
   the VLRs themselves. *)
Record raw_head : Type := mk_raw_head { rh_vlrs : nat; rh_offset : nat; rh_evlr : option (nat * nat); rh_points : nat }.

(* What comes from the crates las and laz: the bytes of headers, VLRs and extended VLRs, the size of a header, the start of the extended VLRs
   that into_raw computes (when the file is opened: it knows nothing but the given header), the VLR of LASzip, and what done() adds to a
   compressed stream. *)
Record crates : Type := mk_crates {
  cr_header : raw_head -> list Z; cr_header_size : nat; cr_vlr : vlr -> list Z; cr_evlr : vlr -> list Z;
  cr_first_evlr : head -> nat; cr_laszip : vlr; cr_done : list Z }.

Record file_writer : Type := mk_fw {
  fw_stream : list Z; fw_position : nat; fw_raw : raw_head; fw_evlrs : list vlr; fw_requires_flush : bool }.

Section Crates.
Variable cr : crates.

Definition vlrs_bytes (vs : list vlr) : list Z := concat (map (cr_vlr cr) vs).
Definition evlrs_bytes (vs : list vlr) : list Z := concat (map (cr_evlr cr) vs).
(* write_all of a stream: at the position, which moves *)
Definition emit (w : file_writer) (bytes : list Z) : file_writer :=
  mk_fw (put (fw_stream w) (fw_position w) bytes) (fw_position w + length bytes) (fw_raw w) (fw_evlrs w) (fw_requires_flush w).
Definition seek_to (w : file_writer) (p : nat) : file_writer := mk_fw (fw_stream w) p (fw_raw w) (fw_evlrs w) (fw_requires_flush w).

(* Header::into_raw of the crate las, with the counters cleared as in raw_writers.rs:111-116, 635-640. The points start after header, VLRs and
   VLR padding. *)
Definition into_raw (hd : head) : raw_head :=
  mk_raw_head (length (hd_vlrs hd)) (cr_header_size cr + length (vlrs_bytes (hd_vlrs hd)) + length (hd_padding hd))
              (match hd_evlrs hd with [] => None | vs => Some (cr_first_evlr cr hd, length vs) end) 0.
(* Vlr::has_large_data: the length does not fit into 16 bits *)
Definition has_large_data (v : vlr) : bool := (65535 <? Z.of_nat (length (v_data v)))%Z.

(* RawLASWriter::from_write_and_header, raw_writers.rs:104-155, for an empty stream. Not here: what LasIoModel.open_writer has. *)
Definition open_las (hd : head) : res file_writer :=
  let raw := into_raw hd in
  let w := emit (mk_fw [] 0 raw (hd_evlrs hd) true) (cr_header cr raw) in
  let* _ := assert (negb (existsb has_large_data (hd_vlrs hd))) in
  let w := fold_left (fun w v => emit w (cr_vlr cr v)) (hd_vlrs hd) w in
  let* _ := assert (Nat.eqb (fw_position w) (rh_offset raw)) in
  Ok w.
(* RawLAZWriter::from_write_and_header, raw_writers.rs:625-698. The builder is made of the raw header (line 670): it has no VLRs, no VLR
   padding and no extended VLRs. *)
Definition open_laz (hd : head) : res file_writer :=
  let head_with_laz_vlr := mk_head [cr_laszip cr] [] [] in
  let raw := into_raw head_with_laz_vlr in
  let w := emit (mk_fw [] 0 raw (hd_evlrs hd) false) (cr_header cr raw) in
  let w := fold_left (fun w v => emit w (cr_vlr cr v)) (hd_vlrs head_with_laz_vlr) w in
  let w := emit w (hd_padding hd) in
  Ok w.

(* write, raw_writers.rs:184-584, 708-1122: n points, whose records (LAZ: what the compressor makes of them) are bytes; nothing for no points *)
Definition file_write (w : file_writer) (n : nat) (bytes : list Z) : file_writer :=
  if Nat.eqb n 0 then w
  else
    let w := emit w bytes in
    let r := fw_raw w in
    mk_fw (fw_stream w) (fw_position w) (mk_raw_head (rh_vlrs r) (rh_offset r) (rh_evlr r) (rh_points r + n)) (fw_evlrs w) true.
(* write_header, raw_writers.rs:165-174, 1125-1136; write_evlrs, 177-183, 1139-1146 *)
Definition write_header (w : file_writer) : file_writer :=
  let current_position := fw_position w in
  let w := emit (seek_to w 0) (cr_header cr (fw_raw w)) in
  seek_to w current_position.
Definition write_evlrs (w : file_writer) : file_writer := fold_left (fun w v => emit w (cr_evlr cr v)) (fw_evlrs w) w.
(* RawLASWriter::flush, raw_writers.rs:595-609; into_inner, 159-162, flushes, too *)
Definition flush_las (w : file_writer) : file_writer :=
  if negb (fw_requires_flush w) then w
  else
    let current_index := fw_position w in
    let w := write_header w in
    let w := write_evlrs w in
    let w := seek_to w current_index in
    mk_fw (fw_stream w) (fw_position w) (fw_raw w) (fw_evlrs w) false.
(* RawLAZWriter::do_flush, raw_writers.rs:1148-1152, which is flush (1164-1166) and what into_inner (703-706) does first *)
Definition flush_laz (w : file_writer) : file_writer :=
  let w := emit w (cr_done cr) in
  let w := write_evlrs w in
  write_header w.

(* a history of calls *)
Inductive file_op : Type := FWrite (n : nat) (bytes : list Z) | FFlush.
Definition file_step (laz : bool) (w : file_writer) (o : file_op) : file_writer :=
  match o with
  | FWrite n bytes => file_write w n bytes
  | FFlush => if laz then flush_laz w else flush_las w
  end.
Definition open_file (laz : bool) (hd : head) : res file_writer := if laz then open_laz hd else open_las hd.
(* open, a history, and into_inner *)
Definition file_of (laz : bool) (hd : head) (ops : list file_op) : res file_writer :=
  let* w := open_file laz hd in
  Ok (file_step laz (fold_left (file_step laz) ops w) FFlush).
End Crates.
