(* C63: the detailed mode of the info tool (-d).

   chunk is the number of bytes per chunk in the LAS reader (1 MiB); size is the number of points per chunk in the tool (1_000_000). *)
From Coq Require Import String List ZArith Lia Bool Arith.
From Verif Require Import Base LayoutModel LayoutSpec BufferModel BufferSpec BufferExamples TraitModel TraitSpec NumModel ConvModel ConvSpec MathModel MathSpec LasModel LasIoModel LasIoSpec LasIoProofs10
  LasIoProofs11 PntsModel PntsSpec PntsExamples InfoModel InfoProofs InfoProofs2.
Import ListNotations.
Open Scope nat_scope.

(* The claim fails as badly as possible: the buffer that is passed to the reader is empty, so that the tool panics for every LAS or LAZ file that has a point. *)
Theorem C63_las_refuted :
  forall f raw exact r chunk size,
  file_ok f raw -> l_size raw <= chunk -> (Z.of_nat (length (records f)) < 2 ^ 63)%Z -> open_reader f exact = Ok r ->
  records f <> [] -> 0 < size -> analyze_file chunk size (OfLas r) = Panic.
Proof. exact las_panics. Qed.
Print Assumptions C63_las_refuted.

(* PNTS files that have a point with an attribute *)
Theorem C63_pnts_refuted :
  forall c bytes r chunk size,
  from_read c bytes = Ok r -> reader_ok r -> (Z.of_nat (pr_num r) < 2 ^ 63)%Z -> 0 < pr_num r -> l_attrs (pr_layout r) <> [] -> 0 < size ->
  analyze_file chunk size (OfPnts r) = Panic.
Proof. exact pnts_panics. Qed.
Print Assumptions C63_pnts_refuted.

(* What remains: files without points. Missing: all others. *)
Theorem C63_empty_partial :
  forall f raw exact r chunk size,
  file_ok f raw -> l_size raw <= chunk -> open_reader f exact = Ok r -> records f = [] -> analyze_file chunk size (OfLas r) = Ok [].
Proof. exact las_empty. Qed.
Print Assumptions C63_empty_partial.

(* The ranges of several chunks, if they could be read: least and greatest values over the points of all chunks, per component. Missing: NaN,
   and that no chunk can be read (C63_las_refuted, C63_pnts_refuted). *)
Theorem C63_chunks_partial :
  forall l a m p n bs, In a analyzed -> In m (l_attrs l) -> m_def m = fst a -> minmax_type (snd a) = Some (p, n) -> bs <> [] ->
  Forall (fun b => bf_wf b /\ bf_layout b = l /\ bf_points b <> []) bs ->
  (forall k r, k < n -> In r (flat_map bf_points bs) -> is_number (component_of p k (attr_value m r))) ->
  exists lo hi, foldM (fun acc b => minmax_chunk b acc a) bs None = Ok (Some (lo, hi)) /\ length lo = n /\ length hi = n
  /\ forall k, k < n -> exists x y, nth_error lo k = Some x /\ nth_error hi k = Some y /\
     let c r := component_of p k (attr_value m r) in
     (forall r, In r (flat_map bf_points bs) -> num_le x (c r) /\ num_le (c r) y)
     /\ (exists r, In r (flat_map bf_points bs) /\ c r = x) /\ (exists r, In r (flat_map bf_points bs) /\ c r = y).
Proof. exact all_chunks. Qed.
Print Assumptions C63_chunks_partial.

(* each analyzed attribute is analyzed with its own datatype, whose values have an order *)
Theorem C63_attributes :
  (forall a, In a analyzed -> snd a = ad_type (fst a) /\ exists p n, minmax_type (snd a) = Some (p, n))
  /\ forall name, In name ["Position3D"; "Intensity"; "ReturnNumber"; "NumberOfReturns"; "ScanDirectionFlag"; "EdgeOfFlightLine"; "Classification"; "ScanAngleRank";
       "UserData"; "PointSourceID"; "ColorRGB"; "GpsTime"; "NIR"]%string -> exists a, In a analyzed /\ ad_name (fst a) = name.
Proof.
  split; [exact analyzed_types|]. intros name I.
  assert (X : In name (map (fun a => ad_name (fst a)) analyzed)) by exact I. apply in_map_iff in X. destruct X as (a & E & J). exists a. auto.
Qed.
Print Assumptions C63_attributes.

Example C63_chunks_ex :
  let b1 := SliceB (Of (MapB ex_map)) 0 1 in let b2 := SliceB (Of (MapB ex_map)) 1 4 in
  In (INTENSITY, U16) analyzed /\ In m_intensity (l_attrs (bf_layout b1)) /\ m_def m_intensity = INTENSITY
  /\ Forall (fun b => bf_wf b /\ bf_layout b = bf_layout b1 /\ bf_points b <> []) [b1; b2]
  /\ foldM (fun acc b => minmax_chunk b acc (INTENSITY, U16)) [b1; b2] None = Ok (Some ([NInt 513], [NInt (73 + 256 * 74)])).
Proof.
  split; [cbn; auto|]. split; [exact ex_intensity|]. split; [reflexivity|]. split; [|vm_compute; reflexivity].
  constructor; [|constructor; [|constructor]]; (split; [split; [exact ex_map_inv|vm_compute; lia]|split; [reflexivity|discriminate]]).
Qed.

Example C63_las_ex : file_ok las_file2 raw0 /\ l_size raw0 <= 64 /\ length (records las_file2) = 2 /\ (exists r, open_reader las_file2 false = Ok r).
Proof. split; [exact (proj1 (proj2 file2_ok))|]. split; [vm_compute; auto 50 with arith|]. split; [exact (proj2 (proj2 (proj2 file2_ok)))|]. eexists. vm_compute. reflexivity. Qed.
Example C63_pnts_ex : from_read ex_codec t_file = Ok t_reader /\ reader_ok t_reader /\ pr_num t_reader = 4 /\ l_attrs (pr_layout t_reader) <> [].
Proof. split; [exact (proj2 (proj2 (proj2 t_runs)))|]. split; [exact (proj1 t_reader_ok)|]. split; [reflexivity|discriminate]. Qed.
Example C63_empty_ex : file_ok las_file0 raw0 /\ records las_file0 = [] /\ (exists r, open_reader las_file0 false = Ok r).
Proof. split; [exact (proj1 file0_ok)|]. split; [exact (proj2 file0_ok)|]. eexists. vm_compute. reflexivity. Qed.
