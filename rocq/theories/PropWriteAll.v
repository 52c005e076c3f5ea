(* Property theorems C84: write_all, and read_all of the file it writes, for LAS and LAZ files.

   chunk is the number of points per chunk (50_000 in the writers), chunk' the number of bytes per chunk (1 MiB in the readers). *)
From Coq Require Import String List ZArith Reals Lia Lra Bool Arith SpecFloat.
From Verif Require Import Base LayoutModel BufferModel BufferSpec TraitModel TraitSpec NumModel NumSpec ConvModel MathModel MathSpec LasModel LasSpec LasIoModel LasIoSpec LasGridSpec
  LasIoProofs11 LasIoProofs12 LasIoProofs13 WriteAllExamples.
Import ListNotations.
Open Scope nat_scope.

(* write_all writes exactly the points, in the format chosen for the layout. It fails only if there is no such format, and panics only if
   a point has no record. A LAZ file may have records after those of the points. *)
Theorem C84_what_is_written :
  forall chunk laz b, 0 < chunk -> bf_wf b ->
  match format_to_u8 (las_point_format_from_point_layout (bf_layout b)) with
  | Ok n => match write_all chunk laz b with
            | Ok f => (forall p, In p (bf_points b) -> representable n default_transforms (bf_layout b) p)
                      /\ f_laz f = laz /\ h_format (f_header f) = las_point_format_from_point_layout (bf_layout b) /\ h_tr (f_header f) = default_transforms
                      /\ h_total (f_header f) = Z.of_nat (bf_len b)
                      /\ exists rest data, f_data f = data ++ rest /\ (laz = false -> rest = [])
                         /\ holds_records n default_transforms (map (pair (bf_layout b)) (bf_points b)) data
            | Err => False
            | Panic => exists p, In p (bf_points b) /\ ~ representable n default_transforms (bf_layout b) p
            end
  | _ => write_all chunk laz b = Err
  end.
Proof. exact write_all_ok. Qed.
Print Assumptions C84_what_is_written.

(* All points are read back, in their order, and every attribute of the format has the value the layout of the buffer gives it *)
Theorem C84_written_and_read_partial :
  forall chunk chunk' laz k b n l0,
  0 < chunk -> bf_wf b -> format_to_u8 (las_point_format_from_point_layout (bf_layout b)) = Ok n -> las_type_layout n = Ok l0 ->
  (laz = true -> n <> 9 /\ n <> 10) -> record_length n <= chunk' -> (forall p, In p (bf_points b) -> representable n default_transforms (bf_layout b) p) ->
  exists f b', write_all chunk laz b = Ok f /\ read_all chunk' k f = Ok b' /\ mb_wf b' /\ mb_layout b' = l0 /\ mb_len b' = bf_len b
  /\ forall i p tm, nth_error (bf_points b) i = Some p -> In tm (l_attrs l0) ->
     exists p', nth_error (mb_points b') i = Some p' /\ came_back (Nat.ltb 5 n) default_transforms (bf_layout b) tm p = Some (attr_value tm p').
Proof. exact write_read. Qed.
Print Assumptions C84_written_and_read_partial.

(* Attributes with the name and datatype LAS has keep their value; flags if they fit into their bits *)
Theorem C84_same_values_partial :
  forall chunk chunk' laz k b n,
  0 < chunk -> bf_wf b -> format_to_u8 (las_point_format_from_point_layout (bf_layout b)) = Ok n ->
  (laz = true -> n <> 9 /\ n <> 10) -> record_length n <= chunk' -> (forall p, In p (bf_points b) -> is_bytes p /\ representable n default_transforms (bf_layout b) p) ->
  exists f b', write_all chunk laz b = Ok f /\ read_all chunk' k f = Ok b' /\ mb_len b' = bf_len b
  /\ forall i p m tm, nth_error (bf_points b) i = Some p -> In m (l_attrs (bf_layout b)) -> In tm (l_attrs (mb_layout b')) -> m_def m = m_def tm ->
     m_name m <> "Position3D"%string -> flag_fits (Nat.ltb 5 n) (m_name m) (attr_value m p) ->
     exists p', nth_error (mb_points b') i = Some p' /\ attr_value tm p' = attr_value m p.
Proof. exact write_read_same. Qed.
Print Assumptions C84_same_values_partial.

(* Positions less than 2147483 from 0 on each axis move by at most 0.001001 *)
Theorem C84_millimetre_partial :
  forall chunk chunk' laz k b n,
  0 < chunk -> bf_wf b -> format_to_u8 (las_point_format_from_point_layout (bf_layout b)) = Ok n ->
  (laz = true -> n <> 9 /\ n <> 10) -> record_length n <= chunk' -> (forall p, In p (bf_points b) -> representable n default_transforms (bf_layout b) p) ->
  exists f b', write_all chunk laz b = Ok f /\ read_all chunk' k f = Ok b' /\ mb_len b' = bf_len b
  /\ forall i p v tm, nth_error (bf_points b) i = Some p -> las_value (bf_layout b) POSITION_3D p = Some v -> In tm (l_attrs (mb_layout b')) ->
     m_name tm = "Position3D"%string -> p3_all in_millimetre_range (vec3_f64 v) ->
     exists p', nth_error (mb_points b') i = Some p'
     /\ within_millimetre (px (vec3_f64 v)) (px (vec3_f64 (attr_value tm p'))) /\ within_millimetre (py (vec3_f64 v)) (py (vec3_f64 (attr_value tm p')))
     /\ within_millimetre (pz (vec3_f64 v)) (pz (vec3_f64 (attr_value tm p'))).
Proof. exact write_read_positions. Qed.
Print Assumptions C84_millimetre_partial.

(* ---- not every buffer can be written and read ---- *)

(* positions and scan angles, no GPS time: there is no such format *)
Theorem C84_no_format_refuted :
  exists l, from_attributes [POSITION_3D; SCAN_ANGLE] = Ok l
  /\ forall chunk laz b, 0 < chunk -> bf_wf b -> bf_layout b = l -> write_all chunk laz b = Err.
Proof. exact no_format. Qed.
Print Assumptions C84_no_format_refuted.

(* x = 3000000: more than 2^31 millimetres from the origin *)
Theorem C84_far_position_refuted :
  bf_wf far_buffer /\ bf_len far_buffer = 1 /\ p3_all finite (point_position (bf_layout far_buffer) far_point)
  /\ forall chunk laz, 0 < chunk -> write_all chunk laz far_buffer = Panic.
Proof. exact far_panics. Qed.
Print Assumptions C84_far_position_refuted.

(* normals are not in the file *)
Theorem C84_other_attributes_refuted :
  exists b, bf_wf b /\ bf_len b = 1 /\ In NORMAL (map m_def (l_attrs (bf_layout b)))
  /\ forall chunk chunk' laz k, 0 < chunk -> 20 <= chunk' ->
     exists f b', write_all chunk laz b = Ok f /\ read_all chunk' k f = Ok b' /\ mb_len b' = 1 /\ ~ In "Normal"%string (map m_name (l_attrs (mb_layout b'))).
Proof. exact normals_lost. Qed.
Print Assumptions C84_other_attributes_refuted.

(* LAZ files with waveforms (formats 9 and 10) are written, but cannot be opened *)
Theorem C84_laz_waveforms_refuted :
  exists b, bf_wf b /\ bf_len b = 1
  /\ forall chunk chunk' k, 0 < chunk -> exists f, write_all chunk true b = Ok f /\ read_all chunk' k f = Err.
Proof. exact waveforms_unreadable. Qed.
Print Assumptions C84_laz_waveforms_refuted.

(* ---- the hypotheses hold ---- *)
Example C84_applies : bf_wf near_buffer /\ bf_len near_buffer = 2 /\ format_to_u8 (las_point_format_from_point_layout (bf_layout near_buffer)) = Ok 1
  /\ record_length 1 <= 64 /\ (forall p, In p (bf_points near_buffer) -> is_bytes p /\ representable 1 default_transforms (bf_layout near_buffer) p)
  /\ (forall p, In p (bf_points near_buffer) -> exists v, las_value (bf_layout near_buffer) POSITION_3D p = Some v /\ p3_all in_millimetre_range (vec3_f64 v))
  /\ map m_def (l_attrs (bf_layout near_buffer)) = [POSITION_3D; RETURN_NUMBER; GPS_TIME]
  /\ (forall p m, In p (bf_points near_buffer) -> In m (l_attrs (bf_layout near_buffer)) -> flag_fits false (m_name m) (attr_value m p)).
Proof. exact near_ok. Qed.
Example C84_runs : match write_all 3 true near_buffer with
  | Ok f => match read_all 64 KindHashMap f with Ok b => Nat.eqb (mb_len b) 2 | _ => false end
  | _ => false
  end = true.
Proof. vm_compute. reflexivity. Qed.
