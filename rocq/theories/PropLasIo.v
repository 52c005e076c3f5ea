(* Property theorems C38 (write and read back), C39 (grid positions), C40 (readers are cursors), C41 (header), C42 (records written),
   C46 (read_all) and C69 (rejected reads), for LAS and LAZ files.

   chunk is the number of points per chunk (50_000 in the writers) or bytes per chunk (1 MiB in the readers). Histories of LAZ writers have
   no flush before the last one: the compressor is finished by a flush. *)
From Coq Require Import String List ZArith Lia Bool Arith SpecFloat.
From Verif Require Import Base LayoutModel BufferModel BufferSpec TraitModel TraitSpec NumModel ConvModel MathModel MathSpec LasModel LasSpec LasIoModel LasIoSpec
  LasIoProofs4 LasIoProofs5 LasIoProofs9 LasIoProofs10 LasIoProofs11.
Import ListNotations.
Open Scope nat_scope.

(* ---- C42 ---- *)
Theorem C42_las_files_hold_the_points :
  forall n f entries t evlrs chunk ops w0 w,
  format_new n = Ok f -> 0 < chunk -> ops_wf ops -> open_writer false f entries t evlrs = Ok w0 ->
  run_writer chunk w0 (ops ++ [Flush]) = Ok w ->
  exists data, w_data w = data ++ evlrs /\ holds_records n t (written ops) data.
Proof. exact las_records. Qed.
Print Assumptions C42_las_files_hold_the_points.

(* writing fails only for points that have no record *)
Theorem C42_writing_succeeds :
  forall laz n f entries t evlrs chunk ops w0,
  format_new n = Ok f -> 0 < chunk -> ops_wf ops -> open_writer laz f entries t evlrs = Ok w0 -> (laz = true -> writes_only ops) ->
  (forall p, In p (written ops) -> representable n t (fst p) (snd p)) ->
  exists w, run_writer chunk w0 ops = Ok w.
Proof. intros laz n f entries t evlrs chunk ops w0 F C W O _. exact (writer_total laz n f entries t evlrs chunk ops w0 F C W O). Qed.
Print Assumptions C42_writing_succeeds.

Theorem C42_laz_files_hold_the_points_partial :
  forall n f entries t evlrs chunk ops w0 w l0,
  format_new n = Ok f -> 0 < chunk -> ops_wf ops -> writes_only ops -> open_writer true f entries t evlrs = Ok w0 ->
  las_type_layout n = Ok l0 -> run_writer chunk w0 (ops ++ [Flush]) = Ok w ->
  length (w_data w) = (length (written ops) + surplus true chunk l0 ops) * record_length n
  /\ (holds_records n t (written ops) (w_data w) <-> surplus true chunk l0 ops = 0)
  /\ (ops_layout l0 ops -> surplus true chunk l0 ops = 0).
Proof.
  intros n f entries t evlrs chunk ops w0 w l0 F C W _ O L R. split; [exact (proj1 (laz_records n f entries t evlrs chunk ops w0 w l0 F C W O L R))|].
  split; [exact (laz_records_iff n f entries t evlrs chunk ops w0 w l0 F C W O L R)|apply no_surplus_default].
Qed.
Print Assumptions C42_laz_files_hold_the_points_partial.

(* one point in a custom layout becomes 50 000 records *)
Theorem C42_laz_custom_layout_refuted :
  exists f w0 b w, format_new 0 = Ok f /\ open_writer true f None ex_tr [] = Ok w0 /\ bf_wf b /\ bf_len b = 1
  /\ (forall p, In p (written [Write b]) -> representable 0 ex_tr (fst p) (snd p))
  /\ run_writer (Z.to_nat 50000) w0 [Write b; Flush] = Ok w
  /\ ~ holds_records 0 ex_tr (written [Write b]) (w_data w) /\ length (w_data w) = Z.to_nat 50000 * record_length 0.
Proof. exact (laz_surplus (Z.to_nat 50000) ltac:(lia)). Qed.
Print Assumptions C42_laz_custom_layout_refuted.

Definition ex_points3 : buffer := Of (VecB (mk_vbuf (map (fun k => Z.of_nat (if Nat.ltb (k mod 35) 24 then 0 else k)) (seq 0 105)) (las_layout 0) 3)).
Example C42_ex : bf_wf ex_points3 /\ (forall p, In p (written [Write ex_points3]) -> representable 0 ex_tr (fst p) (snd p))
  /\ exists w0 w, open_writer false (plain 0) None ex_tr [9]%Z = Ok w0 /\ run_writer 2 w0 [Write ex_points3; Flush; Write ex_points3; Flush] = Ok w
     /\ length (w_data w) = 121.
Proof.
  split; [split; [exact (las_layout_good 0 ltac:(lia))|vm_compute; reflexivity]|]. split.
  - intros p I. apply representable_ok. vm_compute in I. repeat (destruct I as [<-|I]; [vm_compute; reflexivity|]). contradiction.
  - eexists. eexists. split; [vm_compute; reflexivity|]. split; vm_compute; reflexivity.
Qed.

(* ---- C41 ---- *)
Theorem C41_total_count :
  forall laz n f entries t evlrs chunk ops w0 w,
  format_new n = Ok f -> 0 < chunk -> ops_wf ops -> (laz = true -> writes_only ops) -> open_writer laz f entries t evlrs = Ok w0 ->
  run_writer chunk w0 (ops ++ [Flush]) = Ok w -> h_total (w_file w) = Z.of_nat (length (written ops)).
Proof. intros laz n f entries t evlrs chunk ops w0 w F C W _. exact (header_total laz n f entries t evlrs chunk ops w0 w F C W). Qed.
Print Assumptions C41_total_count.

Theorem C41_bounds :
  forall laz n f entries t evlrs chunk ops w0 w,
  format_new n = Ok f -> 0 < chunk -> ops_wf ops -> (laz = true -> writes_only ops) -> open_writer laz f entries t evlrs = Ok w0 ->
  run_writer chunk w0 (ops ++ [Flush]) = Ok w -> written ops <> [] -> (forall p, In p (positions_of (written ops)) -> p3_all finite p) ->
  let box := mk_aabb (h_min (w_file w)) (h_max (w_file w)) in
  smallest f64_cmp not_nan (fun p => In p (positions_of (written ops))) box /\ MathSpec.tight (positions_of (written ops)) box.
Proof. intros laz n f entries t evlrs chunk ops w0 w F C W _. exact (header_bounds laz n f entries t evlrs chunk ops w0 w F C W). Qed.
Print Assumptions C41_bounds.

(* points in the default layout are counted by return number, others are not *)
Theorem C41_counts_by_return_partial :
  forall laz n f entries t evlrs chunk ops w0 w l0,
  format_new n = Ok f -> 0 < chunk -> ops_wf ops -> (laz = true -> writes_only ops) -> open_writer laz f entries t evlrs = Ok w0 ->
  las_type_layout n = Ok l0 -> run_writer chunk w0 (ops ++ [Flush]) = Ok w ->
  h_returns (w_file w) = by_return 15 (in_layout l0 (written ops)) /\ (ops_layout l0 ops -> h_returns (w_file w) = by_return 15 (written ops)).
Proof.
  intros laz n f entries t evlrs chunk ops w0 w l0 F C W _ O L R. pose proof (header_returns laz n f entries t evlrs chunk ops w0 w l0 F C W O L R) as H.
  split; [exact H|]. intros OL. rewrite H, (in_layout_all l0 ops OL). reflexivity.
Qed.
Print Assumptions C41_counts_by_return_partial.

Theorem C41_counts_by_return_refuted :
  exists f w0 w, format_new 0 = Ok f /\ open_writer false f None ex_tr [] = Ok w0 /\ bf_wf (Of (VecB return_one))
  /\ run_writer (Z.to_nat 50000) w0 [Write (Of (VecB return_one)); Flush] = Ok w
  /\ with_return 1 (written [Write (Of (VecB return_one))]) = 1%Z /\ nth 0 (h_returns (w_file w)) 0%Z = 0%Z.
Proof. exact (uncounted false (Z.to_nat 50000) ltac:(lia)). Qed.
Print Assumptions C41_counts_by_return_refuted.

(* the counts of the old header fields: right if they fit, or if nothing was flushed before *)
Theorem C41_legacy_counts_partial :
  forall laz n f entries t evlrs chunk ops w0 w l0,
  format_new n = Ok f -> 0 < chunk -> ops_wf ops -> (laz = true -> writes_only ops) -> open_writer laz f entries t evlrs = Ok w0 ->
  las_type_layout n = Ok l0 -> run_writer chunk w0 (ops ++ [Flush]) = Ok w ->
  let total := Z.of_nat (length (written ops)) in
  let fits := (n <=? 5) && (total <=? 2 ^ 32 - 1)%Z in
  fits = true \/ 5 < n \/ writes_only ops ->
  h_legacy_total (w_file w) = (if fits then total else 0%Z)
  /\ h_legacy_returns (w_file w) = (if fits then by_return 5 (in_layout l0 (written ops)) else repeat 0%Z 5).
Proof. intros laz n f entries t evlrs chunk ops w0 w l0 F C W _. exact (header_legacy laz n f entries t evlrs chunk ops w0 w l0 F C W). Qed.
Print Assumptions C41_legacy_counts_partial.

(* 1 point, a flush, 2^32 points: the old field says 1 *)
Theorem C41_legacy_counts_refuted :
  exists f w0 b1 b2 w, format_new 0 = Ok f /\ open_writer false f None ex_tr [] = Ok w0 /\ ops_wf [Write b1; Flush; Write b2]
  /\ run_writer (Z.to_nat 50000) w0 [Write b1; Flush; Write b2; Flush] = Ok w
  /\ h_total (w_file w) = (1 + Z.of_nat (Z.to_nat (2 ^ 32)))%Z /\ h_legacy_total (w_file w) = 1%Z.
Proof. exact (stale false (Z.to_nat 50000) (Z.to_nat (2 ^ 32)) ltac:(lia) ltac:(lia)). Qed.
Print Assumptions C41_legacy_counts_refuted.

Example C41_ex : exists w0 w, open_writer false (plain 0) None ex_tr [] = Ok w0
  /\ run_writer 2 w0 [Write ex_points3; Flush; Write (Of (VecB return_one)); Flush] = Ok w
  /\ h_total (w_file w) = 4%Z /\ h_legacy_total (w_file w) = 4%Z
  /\ written [Write ex_points3; Flush; Write (Of (VecB return_one))] <> []
  /\ (forall p, In p (positions_of (written [Write ex_points3; Flush; Write (Of (VecB return_one))])) -> p3_all finite p).
Proof.
  eexists. eexists. split; [vm_compute; reflexivity|]. split; [vm_compute; reflexivity|]. split; [reflexivity|]. split; [reflexivity|].
  split; [vm_compute; discriminate|]. intros p I. vm_compute in I. repeat (destruct I as [<-|I]; [repeat split|]). contradiction.
Qed.

(* ---- C40 ---- *)
(* every history of seeks and reads that does not panic is one of a cursor; point_index and point_count tell where it is *)
Theorem C40_readers_are_cursors :
  forall f raw chunk exact r ops,
  file_ok f raw -> l_size raw <= chunk -> (Z.of_nat (length (records f)) < 2 ^ 63)%Z -> open_reader f exact = Ok r -> calls_ok f raw 0 ops ->
  exists r' es last, run_reader chunk r ops = Ok (r', es) /\ cursor_run f raw 0 ops es last
  /\ las_point_index r' = Ok (r', last) /\ las_point_count r' = Ok (r', length (records f)).
Proof. exact cursor. Qed.
Print Assumptions C40_readers_are_cursors.

(* targets behind the last point are not clamped if they do not fit an i64 *)
Theorem C40_seek_refuted :
  exists f raw r, file_ok f raw /\ open_reader f false = Ok r /\ length (records f) = 2
  /\ forall n, (2 ^ 63 <= n < 2 ^ 64)%Z -> las_seek_point r (FromStart n) = Panic.
Proof.
  exists las_file2, raw0. eexists. split; [exact (proj1 (proj2 file2_ok))|]. split; [vm_compute; reflexivity|]. split; [exact (proj2 (proj2 (proj2 file2_ok)))|].
  intros n. apply seek_u64.
Qed.
Print Assumptions C40_seek_refuted.

Definition ex_reads : list read_op :=
  [Read (new_buffer KindHashMap (las_layout 0) 1) 1; Seek (FromEnd (-2)); Read (new_buffer KindVector raw0 3) 3; Seek (FromStart 7); Read (new_buffer KindVector raw0 3) 3].
Example C40_ex : file_ok las_file2 raw0 /\ l_size raw0 <= 64 /\ calls_ok las_file2 raw0 0 ex_reads
  /\ (exists r, open_reader las_file2 false = Ok r) /\ reads_ok (las_layout 0) 2 0 (firstn 2 ex_reads).
Proof.
  split; [exact (proj1 (proj2 file2_ok))|]. split; [vm_compute; auto 50 with arith|].
  pose proof (proj1 file2_ok) as (_ & _ & _ & G & _).
  destruct (new_buffer_ok KindHashMap (las_layout 0) 1 (las_layout_good 0 ltac:(lia))) as (W1 & L1 & N1 & _). destruct (new_buffer_ok KindVector raw0 3 G) as (W2 & L2 & N2 & _).
  destruct (default_readable las_file2 raw0 (las_layout 0) (proj1 (proj2 file2_ok)) ltac:(vm_compute; reflexivity)) as (_ & RD).
  pose proof (proj2 (proj2 (proj2 file2_ok))) as LR.
  split; [|split; [eexists; vm_compute; reflexivity|]].
  - unfold ex_reads. cbn [calls_ok]. rewrite LR, L1, L2, N1, N2. split; [exact W1|]. split; [lia|]. split; [right; exact RD|].
    change (seek_target 2 (0 + Nat.min 1 (2 - 0)) (FromEnd (-2))) with (Some 0). cbv iota.
    split; [exact W2|]. split; [lia|]. split; [left; reflexivity|].
    change (seek_target 2 (0 + Nat.min 3 (2 - 0)) (FromStart 7)) with (Some 2). cbv iota. split; [exact W2|]. split; [lia|]. split; [left; reflexivity|exact I].
  - cbn [firstn ex_reads reads_ok]. rewrite L1, N1. split; [exact W1|]. split; [reflexivity|]. split; [lia|]. exact I.
Qed.

(* ---- C38 ---- *)
(* Written in the default layout and read in the default layout, in any pieces and from any place, attributes have the values they had;
   flags keep their lowest bits, positions go through the grid. *)
Theorem C38_points_survive_partial :
  forall laz n f entries t evlrs chunk ops w0 w l0 exact chunk' rops,
  format_new n = Ok f -> 0 < chunk -> ops_wf ops -> (laz = true -> writes_only ops) -> open_writer laz f entries t evlrs = Ok w0 ->
  las_type_layout n = Ok l0 -> ops_layout l0 ops -> run_writer chunk w0 (ops ++ [Flush]) = Ok w -> (laz = true -> n <> 9 /\ n <> 10) ->
  record_length n <= chunk' -> (Z.of_nat (length (written ops)) < 2 ^ 63)%Z -> reads_ok l0 (length (written ops)) 0 rops ->
  exists r r' es, open_reader (writer_file w) exact = Ok r /\ run_reader chunk' r rops = Ok (r', es)
  /\ reads_back (Nat.ltb 5 n) t l0 (map snd (written ops)) 0 rops es.
Proof. intros laz n f entries t evlrs chunk ops w0 w l0 exact chunk' rops F C W _. exact (round_trip laz n f entries t evlrs chunk ops w0 w l0 exact chunk' rops F C W). Qed.
Print Assumptions C38_points_survive_partial.

(* with extra bytes (here one, described by a VLR) a written point cannot be read *)
Theorem C38_extra_bytes_refuted :
  exists w0 w r, open_writer false extra_one extra_entries ex_tr [] = Ok w0 /\ bf_wf extra_buffer /\ bf_len extra_buffer = 1
  /\ bf_layout extra_buffer = w_default_layout w0 /\ run_writer (Z.to_nat 50000) w0 [Write extra_buffer; Flush] = Ok w
  /\ open_reader (writer_file w) false = Ok r /\ r_layout r = bf_layout extra_buffer
  /\ las_read (Z.to_nat (2 ^ 20)) KindVector r 1 = Err.
Proof.
  destruct extra_open as (w0 & O). exists w0.
  destruct (extra_write w0 (Z.to_nat 50000) O ltac:(lia)) as (w & R & T & L & F & TR & LZ & E).
  destruct (extra_read w (Z.to_nat (2 ^ 20)) T L F TR LZ E ltac:(lia)) as (r & OR & RL & RD).
  exists w, r. split; [exact O|]. split.
  { exact extra_buffer_wf. }
  split; [reflexivity|]. split.
  { assert (E0 : w0 = match open_writer false extra_one extra_entries ex_tr [] with Ok w => w | _ => w0 end) by now rewrite O. rewrite E0. vm_compute. reflexivity. }
  split; [exact R|]. split; [exact OR|]. split; [exact RL|exact RD].
Qed.
Print Assumptions C38_extra_bytes_refuted.

(* positions may be off by more than one scale step: offset 2^60, scale 150, coordinate 2^60 + 1792 *)
Theorem C38_scale_step_refuted :
  exists c offset scale v, finite c /\ finite offset /\ finite scale /\ is_f64 c /\ is_f64 offset /\ is_f64 scale
  /\ grid c offset scale = Some v /\ (scaled scale < Z.abs (scaled c - scaled (world v scale offset)))%Z.
Proof.
  exists (S754_finite false 4503599627370503 8), (S754_finite false 4503599627370496 8), (S754_finite false 5277655813324800 (-45)), 11%Z.
  split; [exact I|]. split; [exact I|]. split; [exact I|]. split; [right; lia|]. split; [right; lia|]. split; [right; lia|].
  split; vm_compute; reflexivity.
Qed.
Print Assumptions C38_scale_step_refuted.

(* ---- C39 ---- *)
Theorem C39_grid_positions_refuted :
  exists scale v, finite scale /\ is_f64 scale /\ (- 2 ^ 31 <= v < 2 ^ 31)%Z
  /\ grid (world v scale f64_zero) f64_zero scale = Some (v - 1)%Z.
Proof. exists hundredth, 29%Z. split; [exact I|]. split; [right; vm_compute; repeat split; discriminate|]. split; [lia|]. exact grid_lost. Qed.
Print Assumptions C39_grid_positions_refuted.

(* ---- C46 ---- *)
Theorem C46_read_all :
  forall f raw l chunk k,
  file_ok f raw -> l_size raw <= chunk -> point_layout_from_las_metadata (h_format (f_header f)) (h_entries (f_header f)) false = Ok l ->
  exists b, read_all chunk k f = Ok b /\ mb_wf b /\ mb_layout b = l /\ mb_len b = length (records f)
  /\ forall i rec, nth_error (records f) i = Some rec -> exists p, nth_error (mb_points b) i = Some p
     /\ forall tm, In tm (l_attrs l) ->
          if layout_eqb l raw then attr_value tm p = attr_value tm rec
          else read_value (is_extended (h_format (f_header f))) raw (h_tr (f_header f)) tm rec (repeat 0%Z (m_size tm)) = Some (attr_value tm p).
Proof. exact read_all_ok. Qed.
Print Assumptions C46_read_all.

(* read_all_into does not append: it overwrites the first points, or panics if there are fewer than the file has *)
Theorem C46_read_all_into_partial :
  forall f raw l chunk b,
  file_ok f raw -> l_size raw <= chunk -> point_layout_from_las_metadata (h_format (f_header f)) (h_entries (f_header f)) false = Ok l ->
  mb_wf b -> mb_layout b = raw \/ readable (is_extended (h_format (f_header f))) raw (mb_layout b) ->
  if Nat.leb (length (records f)) (mb_len b) then exists b', read_all_into chunk b f = Ok (b', length (records f)) /\ filled f raw (records f) b b'
  else read_all_into chunk b f = Panic.
Proof. exact read_all_into_ok. Qed.
Print Assumptions C46_read_all_into_partial.

Theorem C46_read_all_into_refuted :
  exists f raw, file_ok f raw /\ length (records f) = 2
  /\ read_all_into (Z.to_nat (2 ^ 20)) (new_buffer KindVector (las_layout 0) 0) f = Panic
  /\ exists b', read_all_into (Z.to_nat (2 ^ 20)) (new_buffer KindVector raw0 2) f = Ok (b', 2) /\ mb_len b' = 2.
Proof.
  exists las_file2, raw0. pose proof (proj1 (proj2 file2_ok)) as FO. pose proof (proj2 (proj2 (proj2 file2_ok))) as LR. split; [exact FO|]. split; [exact LR|].
  pose proof FO as (_ & _ & _ & G & _). assert (EL : point_layout_from_las_metadata (h_format (f_header las_file2)) (h_entries (f_header las_file2)) false = Ok (las_layout 0)) by (vm_compute; reflexivity).
  assert (CH : l_size raw0 <= Z.to_nat (2 ^ 20)) by (change (l_size raw0) with 20; lia). split.
  - destruct (new_buffer_ok KindVector (las_layout 0) 0 (las_layout_good 0 ltac:(lia))) as (W & L & N & _).
    pose proof (read_all_into_ok las_file2 raw0 (las_layout 0) (Z.to_nat (2 ^ 20)) _ FO CH EL W) as H. rewrite LR, N, L in H. apply H. right.
    exact (proj2 (default_readable las_file2 raw0 (las_layout 0) FO EL)).
  - destruct (new_buffer_ok KindVector raw0 2 G) as (W & L & N & _).
    pose proof (read_all_into_ok las_file2 raw0 (las_layout 0) (Z.to_nat (2 ^ 20)) _ FO CH EL W (or_introl L)) as H. rewrite LR, N in H.
    destruct H as (b' & E & (_ & _ & LB & _)). exists b'. split; [exact E|]. rewrite LB. exact N.
Qed.
Print Assumptions C46_read_all_into_refuted.

(* ---- C69 ---- *)
Theorem C69_rejected_reads_partial :
  forall chunk r b count b' r', las_read_into chunk r b count = Ok (b', r', Unsupported) ->
  b' = b /\ (f_laz (r_file r) = false -> r' = r).
Proof.
  intros chunk r b count b' r' E. destruct (f_laz (r_file r)) eqn:L; [split; [exact (rejected_laz_buffer _ _ _ _ _ _ L E)|discriminate]|].
  destruct (rejected_las _ _ _ _ _ _ L E). auto.
Qed.
Print Assumptions C69_rejected_reads_partial.

(* a LAZ reader skips the points of the rejected read *)
Theorem C69_rejected_reads_refuted :
  exists f raw r r', file_ok f raw /\ open_reader f false = Ok r
  /\ las_read_into (Z.to_nat (2 ^ 20)) r (new_buffer KindVector bad_layout 1) 1 = Ok (new_buffer KindVector bad_layout 1, r', Unsupported)
  /\ las_point_index r = Ok (r, 0) /\ las_point_index r' = Ok (r', 1).
Proof. exists laz_file, raw0. destruct (rejected_laz (Z.to_nat (2 ^ 20))) as (r & r' & H). exists r, r'. split; [exact (proj1 file2_ok)|exact H]. Qed.
Print Assumptions C69_rejected_reads_refuted.

Example C69_ex : match open_reader las_file2 false with
  | Ok r => match las_read_into 64 r (new_buffer KindVector bad_layout 1) 1 with Ok (_, _, Unsupported) => true | _ => false end
  | _ => false end = true.
Proof. vm_compute. reflexivity. Qed.
