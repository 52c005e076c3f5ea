(* Reading all points of a file into a buffer, rejected reads, and the cases where files are not what one expects. *)
From Coq Require Import String List ZArith Lia Bool Arith SpecFloat ZifyBool ZifyNat ZifyN.
From Verif Require Import Base LayoutModel LayoutSpec LayoutProofs BufferModel BufferSpec ListLemmas BufferProofs BufferSteps BufferSteps3 BufferFacts TraitModel TraitSpec TraitProofs2
  NumModel NumSpec NumProofs NumProofs2 NumProofs3 ConvModel ConvSpec ConvProofs ConvProofs5 MathModel MathSpec LasModel LasSpec LasProofs LasProofs2 LasIoModel LasIoSpec
  LasIoProofs LasIoProofs2 LasIoProofs3 LasIoProofs4 LasIoProofs5 LasIoProofs6 LasIoProofs7 LasIoProofs8 LasIoProofs9 LasIoProofs10.
Import ListNotations.
Open Scope nat_scope.

(* ---------- the cursor of an opened reader ---------- *)
Lemma cursor f raw chunk exact r ops : file_ok f raw -> l_size raw <= chunk -> (Z.of_nat (length (records f)) < 2 ^ 63)%Z ->
  open_reader f exact = Ok r -> calls_ok f raw 0 ops ->
  exists r' es last, run_reader chunk r ops = Ok (r', es) /\ cursor_run f raw 0 ops es last
  /\ las_point_index r' = Ok (r', last) /\ las_point_count r' = Ok (r', length (records f)).
Proof.
  intros FO CH B O C. pose proof (open_reader_ok _ _ _ _ FO O) as RA.
  destruct (run_cursor f raw chunk ops FO CH B r 0 RA C) as (r' & es & last & E & CR & RA'). exists r', es, last. split; [exact E|]. split; [exact CR|].
  pose proof RA' as (R1 & R2 & R3 & R4 & R5). destruct (file_sizes f raw FO) as (SZ & LR & _ & _ & G).
  assert (RC : r_count r' = length (records f)) by (unfold r_count; rewrite R1; congruence).
  assert (RS : r_size r' = l_size raw) by (unfold r_size, h_record_length; rewrite R1; exact SZ).
  assert (PI : las_seek_point r' (FromCurrent 0) = Ok (r', last)).
  { unfold las_seek_point, i64_add. rewrite R3, RC, Z.add_0_r.
    destruct (Z.leb_spec (- 2 ^ 63) (Z.of_nat last)); [|lia]. destruct (Z.ltb_spec (Z.of_nat last) (2 ^ 63)); [|lia]. cbn [andb bind].
    destruct (Z.ltb_spec (Z.of_nat last) 0); [lia|]. cbv zeta. replace (Z.to_nat (Z.min (Z.of_nat (length (records f))) (Z.of_nat last))) with last by lia.
    rewrite Nat.eqb_refl. cbn [negb]. now rewrite R3. }
  split; [exact PI|]. unfold las_point_count, las_point_index. rewrite PI. cbn [bind].
  unfold las_seek_point at 1. unfold i64_add. rewrite RC, Z.add_0_r.
  destruct (Z.leb_spec (- 2 ^ 63) (Z.of_nat (length (records f)))); [|lia]. destruct (Z.ltb_spec (Z.of_nat (length (records f))) (2 ^ 63)); [|lia]. cbn [andb bind].
  destruct (Z.ltb_spec (Z.of_nat (length (records f))) 0); [lia|]. cbv zeta. rewrite Z.min_id, Nat2Z.id, R3.
  assert (W : wrap true 64 (Z.of_nat last) = Z.of_nat last).
  { unfold wrap. rewrite Z.mod_small by lia. change (64 - 1)%Z with 63%Z. destruct (Z.leb_spec (2 ^ 63) (Z.of_nat last)); [lia|reflexivity]. }
  unfold las_seek_point. rewrite W. cbn [bind]. destruct (Z.ltb_spec (Z.of_nat last) 0); [lia|]. cbv zeta.
  destruct (Nat.eqb_spec last (length (records f))) as [EL|NL]; cbn [negb].
  - rewrite RC, R3. replace (Z.to_nat (Z.min (Z.of_nat (length (records f))) (Z.of_nat last))) with last by lia. rewrite Nat.eqb_refl. cbn [negb bind]. rewrite EL. reflexivity.
  - change (r_count (with_index (with_position r' (length (records f) * r_size r')) (length (records f)))) with (r_count r').
    change (r_index (with_index (with_position r' (length (records f) * r_size r')) (length (records f)))) with (length (records f)).
    change (r_size (with_index (with_position r' (length (records f) * r_size r')) (length (records f)))) with (r_size r').
    rewrite RC. replace (Z.to_nat (Z.min (Z.of_nat (length (records f))) (Z.of_nat last))) with last by lia.
    destruct (Nat.eqb_spec (length (records f)) last); [congruence|]. cbn [negb]. rewrite RS, <- R5. clear - R3. destruct r'. cbn in *. subst. reflexivity.
Qed.
Lemma seek_u64 r n : (2 ^ 63 <= n < 2 ^ 64)%Z -> las_seek_point r (FromStart n) = Panic.
Proof.
  intros H. unfold las_seek_point, wrap. rewrite Z.mod_small by lia. change (64 - 1)%Z with 63%Z. destruct (Z.leb_spec (2 ^ 63) n); [|lia]. cbn [andb bind].
  destruct (Z.ltb_spec (n - 2 ^ 64) 0); [reflexivity|lia].
Qed.

(* ---------- read_all_into ---------- *)
Lemma read_all_into_ok f raw l chunk b : file_ok f raw -> l_size raw <= chunk ->
  point_layout_from_las_metadata (h_format (f_header f)) (h_entries (f_header f)) false = Ok l ->
  mb_wf b -> mb_layout b = raw \/ readable (is_extended (h_format (f_header f))) raw (mb_layout b) ->
  if Nat.leb (length (records f)) (mb_len b) then exists b', read_all_into chunk b f = Ok (b', length (records f)) /\ filled f raw (records f) b b'
  else read_all_into chunk b f = Panic.
Proof.
  intros FO CH EL W RD. destruct (open_reader_total f raw FO) as (r0 & OR0).
  assert (OR : exists r, open_reader f false = Ok r).
  { unfold open_reader in *. destruct (_ && _); [discriminate|]. rewrite EL. cbn [bind].
    destruct (point_layout_from_las_metadata (h_format (f_header f)) (h_entries (f_header f)) true); try discriminate. cbn [bind]. eexists. reflexivity. }
  destruct OR as (r & OR). unfold read_all_into. rewrite OR. cbn [bind]. pose proof (open_reader_ok _ _ _ _ FO OR) as RA.
  destruct (file_sizes f raw FO) as (_ & LR & _). pose proof RA as (R1 & _).
  assert (RC : r_count r = length (records f)) by (unfold r_count; rewrite R1; congruence). rewrite RC.
  destruct (Nat.leb_spec (length (records f)) (mb_len b)) as [LE|LT].
  - destruct (read_into_ok f raw FO chunk r b 0 (length (records f)) RA W RD LE CH) as (b' & r' & E & _ & FI).
    rewrite Nat.sub_0_r, Nat.min_id in E, FI. cbn [skipn] in FI. rewrite firstn_all in FI. rewrite E. cbn [bind]. eauto.
  - unfold las_read_into. destruct (Nat.leb_spec (length (records f)) (mb_len b)); [lia|]. reflexivity.
Qed.

(* ---------- rejected reads ---------- *)
Lemma rejected_las chunk r b count b' r' : f_laz (r_file r) = false -> las_read_into chunk r b count = Ok (b', r', Unsupported) -> b' = b /\ r' = r.
Proof.
  intros L. unfold las_read_into. destruct (assert (Nat.leb count (mb_len b))); try discriminate. cbn [bind]. rewrite L. destruct (negb (layout_eqb (mb_layout b) (r_exact_layout r))).
  - unfold read_into_custom_layout_las. destruct (remaining_points r) as [rem| |]; try discriminate. cbn [bind]. destruct (Nat.eqb (Nat.min count rem) 0); [discriminate|].
    destruct (assert _); try discriminate. cbn [bind]. destruct (assert _); try discriminate. cbn [bind].
    destruct (get_default_las_converter _ _ _); [|intros [= <- <-]; auto|discriminate].
    destruct (foldM _ _ _) as [[[? ?] ?]| |]; discriminate.
  - destruct (read_into_default_layout chunk r b count) as [[[? ?] ?]| |]; discriminate.
Qed.
Lemma rejected_laz_buffer chunk r b count b' r' : f_laz (r_file r) = true -> las_read_into chunk r b count = Ok (b', r', Unsupported) -> b' = b.
Proof.
  intros L. unfold las_read_into. destruct (assert (Nat.leb count (mb_len b))); try discriminate. cbn [bind]. rewrite L. destruct (negb (layout_eqb (mb_layout b) (r_exact_layout r))).
  - unfold read_into_custom_layout_laz. destruct (remaining_points r) as [rem| |]; try discriminate. cbn [bind]. destruct (Nat.eqb (Nat.min count rem) 0); [discriminate|].
    destruct (read_into_default_layout chunk r _ _) as [[[? ?] ?]| |]; try discriminate. cbn [bind].
    destruct (get_default_las_converter _ _ _); [|intros [= <- <-]; auto|discriminate].
    destruct (convert_into _ _ _); discriminate.
  - destruct (read_into_default_layout chunk r b count) as [[[? ?] ?]| |]; discriminate.
Qed.

(* ---------- concrete cases ---------- *)
Definition f64_one : spec_float := S754_finite false 4503599627370496 (-52).
Definition ex_tr : transforms := mk_tr (mk_p3 f64_one f64_one f64_one) (mk_p3 f64_zero f64_zero f64_zero).
Definition las_layout (n : nat) : layout := match las_type_layout n with Ok l => l | _ => layout_default end.
Definition plain (n : nat) : format := match format_new n with Ok f => f | _ => mk_format false false false false false 0 end.
Definition pos_layout : layout := match from_attributes [POSITION_3D] with Ok l => l | _ => layout_default end.
Definition return_layout : layout := match from_attributes [POSITION_3D; RETURN_NUMBER] with Ok l => l | _ => layout_default end.
Lemma grown_layout_good attrs l : from_attributes attrs = Ok l -> attrs <> [] -> forallb (fun a => Nat.ltb 0 (dt_size (ad_type a))) attrs = true -> good_layout l.
Proof.
  intros E N P. apply (grown_good (map (fun a => (a, Default)) attrs) l).
  - rewrite <- E. symmetry. apply from_attributes_history.
  - destruct attrs; [contradiction|discriminate].
  - intros a fa I. apply in_map_iff in I. destruct I as (a' & EQ & I). injection EQ as -> _. rewrite forallb_forall in P. apply Nat.ltb_lt. apply P, I.
Qed.
Definition representable_b (n : nat) (t : transforms) (l : layout) (p : list Z) : bool :=
  forallb (fun x => match field_bytes l t (fst (fst x)) p with Some _ => true | None => false end) (las_record n).
Lemma representable_ok n t l p : representable_b n t l p = true -> representable n t l p.
Proof. intros H field o s I. unfold representable_b in H. rewrite forallb_forall in H. apply H in I. cbn [fst] in I. destruct (field_bytes l t field p); congruence. Qed.
Lemma las_layout_good n : n <= 10 -> good_layout (las_layout n).
Proof.
  intros H. destruct (format_new_total n H) as (f & F). unfold las_layout. destruct (default_layout n f 0 F) as (l & DL & E & _). rewrite E. rewrite (with_extra_0 _ _ F) in DL.
  destruct (default_base f l DL) as (N & FE & P). rewrite adds_history in FE. apply (grown_good _ _ FE).
  - intros Z. apply map_eq_nil, map_eq_nil in Z. rewrite Z in FE. cbn in FE. congruence.
  - intros a fa I. apply in_map_iff in I. destruct I as (a' & EQ & I). injection EQ as -> _. apply in_map_iff in I. destruct I as (m & <- & I). exact (P m I).
Qed.
Lemma pos_layout_good : good_layout pos_layout.
Proof. apply (grown_layout_good [POSITION_3D]); [vm_compute; reflexivity|discriminate|reflexivity]. Qed.
Lemma return_layout_good : good_layout return_layout.
Proof. apply (grown_layout_good [POSITION_3D; RETURN_NUMBER]); [vm_compute; reflexivity|discriminate|reflexivity]. Qed.
(* a writer can always be opened for a plain format *)
Lemma open_plain laz n f t evlrs entries : format_new n = Ok f -> is_zero (px (t_scale t)) || is_zero (py (t_scale t)) || is_zero (pz (t_scale t)) = false ->
  exists w0, open_writer laz f entries t evlrs = Ok w0.
Proof.
  intros F Z. unfold open_writer. destruct (default_exists n f F) as (l0 & L). rewrite (default_of n f entries l0 F L). cbn [bind]. rewrite (format_extra _ _ F), Nat.eqb_refl, orb_true_r.
  cbn [assert bind]. rewrite Z. eexists. reflexivity.
Qed.

(* a buffer of n zero points *)
Definition zeros (k : buffer_kind) (l : layout) (n : nat) : buffer := Of (new_buffer k l n).
Lemma zeros_ok k l n : good_layout l -> bf_wf (zeros k l n) /\ bf_layout (zeros k l n) = l /\ bf_len (zeros k l n) = n /\ bf_points (zeros k l n) = repeat (repeat 0%Z (l_size l)) n.
Proof. intros G. destruct (new_buffer_ok k l n G) as (W & L & N & P). split; [exact W|]. split; [exact L|]. split; [exact N|exact P]. Qed.

(* LAZ, custom layout: one point becomes 50 000 records *)
Lemma laz_surplus chunk : 1 < chunk ->
  exists f w0 b w, format_new 0 = Ok f /\ open_writer true f None ex_tr [] = Ok w0 /\ bf_wf b /\ bf_len b = 1
  /\ (forall p, In p (written [Write b]) -> representable 0 ex_tr (fst p) (snd p))
  /\ run_writer chunk w0 [Write b; Flush] = Ok w /\ ~ holds_records 0 ex_tr (written [Write b]) (w_data w) /\ length (w_data w) = chunk * record_length 0.
Proof.
  intros C. destruct (format_new_total 0 ltac:(lia)) as (f & F). destruct (open_plain true 0 f ex_tr [] None F ltac:(reflexivity)) as (w0 & O).
  destruct (zeros_ok KindVector pos_layout 1 pos_layout_good) as (W & L & N & P). set (b := zeros KindVector pos_layout 1) in *. clearbody b.
  assert (REP : forall p, In p (written [Write b]) -> representable 0 ex_tr (fst p) (snd p)).
  { intros p I. rewrite written_write, L, P in I. cbn [map repeat In] in I. destruct I as [<-|[]]. apply representable_ok. vm_compute. reflexivity. }
  assert (OW : ops_wf [Write b]) by (repeat constructor; exact W).
  assert (OW' : ops_wf ([Write b] ++ [Flush])) by (repeat constructor; exact W).
  destruct (writer_total true 0 f None ex_tr [] chunk ([Write b] ++ [Flush]) w0 F ltac:(lia) OW' O) as (w & R).
  { intros p I. apply REP. rewrite written_app in I. cbn [written flat_map] in I. rewrite !app_nil_r in I. rewrite written_write. exact I. }
  destruct (default_exists 0 f F) as (l0 & L0).
  assert (S : surplus true chunk l0 [Write b] = chunk - 1).
  { unfold surplus. cbn [map list_sum fold_right]. rewrite L, N. replace (layout_eqb pos_layout l0) with false.
    2: { vm_compute in L0. injection L0 as <-. reflexivity. }
    cbn [negb andb]. rewrite (Nat.mod_small 1 chunk) by lia. rewrite Nat.mod_small by lia. lia. }
  exists f, w0, b, w. split; [exact F|]. split; [exact O|]. split; [exact W|]. split; [exact N|]. split; [exact REP|]. split; [exact R|]. split.
  - intros H. apply (laz_records_iff 0 f None ex_tr [] chunk [Write b] w0 w l0 F ltac:(lia) OW O L0 R) in H. lia.
  - destruct (laz_records 0 f None ex_tr [] chunk [Write b] w0 w l0 F ltac:(lia) OW O L0 R) as [E _]. rewrite E, S, written_write, map_length, P, repeat_length. f_equal. lia.
Qed.

(* custom layouts are not counted by return number *)
Definition return_one : vbuf := mk_vbuf (repeat 0%Z 24 ++ [1%Z] ++ repeat 0%Z 7) return_layout 1.
Lemma uncounted laz chunk : 0 < chunk ->
  exists f w0 w, format_new 0 = Ok f /\ open_writer laz f None ex_tr [] = Ok w0 /\ bf_wf (Of (VecB return_one))
  /\ run_writer chunk w0 [Write (Of (VecB return_one)); Flush] = Ok w
  /\ with_return 1 (written [Write (Of (VecB return_one))]) = 1%Z /\ nth 0 (h_returns (w_file w)) 0%Z = 0%Z.
Proof.
  intros C. destruct (format_new_total 0 ltac:(lia)) as (f & F). destruct (open_plain laz 0 f ex_tr [] None F ltac:(reflexivity)) as (w0 & O).
  assert (W : bf_wf (Of (VecB return_one))) by (split; [exact return_layout_good|vm_compute; reflexivity]).
  set (b := Of (VecB return_one)) in *.
  assert (OW : ops_wf [Write b]) by (constructor; [exact W|constructor]).
  assert (OW' : ops_wf ([Write b] ++ [Flush])) by (constructor; [exact W|constructor; [exact I|constructor]]).
  destruct (writer_total laz 0 f None ex_tr [] chunk ([Write b] ++ [Flush]) w0 F ltac:(lia) OW' O) as (w & R).
  { intros p I. assert (E : written ([Write b] ++ [Flush]) = [(return_layout, repeat 0%Z 24 ++ [1%Z] ++ repeat 0%Z 7)]) by (vm_compute; reflexivity).
    rewrite E in I. destruct I as [<-|[]]. apply representable_ok. vm_compute. reflexivity. }
  destruct (default_exists 0 f F) as (l0 & L0).
  exists f, w0, w. split; [exact F|]. split; [exact O|]. split; [exact W|]. split; [exact R|]. split; [vm_compute; reflexivity|].
  rewrite (header_returns laz 0 f None ex_tr [] chunk [Write b] w0 w l0 F C OW O L0 R).
  assert (E : in_layout l0 (written [Write b]) = []) by (vm_compute in L0; injection L0 as <-; vm_compute; reflexivity).
  rewrite E. reflexivity.
Qed.

(* more points than fit, after a flush: the legacy count is not set to 0 *)
Lemma stale laz chunk k : 0 < chunk -> (2 ^ 32 <= Z.of_nat k)%Z ->
  exists f w0 b1 b2 w, format_new 0 = Ok f /\ open_writer laz f None ex_tr [] = Ok w0 /\ ops_wf [Write b1; Flush; Write b2]
  /\ run_writer chunk w0 [Write b1; Flush; Write b2; Flush] = Ok w
  /\ h_total (w_file w) = (1 + Z.of_nat k)%Z /\ h_legacy_total (w_file w) = 1%Z.
Proof.
  intros C K. destruct (format_new_total 0 ltac:(lia)) as (f & F). destruct (open_plain laz 0 f ex_tr [] None F ltac:(reflexivity)) as (w0 & O).
  pose proof (las_layout_good 0 ltac:(lia)) as G.
  destruct (zeros_ok KindVector (las_layout 0) 1 G) as (W1 & L1 & N1 & P1). set (b1 := zeros KindVector (las_layout 0) 1) in *. clearbody b1.
  destruct (zeros_ok KindVector (las_layout 0) k G) as (W2 & L2 & N2 & P2). set (b2 := zeros KindVector (las_layout 0) k) in *. clearbody b2.
  assert (OW : ops_wf [Write b1; Flush; Write b2]) by (repeat constructor; assumption).
  assert (OW' : ops_wf ([Write b1; Flush; Write b2] ++ [Flush])) by (repeat constructor; assumption).
  assert (WR : written [Write b1; Flush; Write b2] = repeat (las_layout 0, repeat 0%Z (l_size (las_layout 0))) (1 + k)).
  { unfold written. cbn [flat_map]. rewrite L1, L2, P1, P2, !BufferSteps3.map_repeat, app_nil_r. cbn [app]. rewrite repeat_app. reflexivity. }
  destruct (writer_total laz 0 f None ex_tr [] chunk ([Write b1; Flush; Write b2] ++ [Flush]) w0 F C OW' O) as (w & R).
  { intros p I. rewrite written_app, WR in I. cbn [written flat_map] in I. rewrite app_nil_r in I. apply repeat_spec in I. subst p. apply representable_ok. vm_compute. reflexivity. }
  exists f, w0, b1, b2, w. split; [exact F|]. split; [exact O|]. split; [exact OW|]. split; [exact R|]. split.
  - rewrite (header_total laz 0 f None ex_tr [] chunk _ w0 w F C OW O R), WR, repeat_length. lia.
  - rewrite (stale_legacy laz 0 f None ex_tr [] chunk b1 b2 w0 w F ltac:(lia) C OW O R); rewrite ?N1, ?N2; try lia.
Qed.

(* extra bytes: neither read from the points nor written to the file *)
Definition extra_one : format := with_extra_bytes (plain 0) 1.
Definition extra_entries : option (list eb_entry) :=
  Some [mk_eb EbU8 0 (bytes_of "a") (repeat 0%Z 8) (repeat 0%Z 8) [] (repeat 0%Z 8) (repeat 0%Z 8) (repeat 0%Z 8)].
Definition extra_layout : layout := match point_layout_from_las_metadata extra_one extra_entries false with Ok l => l | _ => layout_default end.
Definition extra_point : list Z := repeat 0%Z 35 ++ [7%Z].
Definition extra_buffer : buffer := Of (VecB (mk_vbuf extra_point extra_layout 1)).
Lemma extra_values rest : read_default_points extra_one 1 (extra_point ++ rest) = read_default_points extra_one 1 extra_point.
Proof. vm_compute. reflexivity. Qed.
Lemma extra_write w0 chunk : open_writer false extra_one extra_entries ex_tr [] = Ok w0 -> 0 < chunk ->
  exists w, run_writer chunk w0 [Write extra_buffer; Flush] = Ok w /\ h_total (w_file w) = 1%Z /\ length (w_data w) = 20 /\ h_format (w_file w) = extra_one
  /\ h_tr (w_file w) = ex_tr /\ w_laz w = false /\ h_entries (w_file w) = extra_entries.
Proof.
  intros O C. assert (E0 : w0 = match open_writer false extra_one extra_entries ex_tr [] with Ok w => w | _ => w0 end) by now rewrite O. clear O.
  unfold run_writer, foldM, write_step, las_write.
  replace (layout_eqb (bf_layout extra_buffer) (w_default_layout w0)) with true by (rewrite E0; vm_compute; reflexivity). cbn [negb].
  unfold write_points. change (bf_len extra_buffer) with 1. cbn [Nat.eqb]. replace ((1 + (chunk - 1)) / chunk) with 1.
  2: { replace (1 + (chunk - 1)) with chunk by lia. symmetry. apply Nat.div_same. lia. }
  change (range 0 1) with [0]. unfold foldM. unfold write_chunk. change (bf_len extra_buffer) with 1. cbn [Nat.mul]. rewrite Nat.sub_0_r, Nat.min_r by lia.
  change (l_size (bf_layout extra_buffer)) with 36. change (1 * 36) with 36.
  replace (repeat 0%Z (chunk * 36)) with (repeat 0%Z 36 ++ repeat 0%Z ((chunk - 1) * 36)).
  2: { rewrite <- repeat_app. f_equal. lia. }
  set (rest := repeat 0%Z ((chunk - 1) * 36)). clearbody rest.
  replace (slice_get (repeat 0%Z 36 ++ rest) 0 36) with (Ok (repeat 0%Z 36)).
  2: { unfold slice_get. cbn. reflexivity. }
  cbn [bind]. change (0 + 1) with 1.
  replace (bf_get_point_range extra_buffer 0 1 (repeat 0%Z 36)) with (Ok extra_point) by (vm_compute; reflexivity). cbn [bind].
  replace (blit (repeat 0%Z 36 ++ rest) 0 extra_point) with (extra_point ++ rest) by reflexivity.
  set (lpb := repeat 0%Z (chunk * h_record_length (w_header w0))). clearbody lpb.
  assert (HF : h_format (w_header w0) = extra_one) by (rewrite E0; vm_compute; reflexivity). rewrite HF, extra_values.
  remember (read_default_points extra_one 1 extra_point) as vs eqn:VS. vm_compute in VS. subst vs. cbn [bind].
  rewrite E0. eexists. split; [vm_compute; reflexivity|]. vm_compute. repeat split.
Qed.
Definition extra_raw : layout := match point_layout_from_las_metadata extra_one extra_entries true with Ok l => l | _ => layout_default end.
Lemma extra_read w chunk : h_total (w_file w) = 1%Z -> length (w_data w) = 20 -> h_format (w_file w) = extra_one ->
  h_tr (w_file w) = ex_tr -> w_laz w = false -> h_entries (w_file w) = extra_entries -> 21 <= chunk ->
  exists r, open_reader (writer_file w) false = Ok r /\ r_layout r = extra_layout
  /\ las_read chunk KindVector r 1 = Err.
Proof.
  intros T L F TR LZ E C. destruct w as [wl wd wh we wr wf data wp]. cbn in T, L, F, TR, LZ, E. subst wl. destruct wf as [hf he ht htot hr hlt hlr hmn hmx]. cbn in T, F, TR, E. subst hf he ht htot.
  unfold open_reader, writer_file. cbn [w_laz w_file w_data f_laz f_header h_format h_entries andb].
  assert (E1 : point_layout_from_las_metadata extra_one extra_entries false = Ok extra_layout) by (vm_compute; reflexivity). rewrite E1. cbn [bind].
  assert (E2 : point_layout_from_las_metadata extra_one extra_entries true = Ok extra_raw) by (vm_compute; reflexivity). rewrite E2. cbn [bind].
  eexists. split; [reflexivity|]. split; [reflexivity|].
  set (r := mk_reader _ extra_layout extra_raw 0 0).
  assert (SZ : l_size extra_raw = 21) by (vm_compute; reflexivity).
  unfold las_read. change (r_layout r) with extra_layout. unfold las_read_into. change (Nat.leb 1 (mb_len (new_buffer KindVector extra_layout 1))) with true. cbn [assert bind].
  change (mb_layout (new_buffer KindVector extra_layout 1)) with extra_layout. change (r_exact_layout r) with extra_raw.
  replace (layout_eqb extra_layout extra_raw) with false by (vm_compute; reflexivity). cbn [negb].
  change (f_laz (r_file r)) with false. cbv iota. unfold read_into_custom_layout_las. change (remaining_points r) with (Ok 1 : res nat). cbn [bind Nat.min Nat.eqb].
  change (r_exact_layout r) with extra_raw. rewrite SZ. cbn [Nat.eqb negb assert bind].
  assert (P : 0 < chunk / 21) by (apply Nat.div_str_pos; lia). set (per := chunk / 21) in *. clearbody per.
  destruct (Nat.eqb_spec per 0); [lia|]. cbn [negb assert bind]. replace ((1 + per - 1) / per) with 1.
  2: { replace (1 + per - 1) with per by lia. symmetry. apply Nat.div_same. lia. }
  cbn [Nat.ltb Nat.leb]. change (h_tr (f_header (r_file r))) with ex_tr.
  assert (CV : is_ok (get_default_las_converter extra_raw (mb_layout (new_buffer KindVector extra_layout 1)) ex_tr) = true) by (vm_compute; reflexivity).
  destruct (get_default_las_converter extra_raw (mb_layout (new_buffer KindVector extra_layout 1)) ex_tr) as [cv| |]; [|discriminate CV|discriminate CV]. clear CV.
  change (range 0 1) with [0]. cbn [foldM]. change (Nat.eqb 0 (1 - 1)) with true. cbv iota. change (1 - (1 - 1) * 1) with 1.
  unfold read_into_default_layout. change (remaining_points r) with (Ok 1 : res nat). cbn [bind Nat.min Nat.eqb].
  change (mb_is_columnar (VecB (vb_resize (vb_new extra_raw) 1))) with false. cbn [negb].
  replace (mb_get_point_range_ref (VecB (vb_resize (vb_new extra_raw) 1)) 0 1) with (Ok (repeat 0%Z 21)) by (vm_compute; reflexivity).
  cbn [bind]. rewrite repeat_length. unfold read_exact. change (r_position r) with 0. change (f_data (r_file r)) with data. rewrite L. reflexivity.
Qed.

(* rejected reads of LAZ readers skip points: positions cannot be read as integers *)
Definition bad_layout : layout := match from_attributes [mk_def "Position3D" Vec3i32] with Ok l => l | _ => layout_default end.
Definition laz_file : las_file :=
  mk_file true (mk_header (plain 0) None ex_tr 2 (repeat 0%Z 15) 0 (repeat 0%Z 5) (mk_p3 f64_zero f64_zero f64_zero) (mk_p3 f64_zero f64_zero f64_zero)) (repeat 0%Z 40).
Definition las_file2 : las_file := mk_file false (f_header laz_file) (f_data laz_file).
Lemma bad_layout_good : good_layout bad_layout.
Proof. apply (grown_layout_good [mk_def "Position3D" Vec3i32]); [vm_compute; reflexivity|discriminate|reflexivity]. Qed.
Definition raw0 : layout := match point_layout_from_las_metadata (plain 0) None true with Ok l => l | _ => layout_default end.
Lemma file2_ok : file_ok laz_file raw0 /\ file_ok las_file2 raw0 /\ length (records laz_file) = 2 /\ length (records las_file2) = 2.
Proof.
  destruct (exact_raw 0 (plain 0) None ltac:(reflexivity)) as (raw & E & _ & S & G & P & B & _). assert (raw = raw0) by (unfold raw0; now rewrite E). subst raw.
  split; [|split; [|split; vm_compute; reflexivity]]; (split; [reflexivity|]; split; [exact E|]; split; [exact S|]; split; [exact G|]; split; [exact P|]; split; [exact B|];
    split; [vm_compute; discriminate|]; split; [vm_compute; auto with arith|intros _ X; discriminate X]).
Qed.
Lemma rejected_laz chunk : exists r r', open_reader laz_file false = Ok r
  /\ las_read_into chunk r (new_buffer KindVector bad_layout 1) 1 = Ok (new_buffer KindVector bad_layout 1, r', Unsupported)
  /\ las_point_index r = Ok (r, 0) /\ las_point_index r' = Ok (r', 1).
Proof. eexists. eexists. split; [vm_compute; reflexivity|]. split; [vm_compute; reflexivity|]. split; vm_compute; reflexivity. Qed.

(* positions *)
Definition hundredth : spec_float := S754_finite false 5764607523034235 (-59).
Lemma grid_lost : grid (world 29 hundredth f64_zero) f64_zero hundredth = Some 28%Z.
Proof. vm_compute. reflexivity. Qed.
Lemma extra_buffer_wf : bf_wf extra_buffer.
Proof.
  split; [|vm_compute; reflexivity].
  apply (grown_good (map (fun m => (m_def m, Packed 1)) (l_attrs extra_layout))); [vm_compute; reflexivity|discriminate|].
  assert (P : forallb (fun x : attr_def * field_alignment => Nat.ltb 0 (dt_size (ad_type (fst x)))) (map (fun m => (m_def m, Packed 1)) (l_attrs extra_layout)) = true) by (vm_compute; reflexivity).
  intros a fa I. rewrite forallb_forall in P. apply P in I. apply Nat.ltb_lt. exact I.
Qed.
Lemma extra_open : exists w0, open_writer false extra_one extra_entries ex_tr [] = Ok w0.
Proof. eexists. vm_compute. reflexivity. Qed.
