(* Proofs about files written and read by their names. *)
From Coq Require Import String List ZArith Lia Bool Arith Permutation SpecFloat.
From Verif Require Import Base LayoutModel LayoutSpec LayoutProofs BufferModel BufferSpec ListLemmas BufferProofs
  TraitModel TraitSpec NumModel NumSpec NumProofs ConvModel ConvSpec MathModel LasModel LasSpec LasProofs2 LasIoModel LasIoSpec LasIoProofs9 LasIoProofs11 LasIoProofs12 LasIoProofs13 WriteAllExamples
  TraitProofs2 TraitProofs3 PntsModel PntsSpec PntsProofs2 PntsProofs11 PntsExamples ViewsProofs InfoModel PathModel PathSpec.
Import ListNotations.
Open Scope nat_scope.

Lemma put_same d name c : put d name c name = Some c.
Proof. unfold put. now rewrite String.eqb_refl. Qed.
Lemma put_other d name c n : n <> name -> put d name c n = d n.
Proof. intros N. unfold put. destruct (String.eqb_spec n name); [contradiction|reflexivity]. Qed.
Lemma leave_other {A} d name left (x : res A) k n : n <> name -> (forall a, fst (k a) n = d n) -> fst (or_leave d name left x k) n = d n.
Proof. intros N H. destruct x; cbn [or_leave fst]; [apply H|now apply put_other..]. Qed.
Lemma others c order chunk d name b n : n <> name -> fst (write_all_file c order chunk d name b) n = d n.
Proof.
  intros N. unfold write_all_file. destruct (get_extension_lookup name) as [[]| |]; [| |reflexivity..].
  - destruct (path_is_compressed_las_file name); [|reflexivity..]. apply leave_other; [exact N|]. intros w. apply leave_other; [exact N|]. intros w'. now apply put_other.
  - repeat (apply leave_other; [exact N|]; intros ?). now apply put_other.
Qed.
(* what is in the file afterwards does not depend on what was in it or in others *)
Lemma or_leave_same {A} d d' name left (x : res A) k k' : (forall a, fst (k a) name = fst (k' a) name /\ snd (k a) = snd (k' a)) ->
  fst (or_leave d name left x k) name = fst (or_leave d' name left x k') name /\ snd (or_leave d name left x k) = snd (or_leave d' name left x k').
Proof. intros H. destruct x; cbn [or_leave fst snd]; [apply H|rewrite !put_same; auto..]. Qed.
Lemma replaced c order chunk d d' name b kind : get_extension_lookup name = Ok kind ->
  fst (write_all_file c order chunk d name b) name = fst (write_all_file c order chunk d' name b) name
  /\ snd (write_all_file c order chunk d name b) = snd (write_all_file c order chunk d' name b).
Proof.
  intros E. unfold write_all_file. rewrite E. destruct kind.
  - unfold get_extension_lookup in E. unfold path_is_compressed_las_file. destruct (extension name); [|discriminate E].
    repeat (apply or_leave_same; intros ?). cbn [fst snd]. rewrite !put_same. auto.
  - repeat (apply or_leave_same; intros ?). cbn [fst snd]. rewrite !put_same. auto.
Qed.
Lemma not_written_later c order chunk ws : forall d name, ~ In name (map fst ws) -> write_files c order chunk d ws name = d name.
Proof.
  unfold write_files. induction ws as [|[n b] ws IH]; intros d name N; cbn [fold_left map fst snd] in *; [reflexivity|].
  rewrite IH by (intros X; apply N; now right). apply others. intros X. apply N. now left.
Qed.
Lemma last_write c order chunk d before name b after kind : get_extension_lookup name = Ok kind -> ~ In name (map fst after) ->
  write_files c order chunk d (before ++ (name, b) :: after) name = fst (write_all_file c order chunk d name b) name.
Proof.
  intros E N. unfold write_files. rewrite fold_left_app. cbn [fold_left fst snd]. fold (write_files c order chunk d before).
  change (write_files c order chunk (fst (write_all_file c order chunk (write_files c order chunk d before) name b)) after name = fst (write_all_file c order chunk d name b) name).
  rewrite (not_written_later _ _ _ _ _ _ N). apply (replaced c order chunk _ _ name b kind E).
Qed.
Lemma same_content c chunk k d d' name : d name = d' name -> read_all_file c chunk k d name = read_all_file c chunk k d' name.
Proof. intros E. unfold read_all_file, open_file. rewrite E. reflexivity. Qed.

Lemma unsupported c order chunk k d stem ext b x : proper stem ext -> ~ las_extension ext -> ~ pnts_extension ext ->
  write_all_file c order chunk d (named stem ext) b = (d, Err) /\ read_all_file c chunk k d (named stem ext) = Err /\ read_all_into_file c chunk x d (named stem ext) = Err.
Proof.
  intros (S & E & D) L P. assert (X : get_extension_lookup (named stem ext) = Err) by (apply (kind_of_named stem ext S E D); unfold las_extension, pnts_extension in *; tauto).
  unfold write_all_file, read_all_file, read_all_into_file, open_file. rewrite X. auto.
Qed.

Lemma las_kind stem ext : proper stem ext -> las_extension ext -> get_extension_lookup (named stem ext) = Ok KindLas.
Proof. intros (S & E & D) L. now apply (kind_of_named stem ext S E D). Qed.
Lemma pnts_kind stem ext : proper stem ext -> pnts_extension ext -> get_extension_lookup (named stem ext) = Ok KindTiles3D.
Proof. intros (S & E & D) L. now apply (kind_of_named stem ext S E D). Qed.
(* through the name of the file *)
Lemma las_by_name c order chunk chunk' k d stem ext b f : proper stem ext -> las_extension ext -> write_all chunk (String.eqb ext "laz") b = Ok f -> f_laz f = String.eqb ext "laz" ->
  write_all_file c order chunk d (named stem ext) b = (put d (named stem ext) (LasContent f), Ok tt)
  /\ read_all_file c chunk' k (put d (named stem ext) (LasContent f)) (named stem ext) = read_all chunk' k f.
Proof.
  intros P L E Z. assert (C : path_is_compressed_las_file (named stem ext) = Ok (String.eqb ext "laz")) by (destruct P as (S & E' & D); now apply compressed_of_named).
  assert (K := las_kind stem ext P L). unfold write_all in E. split.
  - unfold write_all_file. rewrite K, C. destruct (open_writer_for_layout _ _) as [w| |]; try discriminate E. cbn [bind or_leave] in *.
    destruct (las_write chunk w b) as [w'| |]; try discriminate E. cbn [bind or_leave] in *. congruence.
  - unfold read_all_file, open_file, read_all. rewrite K. cbn [bind]. rewrite C. cbn [bind]. rewrite put_same, Z, Bool.eqb_reflx.
    destruct (open_reader f false) as [r| |]; cbn [bind]; [|reflexivity..]. unfold generic_read, las_read. cbn [generic_count default_layout generic_read_into].
    destruct (las_read_into chunk' r _ _) as [((b', r'), n)| |]; cbn [bind]; [|reflexivity..]. destruct n; reflexivity.
Qed.
Lemma write_all_outcome c order chunk d stem ext b : proper stem ext -> las_extension ext -> 0 < chunk -> bf_wf b ->
  match write_all chunk (String.eqb ext "laz") b with
  | Ok f => f_laz f = String.eqb ext "laz" /\ write_all_file c order chunk d (named stem ext) b = (put d (named stem ext) (LasContent f), Ok tt)
  | Err => write_all_file c order chunk d (named stem ext) b = (put d (named stem ext) (Bytes []), Err)
  | Panic => snd (write_all_file c order chunk d (named stem ext) b) = Panic
  end.
Proof.
  intros P L CH W. pose proof (write_all_ok chunk (String.eqb ext "laz") b CH W) as H.
  assert (C : path_is_compressed_las_file (named stem ext) = Ok (String.eqb ext "laz")) by (destruct P as (S & E' & D); now apply compressed_of_named).
  assert (K := las_kind stem ext P L). destruct (write_all chunk (String.eqb ext "laz") b) as [f| |] eqn:E.
  - destruct (format_to_u8 _) as [n| |]; [|discriminate H..]. assert (Z : f_laz f = String.eqb ext "laz") by apply H. split; [exact Z|].
    exact (proj1 (las_by_name c order chunk 0 KindVector d stem ext b f P L E Z)).
  - destruct (format_to_u8 (las_point_format_from_point_layout (bf_layout b))) as [n| |] eqn:EF; [destruct H| |].
    + unfold write_all_file. rewrite K, C. unfold open_writer_for_layout. rewrite EF. reflexivity.
    + unfold write_all, open_writer_for_layout in E. rewrite EF in E. discriminate E.
  - unfold write_all in E. unfold write_all_file. rewrite K, C. destruct (open_writer_for_layout _ _) as [w| |]; try discriminate E; cbn [bind or_leave] in *; [|reflexivity].
    destruct (las_write chunk w b) as [w'| |]; try discriminate E; reflexivity.
Qed.

(* ---- PNTS ---- *)
Lemma pnts_written c order chunk d stem ext b d' : proper stem ext -> pnts_extension ext -> write_all_file c order chunk d (named stem ext) b = (d', Ok tt) ->
  exists w0 w, writer_new order (bf_layout b) = Ok w0 /\ run_and_drop c w0 [Write b; PntsSpec.Flush] = Ok w /\ d' = put d (named stem ext) (Bytes (pw_out w)).
Proof.
  intros P L. unfold write_all_file. rewrite (pnts_kind stem ext P L). unfold run_and_drop. cbn [foldM writer_step].
  destruct (writer_new order (bf_layout b)) as [w0| |]; cbn [or_leave]; [|discriminate..]. destruct (write w0 b) as [w1| |] eqn:E1; cbn [or_leave]; [|discriminate..].
  destruct (flush c w1) as [w2| |] eqn:E2; cbn [or_leave]; [|discriminate..]. destruct (flush c w2) as [w3| |] eqn:E3; cbn [or_leave]; [|discriminate..].
  intros E. injection E as <-. exists w0, w3. split; [reflexivity|]. split; [|reflexivity]. rewrite E1. cbn [bind]. rewrite E2. cbn [bind]. exact E3.
Qed.
Lemma mode_without_centre r b n : pr_rtc r = None -> pr_mode r = Absolute ->
  read_into r b n = match read_into (set_read_positions_mode r RelativeToCenter) b n with Ok (m, b', r') => Ok (m, b', set_read_positions_mode r' Absolute) | Err => Err | Panic => Panic end.
Proof.
  intros R M. unfold read_into. cbn [set_read_positions_mode pr_num pr_index pr_layout pr_mode pr_bytes pr_rtc pr_offsets]. rewrite M. destruct (Nat.eqb _ 0); [reflexivity|].
  change (read_attribute (set_read_positions_mode r RelativeToCenter)) with (read_attribute r).
  destruct (foldM _ _ _) as [b1| |]; cbn [bind]; [|reflexivity..]. unfold apply_rtc_center_offset. rewrite R. reflexivity.
Qed.
Lemma pnts_round_trip c reread order chunk chunk' k d stem ext b d' : json_ok c reread -> (forall x, Permutation (order x) x) -> proper stem ext -> pnts_extension ext ->
  bf_wf b -> pnts_ready (bf_layout b) -> 0 < bf_len b -> write_all_file c order chunk d (named stem ext) b = (d', Ok tt) ->
  exists b', read_all_file c chunk' k d' (named stem ext) = Ok b' /\ mb_wf b' /\ mb_len b' = bf_len b
  /\ (forall m key t, In m (l_attrs (bf_layout b)) -> semantic (m_name m) key t -> exists tm, In tm (l_attrs (mb_layout b')) /\ m_name tm = m_name m /\ m_type tm = t
        /\ forall i p, nth_error (bf_points b) i = Some p -> exists q, nth_error (mb_points b') i = Some q /\ value_as (m_type m) t (attr_value m p) = Some (attr_value tm q))
  /\ (forall tm, In tm (l_attrs (mb_layout b')) -> exists m key, In m (l_attrs (bf_layout b)) /\ m_name m = m_name tm /\ semantic (m_name m) key (m_type tm)).
Proof.
  intros J P PR PE W RD LB E. assert (G := bf_good b W). destruct (pnts_written c order chunk d stem ext b d' PR PE E) as (w0 & w & N & R & ->).
  assert (OK : Forall (call_ok (bf_layout b)) [Write b; PntsSpec.Flush]) by (constructor; [split; [exact W|reflexivity]|constructor; [exact I|constructor]]).
  destruct (reopened c reread (bf_layout b) order _ w0 w J P G RD OK N R) as (r & O & RO & H & RT & IX & MO).
  cbn [before_flush] in H, RT. unfold written in H. cbn [map concat] in H. rewrite app_nil_r in H. cbn [centre_set fold_left option_map] in RT.
  destruct (bf_points_uniform b W) as [_ LP]. destruct (new_buffer_ok k (pr_layout r) (pr_num r) (proj1 RO)) as (W0 & L0 & N0 & P0).
  assert (LN : pr_num r = length (bf_points b)) by exact (proj1 H).
  assert (FR : file_readable (pr_layout r)).
  { intros tm key t I S. left. destruct H as (_ & _ & H3). destruct (H3 tm I) as (m & key' & _ & NM & S'). rewrite NM in S'. unfold semantic in S, S'. cbn [In] in S, S'.
    destruct S as [S|[S|[S|[S|[]]]]], S' as [S'|[S'|[S'|[S'|[]]]]]; congruence. }
  destruct (read_all_back r (bf_layout b) (bf_points b) (new_buffer k (pr_layout r) (pr_num r)) RO H IX G W0) as (b' & r' & RE & W' & (SO1 & SO2) & L' & _ & V).
  { rewrite N0. exact LN. } { rewrite LP. exact LB. } { rewrite L0. exact FR. }
  rewrite <- LN in RE.
  assert (LB' : mb_len b' = pr_num r). { destruct (bf_points_uniform (Of b') W') as [_ X]. change (bf_points (Of b')) with (mb_points b') in X. change (bf_len (Of b')) with (mb_len b') in X. lia. }
  destruct (resize_same b' (pr_num r) W' LB') as (RW & RL & RN & RP). exists (resize_buffer b' (pr_num r)).
  assert (LL : mb_layout (resize_buffer b' (pr_num r)) = pr_layout r).
  { rewrite RL. rewrite SO1. exact L0. }
  split.
  { unfold read_all_file, open_file. rewrite (pnts_kind stem ext PR PE). cbn [bind]. rewrite put_same, O. cbn [bind]. unfold generic_read. cbn [generic_count default_layout generic_read_into].
    rewrite (mode_without_centre r _ _ RT MO), RE. reflexivity. }
  split; [exact RW|]. split; [rewrite RN, LN; exact LP|]. rewrite LL, RP. split.
  - intros m key t I S. destruct (proj1 (proj2 H) m key t I S) as (rm & I1 & N1 & T1 & _). exists rm. split; [exact I1|]. split; [exact N1|]. split; [exact T1|].
    intros i p Hp. assert (HI : i < pr_num r) by (rewrite LN; apply nth_error_Some; rewrite Hp; discriminate).
    destruct (nth_error (mb_points b') i) as [q|] eqn:Hq; [|apply nth_error_None in Hq; lia].
    destruct (nth_error (mb_points (new_buffer k (pr_layout r) (pr_num r))) i) as [old|] eqn:Ho; [|apply nth_error_None in Ho; rewrite P0, repeat_length in Ho; lia].
    exists q. split; [reflexivity|]. destruct (V i p old q Hp Ho Hq) as (V1 & _). rewrite L0 in V1. destruct (V1 m key t rm I S I1 N1) as (v & A & B). rewrite T1, value_as_same in B. congruence.
  - exact (proj2 (proj2 H)).
Qed.

Lemma las_round_trip c order chunk chunk' k d stem ext b n l0 : proper stem ext -> las_extension ext ->
  0 < chunk -> bf_wf b -> format_to_u8 (las_point_format_from_point_layout (bf_layout b)) = Ok n -> las_type_layout n = Ok l0 ->
  (ext = "laz"%string -> n <> 9 /\ n <> 10) -> record_length n <= chunk' -> (forall p, In p (bf_points b) -> representable n default_transforms (bf_layout b) p) ->
  exists d' b', write_all_file c order chunk d (named stem ext) b = (d', Ok tt) /\ read_all_file c chunk' k d' (named stem ext) = Ok b'
  /\ mb_wf b' /\ mb_layout b' = l0 /\ mb_len b' = bf_len b
  /\ forall i p tm, nth_error (bf_points b) i = Some p -> In tm (l_attrs l0) ->
     exists p', nth_error (mb_points b') i = Some p' /\ LasIoSpec.came_back (Nat.ltb 5 n) default_transforms (bf_layout b) tm p = Some (attr_value tm p').
Proof.
  intros P L CH W F T Z R H. destruct (write_read chunk chunk' (String.eqb ext "laz") k b n l0 CH W F T) as (f & b' & E & RA & REST); [|exact R|exact H|].
  - intros X. apply Z. now apply String.eqb_eq.
  - pose proof (write_all_outcome c order chunk d stem ext b P L CH W) as O. rewrite E in O. destruct O as (O1 & O2).
    exists (put d (named stem ext) (LasContent f)), b'. split; [exact O2|]. split; [|exact REST]. rewrite <- RA. exact (proj2 (las_by_name c order chunk chunk' k d stem ext b f P L E O1)).
Qed.

Lemma into_las c chunk d stem ext x f : proper stem ext -> las_extension ext -> d (named stem ext) = Some (LasContent f) -> f_laz f = String.eqb ext "laz" ->
  read_all_into_file c chunk x d (named stem ext) = read_all_into chunk x f.
Proof.
  intros P L E Z. assert (C : path_is_compressed_las_file (named stem ext) = Ok (String.eqb ext "laz")) by (destruct P as (S & E' & D); now apply compressed_of_named).
  unfold read_all_into_file, open_file, read_all_into. rewrite (las_kind stem ext P L). cbn [bind]. rewrite C. cbn [bind]. rewrite E, Z, Bool.eqb_reflx.
  destruct (open_reader f false) as [r| |]; cbn [bind]; [|reflexivity..]. cbn [generic_count generic_read_into].
  destruct (las_read_into chunk r _ _) as [((b', r'), n)| |]; cbn [bind]; [|reflexivity..]. destruct n; reflexivity.
Qed.
Lemma into_pnts c reread order chunk chunk' d stem ext b d' x : json_ok c reread -> (forall x, Permutation (order x) x) -> proper stem ext -> pnts_extension ext ->
  bf_wf b -> pnts_ready (bf_layout b) -> 0 < bf_len b -> write_all_file c order chunk d (named stem ext) b = (d', Ok tt) ->
  mb_wf x -> mb_len x = bf_len b -> file_readable (mb_layout x) ->
  exists x', read_all_into_file c chunk' x d' (named stem ext) = Ok (x', bf_len b) /\ mb_wf x' /\ mb_layout x' = mb_layout x /\ mb_len x' = mb_len x
  /\ forall i p old q, nth_error (bf_points b) i = Some p -> nth_error (mb_points x) i = Some old -> nth_error (mb_points x') i = Some q ->
       PntsSpec.came_back (bf_layout b) (mb_layout x) p old q.
Proof.
  intros J P PR PE W RD LB E WX LX FX. assert (G := bf_good b W). destruct (pnts_written c order chunk d stem ext b d' PR PE E) as (w0 & w & N & R & ->).
  assert (OK : Forall (call_ok (bf_layout b)) [Write b; PntsSpec.Flush]) by (constructor; [split; [exact W|reflexivity]|constructor; [exact I|constructor]]).
  destruct (reopened c reread (bf_layout b) order _ w0 w J P G RD OK N R) as (r & O & RO & H & RT & IX & MO).
  cbn [before_flush] in H, RT. unfold written in H. cbn [map concat] in H. rewrite app_nil_r in H. cbn [centre_set fold_left option_map] in RT.
  destruct (bf_points_uniform b W) as [_ LP]. assert (LN : pr_num r = length (bf_points b)) by exact (proj1 H).
  destruct (read_all_back r (bf_layout b) (bf_points b) x RO H IX G WX) as (b' & r' & RE & W' & (SO1 & SO2 & _) & L' & _ & V); [lia|lia|exact FX|].
  exists b'. rewrite <- LN in RE. split; [|auto]. unfold read_all_into_file, open_file. rewrite (pnts_kind stem ext PR PE). cbn [bind]. rewrite put_same, O. cbn [bind generic_count generic_read_into].
  rewrite (mode_without_centre r _ _ RT MO), RE. cbn [bind]. congruence.
Qed.
