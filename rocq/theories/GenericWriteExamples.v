(* Examples of writers whose format is not known to the program. *)
From Coq Require Import String List ZArith Lia Bool Arith SpecFloat.
From Verif Require Import Base LayoutModel LayoutSpec BufferModel BufferSpec BufferProofs TraitModel TraitSpec NumModel NumSpec ConvModel ConvSpec MathModel LasModel LasSpec LasProofs2
  LasIoModel LasIoSpec LasIoProofs9 LasIoProofs10 LasIoProofs11 LasIoProofs12 PntsModel PntsSpec PntsExamples InfoModel PathModel PathSpec PathProofs PathExamples
  GenericModel GenericSpec GenericProofs GenericExamples GenericWriteModel GenericWriteSpec.
Import ListNotations.
Open Scope nat_scope.

Definition three_points : buffer := Of (VecB (mk_vbuf (map (fun k => Z.of_nat (if Nat.ltb (k mod 35) 24 then 0 else k)) (seq 0 105)) (las_layout 0) 3)).
Definition las_ops : list write_op := [LasIoSpec.Write three_points; LasIoSpec.Flush; LasIoSpec.Write three_points].
Definition pnts_ops : list write_op := [LasIoSpec.Write (Of t_points); LasIoSpec.Write (Of t_points); LasIoSpec.Flush].
Definition lossy_ops : list write_op := [LasIoSpec.Write (Of t_points); LasIoSpec.Flush; LasIoSpec.Write (Of t_points)].
Definition after_las : dir := match write_history ex_codec (fun x => x) 2 nothing "a.las" (las_layout 0) (las_ops ++ [LasIoSpec.Flush]) with Ok d => d | _ => nothing end.
Definition after_pnts (ops : list write_op) : dir := match write_history ex_codec (fun x => x) 2 nothing "b.pnts" t_layout ops with Ok d => d | _ => nothing end.
Definition count_in (d : dir) (name : string) : option nat := match open_file ex_codec d name with Ok g => match generic_point_count g with Ok (_, n) => Some n | _ => None end | _ => None end.

Lemma las_ops_apply : ops_wf las_ops /\ ops_layout (las_layout 0) las_ops /\ las_type_layout 0 = Ok (las_layout 0)
  /\ format_to_u8 (las_point_format_from_point_layout (las_layout 0)) = Ok 0 /\ length (points_of las_ops) = 6
  /\ write_history ex_codec (fun x => x) 2 nothing "a.las" (las_layout 0) (las_ops ++ [LasIoSpec.Flush]) = Ok after_las /\ count_in after_las "a.las" = Some 6
  /\ reads_ok (las_layout 0) 6 0 (map las_call (some_calls (new_buffer KindHashMap (las_layout 0) 1))).
Proof.
  assert (W : bf_wf three_points) by (split; [apply las_layout_good; lia|vm_compute; reflexivity]).
  split; [constructor; [exact W|constructor; [exact I|constructor; [exact W|constructor]]]|]. split; [repeat constructor|]. split; [vm_compute; reflexivity|]. split; [vm_compute; reflexivity|]. split; [vm_compute; reflexivity|].
  split; [unfold after_las; destruct (write_history _ _ _ _ _ _ _) eqn:E; [reflexivity|exfalso..]|].
  1,2: assert (X : match write_history ex_codec (fun x => x) 2 nothing "a.las" (las_layout 0) (las_ops ++ [LasIoSpec.Flush]) with Ok _ => true | _ => false end = true) by (vm_compute; reflexivity); rewrite E in X; discriminate.
  split; [vm_compute; reflexivity|]. destruct (new_buffer_ok KindHashMap (las_layout 0) 1 (las_layout_good 0 ltac:(lia))) as (WB & L & N & _).
  cbn [some_calls map las_call reads_ok]. rewrite L, N.
  change (seek_target 6 (0 + Nat.min 1 (6 - 0)) (FromStart 9)) with (Some 6). cbv iota. change (seek_target 6 6 (FromEnd (-2))) with (Some 4). cbv iota.
  change (seek_target 6 (4 + Nat.min 1 (6 - 4)) (FromCurrent (-1))) with (Some 4). cbv iota. auto 20.
Qed.
Lemma wrote_pnts ops : (ops = pnts_ops \/ ops = lossy_ops) -> write_history ex_codec (fun x => x) 2 nothing "b.pnts" t_layout ops = Ok (after_pnts ops).
Proof.
  intros H. unfold after_pnts. destruct (write_history _ _ _ _ _ _ ops) eqn:E; [reflexivity|exfalso..];
  assert (X : match write_history ex_codec (fun x => x) 2 nothing "b.pnts" t_layout ops with Ok _ => true | _ => false end = true) by (destruct H as [-> | ->]; vm_compute; reflexivity);
  rewrite E in X; discriminate.
Qed.
Lemma pnts_ops_apply : good_layout t_layout /\ pnts_ready t_layout /\ ops_wf pnts_ops /\ ops_layout t_layout pnts_ops /\ flushed_last pnts_ops /\ length (points_of pnts_ops) = 4
  /\ write_history ex_codec (fun x => x) 2 nothing "b.pnts" t_layout pnts_ops = Ok (after_pnts pnts_ops) /\ count_in (after_pnts pnts_ops) "b.pnts" = Some 4
  /\ reads_within 4 0 (some_calls (t_empty 1)).
Proof.
  split; [exact t_good|]. split; [exact t_ready|]. split; [constructor; [exact t_points_wf|constructor; [exact t_points_wf|constructor; [exact I|constructor]]]|]. split; [repeat constructor|]. split; [repeat constructor|].
  split; [vm_compute; reflexivity|]. split; [apply wrote_pnts; now left|]. split; [vm_compute; reflexivity|].
  assert (FR : file_readable (mb_layout (t_empty 1))) by exact (proj2 (proj2 t_fits)). assert (W := t_empty_wf 1). assert (L : 1 <= mb_len (t_empty 1)) by reflexivity.
  cbn [some_calls reads_within]. change (Nat.min 1 (4 - 0)) with 1. split; [lia|]. split; [exact W|]. split; [exact L|]. split; [exact FR|]. split; [cbn; lia|]. exists 4. split; [split; [cbn; lia|reflexivity]|].
  split; [cbn; lia|]. exists 2. split; [split; [cbn; lia|reflexivity]|]. change (Nat.min 1 (4 - 2)) with 1. split; [lia|]. split; [exact W|]. split; [exact L|]. split; [exact FR|].
  split; [cbn; lia|]. exists 2. split; [split; [cbn; lia|reflexivity]|]. change (Nat.min 1 (4 - 2)) with 1. split; [lia|]. split; [exact W|]. split; [exact L|]. split; [exact FR|exact I].
Qed.
Lemma flush_loses : ops_wf lossy_ops /\ ops_layout t_layout lossy_ops /\ length (points_of lossy_ops) = 4
  /\ write_history ex_codec (fun x => x) 2 nothing "b.pnts" t_layout lossy_ops = Ok (after_pnts lossy_ops) /\ count_in (after_pnts lossy_ops) "b.pnts" = Some 2.
Proof.
  split; [constructor; [exact t_points_wf|constructor; [exact I|constructor; [exact t_points_wf|constructor]]]|]. split; [repeat constructor|]. split; [vm_compute; reflexivity|]. split; [apply wrote_pnts; now right|vm_compute; reflexivity].
Qed.
Lemma drop_loses : exists d', write_history ex_codec (fun x => x) 2 nothing "a.las" (las_layout 0) [LasIoSpec.Write three_points] = Ok d' /\ bf_wf three_points /\ bf_len three_points = 3
  /\ count_in d' "a.las" = Some 0.
Proof.
  exists (match write_history ex_codec (fun x => x) 2 nothing "a.las" (las_layout 0) [LasIoSpec.Write three_points] with Ok d => d | _ => nothing end).
  assert (X : match write_history ex_codec (fun x => x) 2 nothing "a.las" (las_layout 0) [LasIoSpec.Write three_points] with Ok _ => true | _ => false end = true) by (vm_compute; reflexivity).
  split; [destruct (write_history _ _ _ _ _ _ _); [reflexivity|discriminate..]|]. split; [split; [apply las_layout_good; lia|vm_compute; reflexivity]|]. split; [reflexivity|]. vm_compute. reflexivity.
Qed.
Lemma sizes_ok : tables_within ex_codec 300 /\ (28 + 2 * (Z.of_nat 300 + 7) + 4 * (12 * Z.of_nat (length (points_of pnts_ops)) + 7) < 2 ^ 32)%Z
  /\ (forall p, In p (LasIoSpec.written las_ops) -> representable 0 default_transforms (fst p) (snd p)).
Proof.
  split; [exact ex_codec_within|]. split; [vm_compute; reflexivity|]. intros p I. apply representable_ok. vm_compute in I.
  repeat (destruct I as [<-|I]; [vm_compute; reflexivity|]). contradiction.
Qed.
