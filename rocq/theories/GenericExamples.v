(* Examples of readers whose format is not known to the program. *)
From Coq Require Import String List ZArith Lia Bool Arith SpecFloat.
From Verif Require Import Base LayoutModel LayoutSpec BufferModel BufferSpec BufferProofs TraitModel TraitSpec NumModel NumSpec ConvModel ConvSpec MathModel LasModel LasSpec LasProofs2
  LasIoModel LasIoSpec LasIoProofs9 LasIoProofs10 LasIoProofs11 LasIoProofs12 PntsModel PntsSpec PntsExamples InfoModel PathModel PathSpec PathProofs PathExamples GenericModel GenericSpec GenericProofs.
Import ListNotations.
Open Scope nat_scope.

(* a LAS file with two points and a PNTS file with four *)
Definition two_files : dir := put (put nothing "a.las" (LasContent las_file2)) "b.pnts" (Bytes t_file).
Definition opened (name : string) : generic_reader := match open_file ex_codec two_files name with Ok g => g | _ => OfPnts t_reader end.
Lemma two_opened : open_file ex_codec two_files "a.las" = Ok (opened "a.las") /\ open_file ex_codec two_files "b.pnts" = Ok (opened "b.pnts")
  /\ from_read ex_codec t_file = Ok t_reader.
Proof. vm_compute. repeat split. Qed.

Definition some_calls (b : mbuf) : list call := [ReadInto b 1; SeekTo (FromStart 9); SeekTo (FromEnd (-2)); ReadInto b 1; SeekTo (FromCurrent (-1)); ReadInto b 1].
Lemma calls_apply : proper "a" "las" /\ las_extension "las" /\ proper "b" "pnts" /\ pnts_extension "pnts"
  /\ file_ok las_file2 raw0 /\ length (records las_file2) = 2 /\ calls_ok las_file2 raw0 0 (map las_call (some_calls (new_buffer KindVector raw0 1)))
  /\ reader_ok t_reader /\ pr_num t_reader = 4 /\ calls_fit t_reader 0 Absolute (map pnts_call (some_calls (t_empty 1))) /\ points_left 4 0 (some_calls (t_empty 1)).
Proof.
  assert (D : forall s, s = "las"%string \/ s = "pnts"%string -> no_dot s) by (intros s [-> | ->]; unfold no_dot; vm_compute; intuition discriminate).
  split; [unfold proper; repeat split; try discriminate; apply D; tauto|]. split; [unfold las_extension; left; unfold same_up_to_case, same_letter; vm_compute; intuition lia|].
  split; [unfold proper; repeat split; try discriminate; apply D; tauto|]. split; [unfold pnts_extension; unfold same_up_to_case, same_letter; vm_compute; intuition lia|].
  split; [exact (proj1 (proj2 file2_ok))|]. pose proof (proj2 (proj2 (proj2 file2_ok))) as LR. split; [exact LR|]. split.
  { pose proof (proj1 file2_ok) as (_ & _ & _ & G & _). destruct (new_buffer_ok KindVector raw0 1 G) as (W & L & N & _).
    cbn [some_calls map las_call calls_ok]. rewrite LR, L, N.
    change (seek_target 2 (0 + Nat.min 1 (2 - 0)) (FromStart 9)) with (Some 2). cbv iota. change (seek_target 2 2 (FromEnd (-2))) with (Some 0). cbv iota.
    change (seek_target 2 (0 + Nat.min 1 (2 - 0)) (FromCurrent (-1))) with (Some 0). cbv iota. auto 20. }
  split; [exact (proj1 t_reader_ok)|]. split; [reflexivity|]. split.
  { cbn [some_calls map pnts_call calls_fit]. change (pr_num t_reader) with 4.
    change (target 4 (0 + Nat.min (4 - 0) 1) (FromStart 9)) with (Some 4). cbv iota. change (target 4 4 (FromEnd (-2))) with (Some 2). cbv iota.
    change (target 4 (2 + Nat.min (4 - 2) 1) (FromCurrent (-1))) with (Some 2). cbv iota. cbn [Nat.min Nat.sub Nat.add].
    assert (F : 0 < 1 -> fits t_reader Absolute 1 (t_empty 1) /\ no_rest t_reader Absolute 1 (t_empty 1)) by (intros _; split; [apply t_fits_n; lia|intros _ _; reflexivity]).
    split; [exact F|]. split; [cbn; lia|]. split; [cbn; lia|]. split; [exact F|]. split; [cbn; lia|]. split; [exact F|exact I]. }
  cbn [some_calls points_left]. split; [cbn; lia|]. exists 4. split; [split; [cbn; lia|reflexivity]|]. exists 2. split; [split; [cbn; lia|reflexivity]|]. split; [cbn; lia|].
  exists 2. split; [split; [cbn; lia|reflexivity]|]. split; [cbn; lia|exact I].
Qed.

Definition at_end (g : generic_reader) : generic_reader := match generic_seek_point g (FromEnd 0) with Ok (g, _) => g | _ => g end.
Lemma ends_differ : exists gl gp bl bp, generic_seek_point (opened "a.las") (FromEnd 0) = Ok (gl, 2) /\ generic_read_into 64 gl bl 1 = Ok (bl, gl, 0) /\ mb_wf bl /\ mb_len bl = 1
  /\ generic_seek_point (opened "b.pnts") (FromEnd 0) = Ok (gp, 4) /\ generic_read_into 64 gp bp 1 = Err /\ mb_wf bp /\ mb_len bp = 1.
Proof.
  exists (at_end (opened "a.las")), (at_end (opened "b.pnts")), (new_buffer KindVector raw0 1), (t_empty 1).
  pose proof (proj1 file2_ok) as (_ & _ & _ & G & _). destruct (new_buffer_ok KindVector raw0 1 G) as (W & _ & N & _).
  split; [vm_compute; reflexivity|]. split; [vm_compute; reflexivity|]. split; [exact W|]. split; [exact N|]. split; [vm_compute; reflexivity|]. split; [vm_compute; reflexivity|].
  split; [apply t_empty_wf|reflexivity].
Qed.
Lemma starts_differ : generic_seek_point (opened "a.las") (FromCurrent (-1)) = Panic /\ generic_seek_point (opened "b.pnts") (FromCurrent (-1)) = Err.
Proof. vm_compute. split; reflexivity. Qed.
