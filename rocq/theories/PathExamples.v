(* Examples of files written and read by their names. *)
From Coq Require Import String List ZArith Lia Bool Arith Permutation SpecFloat.
From Verif Require Import Base LayoutModel LayoutSpec LayoutProofs BufferModel BufferSpec ListLemmas BufferProofs
  TraitModel TraitSpec NumModel NumSpec ConvModel ConvSpec MathModel LasModel LasSpec LasProofs2 LasIoModel LasIoSpec LasIoProofs9 LasIoProofs12 LasIoProofs13 WriteAllExamples
  PntsModel PntsSpec PntsExamples InfoModel PathModel PathSpec PathProofs.
Import ListNotations.
Open Scope nat_scope.

Definition nothing : dir := fun _ => None.
Definition scan_las (d : dir) : dir := fst (write_all_file ex_codec (fun x => x) 3 d "scan.las" near_buffer).
Definition no_format_layout : layout := Eval vm_compute in match from_attributes [POSITION_3D; SCAN_ANGLE] with Ok l => l | _ => layout_default end.
Definition no_format_buffer : buffer := Of (new_buffer KindVector no_format_layout 0).
Definition readable_points (x : res mbuf) : nat := match x with Ok b => mb_len b | _ => 0 end.

Lemma old_file_lost : exists d b d', bf_wf b /\ readable_points (read_all_file ex_codec 64 KindVector d "scan.las") = 2
  /\ write_all_file ex_codec (fun x => x) 3 d "scan.las" b = (d', Err) /\ read_all_file ex_codec 64 KindVector d' "scan.las" = Err.
Proof.
  exists (scan_las nothing), no_format_buffer. eexists. split.
  { apply (proj1 (new_buffer_ok KindVector no_format_layout 0 (grown_good (map (fun a => (a, Default)) [POSITION_3D; SCAN_ANGLE]) no_format_layout ltac:(rewrite <- from_attributes_history; vm_compute; reflexivity) ltac:(discriminate)
      ltac:(intros a fa I; cbn [map In] in I; destruct I as [E|[E|[]]]; injection E as <- <-; vm_compute; lia)))). }
  split; [vm_compute; reflexivity|]. split; [unfold write_all_file; cbn [get_extension_lookup]; vm_compute (get_extension_lookup _); vm_compute (path_is_compressed_las_file _); vm_compute (open_writer_for_layout _ _); reflexivity|].
  reflexivity.
Qed.
Lemma empty_pnts : exists b d', bf_wf b /\ pnts_ready (bf_layout b) /\ write_all_file ex_codec (fun x => x) 3 nothing "a.pnts" b = (d', Ok tt)
  /\ read_all_file ex_codec 64 KindVector d' "a.pnts" = Err.
Proof.
  exists (Of (new_buffer KindVector t_layout 0)), (fst (write_all_file ex_codec (fun x => x) 3 nothing "a.pnts" (Of (new_buffer KindVector t_layout 0)))).
  split; [exact (proj1 (new_buffer_ok KindVector t_layout 0 t_good))|]. split; [exact t_ready|].
  assert (X : snd (write_all_file ex_codec (fun x => x) 3 nothing "a.pnts" (Of (new_buffer KindVector t_layout 0))) = Ok tt) by (vm_compute; reflexivity).
  split; [rewrite <- X; apply surjective_pairing|]. vm_compute. reflexivity.
Qed.
Lemma upper_case : exists f, fst (write_all_file ex_codec (fun x => x) 3 nothing "scan.LAZ" near_buffer) "scan.LAZ"%string = Some (LasContent f) /\ f_laz f = false /\ same_up_to_case "LAZ" "laz".
Proof. eexists. split; [vm_compute; reflexivity|]. split; [reflexivity|]. unfold same_up_to_case, same_letter. vm_compute. intuition lia. Qed.

Lemma names_ok : proper "scan.v2" "LaS" /\ las_extension "LaS" /\ proper "tile" "pnts" /\ pnts_extension "pnts" /\ named "tile" "pnts" = "tile.pnts"%string
  /\ proper "a" "txt" /\ ~ las_extension "txt" /\ ~ pnts_extension "txt".
Proof.
  assert (D : forall s, s = "LaS"%string \/ s = "pnts"%string \/ s = "txt"%string -> no_dot s) by (intros s [-> | [-> | ->]]; unfold no_dot; vm_compute; intuition discriminate).
  unfold proper, las_extension, pnts_extension. repeat split; try discriminate; try (apply D; tauto); unfold same_up_to_case, same_letter; vm_compute; intuition (try lia; try discriminate).
Qed.
Lemma pnts_runs : bf_wf (Of t_points) /\ bf_len (Of t_points) = 2 /\ exists d', write_all_file ex_codec (fun x => x) 3 (scan_las nothing) "tile.pnts" (Of t_points) = (d', Ok tt)
  /\ readable_points (read_all_file ex_codec 64 KindHashMap d' "tile.pnts") = 2 /\ readable_points (read_all_file ex_codec 64 KindHashMap d' "scan.las") = 2.
Proof.
  split; [exact t_points_wf|]. split; [reflexivity|]. exists (fst (write_all_file ex_codec (fun x => x) 3 (scan_las nothing) "tile.pnts" (Of t_points))).
  assert (X : snd (write_all_file ex_codec (fun x => x) 3 (scan_las nothing) "tile.pnts" (Of t_points)) = Ok tt) by (vm_compute; reflexivity).
  split; [rewrite <- X; apply surjective_pairing|]. split; vm_compute; reflexivity.
Qed.
Lemma into_refuted : exists d' x', write_all_file ex_codec (fun x => x) 3 nothing "tile.pnts" (Of t_points) = (d', Ok tt) /\ mb_wf (t_empty 2) /\ file_readable t_layout
  /\ read_all_into_file ex_codec 64 (t_empty 2) d' "tile.pnts" = Ok (x', 2) /\ mb_len x' = 2
  /\ read_all_into_file ex_codec 64 (t_empty 0) d' "tile.pnts" = Panic.
Proof.
  exists (fst (write_all_file ex_codec (fun x => x) 3 nothing "tile.pnts" (Of t_points))).
  assert (X : snd (write_all_file ex_codec (fun x => x) 3 nothing "tile.pnts" (Of t_points)) = Ok tt) by (vm_compute; reflexivity).
  eexists. split; [rewrite <- X; apply surjective_pairing|]. split; [apply t_empty_wf|]. split; [exact (proj2 (proj2 t_fits))|]. split; [vm_compute; reflexivity|]. split; [reflexivity|]. vm_compute. reflexivity.
Qed.
