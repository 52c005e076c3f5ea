(* Examples for the metadata of LAS files. *)
From Coq Require Import String List ZArith Bool Arith SpecFloat.
From Verif Require Import Base NumModel MathModel LasModel LasMetaModel LasMetaSpec LasMetaProofs.
Import ListNotations.
Local Open Scope string_scope.
Open Scope nat_scope.

Definition one : spec_float := S754_finite false 4503599627370496 (-52).
Definition two : spec_float := S754_finite false 4503599627370496 (-51).
(* two text areas, of which the first counts, and a VLR of another user with the same record id *)
Definition ex_vlrs : list vlr := [mk_vlr "LASF_Projection" 3 [1]%Z; mk_vlr "LASF_Spec" 3 [72; 105]%Z; mk_vlr "LASF_Spec" 3 [255]%Z].
Definition head_with (vlrs : list vlr) (date : option (Z * Z)) : las_head :=
  mk_head (mk_lb (mk_lv one one one) (mk_lv two one two)) 7 3 vlrs date 12 "software" "system" "1.4".
Definition ex_head : las_head := head_with ex_vlrs (Some (2023, 17)%Z).
Lemma ex_opens : exists m, metadata_of_header ex_head = Ok m /\ lm_text m = Some [72; 105]%Z /\ lm_classes m = None
  /\ lm_number_of_points m = Some 7 /\ px (b_max (lm_bounds m)) = lv_x (lb_max (lh_bounds ex_head)).
Proof. eexists. split; [vm_compute; reflexivity|]. repeat split. Qed.
Lemma empty_extra_panics : exists h, metadata_of_header h = Panic.
Proof. exists (head_with [mk_vlr "LASF_Spec" 4 []] None). vm_compute. reflexivity. Qed.
Lemma early_year_panics : exists h m, metadata_of_header h = Ok m /\ lm_named_field m "LASFIELD_FileCreationYear" = Panic.
Proof. exists (head_with [] (Some (-1, 1)%Z)). eexists. split; [vm_compute; reflexivity|]. reflexivity. Qed.
