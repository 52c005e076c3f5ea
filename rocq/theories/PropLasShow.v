(* The display of Extra Bytes entries: more of C43. Vocabulary in LasSpec.v. *)
From Coq Require Import String Ascii List ZArith Bool Arith Lia.
From Verif Require Import Base LayoutModel NumModel LasModel LasSpec LasProofs2 LasShow.
Import ListNotations.
Open Scope nat_scope.

(* an entry with an integer type shows minimum, maximum and no-data value as they were set last, each only if it was set *)
Theorem C43_display_integers : forall t name description calls, eb_is_signed t = true \/ eb_is_unsigned t = true ->
  let number bs := ShownInt (if eb_is_signed t then wrap true 64 (le_dec bs) else le_dec bs) in
  eb_display (eb_build t name description calls)
  = Ok (option_map number (last_set min_arg calls), option_map number (last_set max_arg calls), option_map number (last_set no_data_arg calls)).
Proof. exact shows_integers. Qed.
Print Assumptions C43_display_integers.

(* an entry without a known type shows the raw bytes. Missing: the no-data value, for which the bytes of the minimum are shown (see below) *)
Theorem C43_display_raw_partial : forall t name description calls, eb_size t = None ->
  eb_display (eb_build t name description calls)
  = Ok (option_map ShownRaw (last_set min_arg calls), option_map ShownRaw (last_set max_arg calls),
        option_map (fun _ => ShownRaw (or_zeros (last_set min_arg calls))) (last_set no_data_arg calls)).
Proof. exact shows_raw. Qed.
Print Assumptions C43_display_raw_partial.

(* the no-data value that is shown is not the one that was set *)
Theorem C43_display_no_data_refuted : exists t name v mn mx nd, eb_size t = None /\ length v = 8
  /\ eb_display (eb_build t name [] [SetNoData v]) = Ok (mn, mx, nd) /\ nd <> Some (ShownRaw v).
Proof. exists EbUndocumented, (bytes_of "u"), (repeat 7%Z 8), None, None, (Some (ShownRaw (repeat 0%Z 8))). repeat split; discriminate. Qed.
Print Assumptions C43_display_no_data_refuted.

Example C43_display_ex : eb_display (eb_build EbI16 (bytes_of "h") [] [SetMin (le_enc 8 5); SetNoData (le_enc 8 (-9999)); SetMin (le_enc 8 (-5))])
  = Ok (Some (ShownInt (-5)), None, Some (ShownInt (-9999))).
Proof. vm_compute. reflexivity. Qed.
