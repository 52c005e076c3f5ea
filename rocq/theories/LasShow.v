(* Which numbers the display of an Extra Bytes entry shows. *)
From Coq Require Import String Ascii List ZArith Bool Arith Lia.
From Verif Require Import Base LayoutModel NumModel LasModel LasSpec LasProofs2.
Import ListNotations.
Open Scope nat_scope.

Lemma shows_integers t name description calls : eb_is_signed t = true \/ eb_is_unsigned t = true ->
  let number bs := ShownInt (if eb_is_signed t then wrap true 64 (le_dec bs) else le_dec bs) in
  eb_display (eb_build t name description calls)
  = Ok (option_map number (last_set min_arg calls), option_map number (last_set max_arg calls), option_map number (last_set no_data_arg calls)).
Proof.
  intros T number. destruct (built_entry t name description calls) as (E1 & _ & _ & _ & _ & E6 & E7 & E8 & _ & _ & B1 & B2 & B3).
  unfold eb_display, show_value, as_signed, as_unsigned. rewrite E1, E6, E7, E8, B1, B2, B3. unfold number.
  assert (F : eb_is_floating_point t = false) by (destruct t; destruct T as [T|T]; try discriminate T; reflexivity).
  rewrite F. destruct (eb_is_signed t) eqn:S; [|destruct T as [T|T]; [discriminate T|rewrite T]];
  destruct (last_set min_arg calls), (last_set max_arg calls), (last_set no_data_arg calls); reflexivity.
Qed.
Lemma shows_raw t name description calls : eb_size t = None ->
  eb_display (eb_build t name description calls)
  = Ok (option_map ShownRaw (last_set min_arg calls), option_map ShownRaw (last_set max_arg calls),
        option_map (fun _ => ShownRaw (or_zeros (last_set min_arg calls))) (last_set no_data_arg calls)).
Proof.
  intros T. destruct (built_entry t name description calls) as (E1 & _ & _ & _ & _ & E6 & E7 & E8 & _ & _ & B1 & B2 & B3).
  unfold eb_display, show_value. rewrite E1, E6, E7, E8, B1, B2, B3.
  assert (F : eb_is_floating_point t = false /\ eb_is_signed t = false /\ eb_is_unsigned t = false) by (destruct t; try discriminate T; repeat split; reflexivity).
  destruct F as (-> & -> & ->). destruct (last_set min_arg calls), (last_set max_arg calls), (last_set no_data_arg calls); reflexivity.
Qed.
