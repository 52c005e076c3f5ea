(* Vocabulary of the statements about variable length records with arbitrary content. *)
From Coq Require Import String List ZArith Bool Arith.
From Verif Require Import Base NumModel LasModel LasSpec LasMetaModel Utf8Spec LasMetaSpec.
Import ListNotations.
Open Scope Z_scope.

Open Scope nat_scope.
(* The n bytes at byte o of the record i of 192 bytes; the string in such a field ends before its first NUL *)
Definition field (data : list Z) (i o n : nat) : list Z := firstn n (skipn (192 * i + o) data).
(* An Extra Bytes record (LAS specification 1.4, table 24): type, options, name, no_data, min, max, scale, offset, description *)
Definition entry_content (data : list Z) (i : nat) (e : eb_entry) : Prop :=
  field data i 2 1 = [eb_to_u8 (eb_dt e)] /\ field data i 3 1 = [eb_options e]
  /\ eb_name e = before_nul (field data i 4 32) /\ eb_no_data e = field data i 40 8 /\ eb_min e = field data i 64 8 /\ eb_max e = field data i 88 8
  /\ eb_scale e = field data i 112 8 /\ eb_offset e = field data i 136 8 /\ eb_description e = before_nul (field data i 160 32).
(* what the VLRs of the three kinds have to be *)
Definition lookup_accepted (data : list Z) : Prop := length data = 4096.
Definition text_accepted (data : list Z) : Prop := utf8_text data.
Definition extra_accepted (data : list Z) : Prop :=
  exists n, length data = 192 * n /\ forall i, i < n -> utf8_text (before_nul (field data i 4 32)) /\ utf8_text (before_nul (field data i 160 32)).
(* the data of the first VLR of a kind, if there is one *)
Definition first_is (record_id : Z) (ok : list Z -> Prop) (vlrs : list vlr) : Prop := forall v, first_of record_id vlrs v -> ok (v_data v).
