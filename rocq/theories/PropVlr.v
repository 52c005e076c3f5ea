(* C91: variable length records with arbitrary content. *)
From Coq Require Import String List ZArith Lia Bool Arith SpecFloat.
From Verif Require Import Base NumModel MathModel LasModel LasSpec LasMetaModel Utf8Spec LasMetaSpec LasMetaExamples Utf8Proofs VlrSpec VlrProofs.
Import ListNotations.
Open Scope nat_scope.

(* Whatever the VLRs of a file are, its metadata are made or there is an error. What is missing: an Extra Bytes VLR without records. *)
Theorem C91_any_vlrs_partial :
  forall h, (forall v, first_of 4 (lh_vlrs h) v -> v_data v <> []) -> metadata_of_header h = Err \/ exists m, metadata_of_header h = Ok m.
Proof. exact no_panic_unless. Qed.
Print Assumptions C91_any_vlrs_partial.

(* exactly which are accepted *)
Theorem C91_accepted :
  forall h, (exists m, metadata_of_header h = Ok m) <->
  first_is 0 lookup_accepted (lh_vlrs h) /\ first_is 3 text_accepted (lh_vlrs h) /\ first_is 4 (fun d => d <> [] /\ extra_accepted d) (lh_vlrs h).
Proof. exact accepted_iff. Qed.
Print Assumptions C91_accepted.

(* the descriptions of the extra bytes are those in the VLR *)
Theorem C91_described :
  forall h m, metadata_of_header h = Ok m ->
  holds_first 4 (fun v es => length (v_data v) = 192 * length es /\ forall i e, nth_error es i = Some e -> entry_content (v_data v) i e) (lh_vlrs h) (lm_extra m).
Proof. exact described. Qed.
Print Assumptions C91_described.

(* the strings of LAS are UTF-8 as RFC 3629 defines it *)
Theorem C91_utf8 : forall bs, from_utf8 bs = Ok bs <-> utf8_text bs.
Proof. exact from_utf8_iff. Qed.
Print Assumptions C91_utf8.

(* The names of the classes need not be UTF-8: they are converted as the Unicode standard recommends, and UTF-8 stays as it is. *)
Theorem C91_lossy : forall bs text, from_utf8_lossy bs = text <-> lossy_text bs text.
Proof. exact lossy_iff. Qed.
Print Assumptions C91_lossy.
Theorem C91_lossy_is_text : forall bs, utf8_text (from_utf8_lossy bs) /\ (utf8_text bs -> from_utf8_lossy bs = bs).
Proof. exact lossy_is_text. Qed.
Print Assumptions C91_lossy_is_text.
Example C91_lossy_ex : from_utf8_lossy [65; 226; 130; 66; 255; 195; 166]%Z = ([65] ++ utf8_char 0xFFFD ++ [66] ++ utf8_char 0xFFFD ++ [195; 166])%Z.
Proof. vm_compute. reflexivity. Qed.

(* an Extra Bytes VLR without records *)
Theorem C91_empty_refuted :
  (forall h v, first_is 0 lookup_accepted (lh_vlrs h) -> first_is 3 text_accepted (lh_vlrs h) -> first_of 4 (lh_vlrs h) v -> v_data v = [] -> metadata_of_header h = Panic)
  /\ exists h v, lh_vlrs h = [v] /\ first_of 4 (lh_vlrs h) v /\ v_data v = [] /\ metadata_of_header h = Panic.
Proof.
  split; [exact empty_panics|]. exists (mk_head (lh_bounds ex_head) 0 0 [mk_vlr "LASF_Spec" 4 []] None 0 "" "" ""), (mk_vlr "LASF_Spec" 4 []).
  split; [reflexivity|]. split; [|split; [reflexivity|vm_compute; reflexivity]]. exists [], []. split; [reflexivity|]. split; [split; reflexivity|constructor].
Qed.
Print Assumptions C91_empty_refuted.

(* A record whose name is the letter ae (two bytes), with minimum 7: accepted. The same with half a letter: an error. *)
Definition ae_record (name : list Z) : list Z :=
  [0; 0; 3; 2]%Z ++ name ++ repeat 0%Z (32 - length name) ++ repeat 0%Z 28 ++ [7%Z] ++ repeat 0%Z 127.
Example C91_ex :
  let head d := mk_head (lh_bounds ex_head) 0 0 [mk_vlr "x" 4 []; mk_vlr "LASF_Spec" 4 d] None 0 "" "" "" in
  utf8_text [195; 166]%Z /\ ~ utf8_text [195]%Z /\ metadata_of_header (head (ae_record [195]%Z)) = Err
  /\ exists m e, metadata_of_header (head (ae_record [195; 166]%Z)) = Ok m /\ lm_extra m = Some [e] /\ eb_name e = [195; 166]%Z /\ eb_dt e = EbU16 /\ as_unsigned e (eb_min e) = Ok 7%Z.
Proof.
  split; [exists [230]%Z; split; [constructor; [split; lia|constructor]|reflexivity]|]. split; [rewrite <- utf8_iff; discriminate|]. split; [vm_compute; reflexivity|].
  eexists. eexists. split; [vm_compute; reflexivity|]. split; [reflexivity|]. split; [reflexivity|]. split; vm_compute; reflexivity.
Qed.
