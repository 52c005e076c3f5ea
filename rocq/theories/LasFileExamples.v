(* Concrete files for the theorems of PropLasFile.v. *)
From Coq Require Import String List ZArith Lia Bool Arith.
From Verif Require Import Base LasModel LasIoModel LasFileModel LasFileSpec.
Import ListNotations.
Local Open Scope string_scope.
Open Scope nat_scope.
Local Open Scope list_scope.

(* headers of four bytes: number of VLRs, offset, start of the extended VLRs, number of points; VLRs: length and data *)
Definition toy : crates := mk_crates
  (fun r => [Z.of_nat (rh_vlrs r); Z.of_nat (rh_offset r); match rh_evlr r with Some (s, _) => Z.of_nat s | None => 0%Z end; Z.of_nat (rh_points r)])
  4 (fun v => Z.of_nat (length (v_data v)) :: v_data v) (fun v => 99%Z :: v_data v)
  (fun hd => 4 + length (hd_vlrs hd)) (mk_vlr "laszip" 22204 [77%Z]) [88%Z].
Lemma toy_fits : headers_fit toy.
Proof. intros r. reflexivity. Qed.
Definition toy_head : head := mk_head [mk_vlr "a" 1 [5; 6]%Z; mk_vlr "b" 2 [7]%Z] [] [mk_vlr "c" 3 [8]%Z].
Definition toy_history : list file_op := [FWrite 1 [11; 12]%Z; FFlush; FWrite 0 []; FFlush; FWrite 2 [13; 14; 15; 16]%Z].
Lemma toy_small : Forall small_vlr (hd_vlrs toy_head).
Proof. repeat constructor; unfold small_vlr; cbn; lia. Qed.

Lemma toy_evlrs : hd_evlrs toy_head <> [].
Proof. discriminate. Qed.

Definition stream_of (r : res file_writer) : list Z := match r with Ok w => fw_stream w | _ => [] end.
(* header, VLRs, points, extended VLRs; the header says that the extended VLRs start at 6, they start at 15 *)
Lemma toy_las : stream_of (file_of toy false toy_head toy_history) = [2; 9; 6; 3;  2; 5; 6; 1; 7;  11; 12; 13; 14; 15; 16;  99; 8]%Z.
Proof. reflexivity. Qed.
(* header, LASzip VLR, points, end of the compressed stream, extended VLRs, points .. *)
Lemma toy_laz : stream_of (file_of toy true toy_head toy_history)
  = [1; 6; 0; 3;  1; 77;  11; 12;  88; 99; 8;  88; 99; 8;  13; 14; 15; 16;  88; 99; 8]%Z.
Proof. reflexivity. Qed.
