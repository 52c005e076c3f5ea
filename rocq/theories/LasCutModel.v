(* What an uncompressed LAS reader is like after a read that failed: the functions of LasIoModel once more, with the reader in the error.
   LasCutProofs.v proves that they have the same results. *)
From Coq Require Import String List ZArith Bool Arith SpecFloat.
From Verif Require Import Base LayoutModel BufferModel TraitModel NumModel ConvModel MathModel LasModel LasIoModel.
Import ListNotations.
Open Scope nat_scope.

(* A call of a method with &mut self: it returns, returns an error, or panics *)
Inductive out (A : Type) : Type := Done (a : A) | Failed (r : las_reader) | Crashed.
Arguments Done {A} a.
Arguments Failed {A} r.
Arguments Crashed {A}.
Definition obind {A B} (o : out A) (k : A -> out B) : out B :=
  match o with Done a => k a | Failed r => Failed r | Crashed => Crashed end.
(* a step that does not use the reader *)
Definition pure {A} (r : las_reader) (x : res A) : out A := match x with Ok a => Done a | Err => Failed r | Panic => Crashed end.
Fixpoint foldO {A S} (g : S -> A -> out S) (l : list A) (s : S) : out S :=
  match l with [] => Done s | a :: l => obind (g s a) (foldO g l) end.

(* read_exact: at the end of the file it fails, and the file has been read up to its end (std::io::default_read_exact, trusted; the
   documentation leaves open how much is read) *)
Definition read_exact_o (r : las_reader) (n : nat) : out (list Z * las_reader) :=
  pure (with_position r (Nat.max (r_position r) (length (f_data (r_file r))))) (read_exact r n).

(* RawLASReader::read_into_default_layout, raw_readers.rs:247-297 *)
Definition read_into_default_layout_o (chunk : nat) (r : las_reader) (b : mbuf) (count : nat) : out (mbuf * las_reader * nat) :=
  obind (pure r (remaining_points r)) (fun remaining =>
  let n := Nat.min count remaining in
  if Nat.eqb n 0 then Done (b, r, 0)
  else
    obind
      (if negb (mb_is_columnar b) then
         obind (pure r (mb_get_point_range_ref b 0 n)) (fun dst =>
         obind (read_exact_o r (length dst)) (fun x =>
         obind (pure (snd x) (mb_modify_point_range b 0 n (fun _ => Ok (fst x)))) (fun b => Done (b, snd x))))
       else
         obind (pure r (assert (negb (Nat.eqb (r_size r) 0)))) (fun _ =>
         let per := chunk / r_size r in
         obind (pure r (assert (negb (Nat.eqb per 0)))) (fun _ =>
         let num_chunks := (n + per - 1) / per in
         foldO (fun st k =>
                  let bytes_in_chunk := if Nat.eqb k (num_chunks - 1) then (n - k * per) * r_size (snd st) else per * r_size (snd st) in
                  obind (read_exact_o (snd st) bytes_in_chunk) (fun x =>
                  obind (pure (snd x) (mb_set_point_range (fst st) (k * per) (Nat.min ((k + 1) * per) n) (fst x))) (fun b =>
                  Done (b, snd x)))) (range 0 num_chunks) (b, r))))
      (fun st => Done (fst st, with_index (snd st) (r_index (snd st) + n), n))).

(* RawLASReader::read_into_custom_layout, raw_readers.rs:299-352 *)
Definition read_into_custom_layout_o (chunk : nat) (r : las_reader) (b : mbuf) (count : nat) : out (mbuf * las_reader * nat) :=
  obind (pure r (remaining_points r)) (fun remaining =>
  let n := Nat.min count remaining in
  if Nat.eqb n 0 then Done (b, r, 0)
  else
    obind (pure r (assert (negb (Nat.eqb (l_size (r_exact_layout r)) 0)))) (fun _ =>
    let per := chunk / l_size (r_exact_layout r) in
    obind (pure r (assert (negb (Nat.eqb per 0)))) (fun _ =>
    let num_chunks := (n + per - 1) / per in
    let size_of_chunk := if Nat.ltb 1 num_chunks then per else n in
    let convert_buffer := VecB (vb_resize (vb_new (r_exact_layout r)) size_of_chunk) in
    obind (pure r (get_default_las_converter (r_exact_layout r) (mb_layout b) (h_tr (f_header (r_file r))))) (fun converter =>
    obind
      (foldO (fun st k =>
                let points := if Nat.eqb k (num_chunks - 1) then n - (num_chunks - 1) * size_of_chunk else size_of_chunk in
                obind (read_into_default_layout_o chunk (snd st) (fst (fst st)) points) (fun x =>
                let first := k * size_of_chunk in
                obind (pure (snd (fst x)) (convert_into_range converter (Of (fst (fst x))) 0 points (snd (fst st)) first (first + points))) (fun b =>
                Done (fst (fst x), b, snd (fst x))))) (range 0 num_chunks) (convert_buffer, b, r))
      (fun st => Done (snd (fst st), snd st, n)))))).

(* RawLASReader::read_into, raw_readers.rs:366-383 *)
Definition las_read_into_o (chunk : nat) (r : las_reader) (b : mbuf) (count : nat) : out (mbuf * las_reader * nat) :=
  obind (pure r (assert (Nat.leb count (mb_len b)))) (fun _ =>
  if negb (layout_eqb (mb_layout b) (r_exact_layout r)) then read_into_custom_layout_o chunk r b count
  else read_into_default_layout_o chunk r b count).
