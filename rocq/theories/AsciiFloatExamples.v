(* A file with coordinates and times. *)
From Coq Require Import String Ascii List ZArith QArith Bool Arith Lia SpecFloat Permutation.
From Verif Require Import Base LayoutModel LayoutSpec LayoutProofs BufferModel BufferSpec TraitModel TraitSpec NumModel NumSpec
  BufferProofs TraitProofs2 AsciiModel AsciiSpec AsciiProofs AsciiProofs4 AsciiProofs5 AsciiProofs6 AsciiProofs7 AsciiProofs8 AsciiFloatSpec AsciiFloat3.
Import ListNotations.
Open Scope nat_scope.

Definition f_layout : layout := Eval vm_compute in unwrap_layout (from_attributes [POSITION_3D; GPS_TIME; INTENSITY]).
Definition f_number (s : string) : spec_float := match parse_f64 (txt s) with Some x => x | None => S754_nan end.
Definition f_minus_tenth : spec_float := Eval vm_compute in f_number "-0.1".
Definition f_point : list Z := Eval vm_compute in
  enc_num PF64 (NFlt (f_number "1.5")) ++ enc_num PF64 (NFlt f_minus_tenth) ++ enc_num PF64 (NFlt (f_number "1e22")) ++ enc_num PF64 (NFlt S754_nan) ++ [44; 1; 0; 0; 0; 0; 0; 0]%Z.
Definition f_points : mbuf := VecB (mk_vbuf f_point f_layout 1).
Definition f_empty (n : nat) : mbuf := VecB (mk_vbuf (repeat 0%Z (n * l_size f_layout)) f_layout n).

Lemma f_good : good_layout f_layout.
Proof.
  apply (grown_good (map (fun a => (a, Default)) [POSITION_3D; GPS_TIME; INTENSITY])).
  - rewrite <- from_attributes_history. vm_compute. reflexivity.
  - discriminate.
  - intros a fa I. cbn [map In] in I. destruct I as [E|[E|[E|[]]]]; injection E as <- <-; vm_compute; lia.
Qed.
Lemma f_points_wf : bf_wf (Of f_points).
Proof. split; [split; [exact f_good|reflexivity]|exact I] || (split; [exact f_good|reflexivity]). Qed.

Lemma float_example : only "sxyzirntpRGBedaI" (txt "xyzti") /\ float_delimiter (txt "; ") /\ bf_wf (Of f_points) /\ has_fields f_layout (txt "xyzti")
  /\ (forall p, In p (bf_points (Of f_points)) -> is_bytes p /\ flags_ok (txt "xyzti") f_layout p)
  /\ short_decimal 2 f_minus_tenth
  /\ match ascii_write 2 (set_precision (set_delimiter (a_writer (txt "xyzti")) (txt "; ")) 2) (Of f_points) with
     | Ok w => aw_out w = txt "1.5; -0.1; 10000000000000000000000.0; NaN; 300" ++ [10%Z]
               /\ match ascii_read_into (a_reader (aw_out w) (txt "xyzti") (txt "; ")) (f_empty 1) 1 with
                  | Ok (b, _, 1) => mb_points b = bf_points (Of f_points)
                  | _ => False end
     | _ => False end.
Proof.
  assert (LET : forall c, In c (txt "xyzti") -> c = 120%Z \/ c = 121%Z \/ c = 122%Z \/ c = 116%Z \/ c = 105%Z).
  { intros c I. change (txt "xyzti") with [120; 121; 122; 116; 105]%Z in I. cbn [In] in I. intuition. }
  split; [|split; [|split; [|split; [|split; [|split]]]]].
  - intros c I. assert (H : forallb (fun c => existsb (Z.eqb c) (txt "sxyzirntpRGBedaI")) (txt "xyzti") = true) by (vm_compute; reflexivity).
    rewrite forallb_forall in H. specialize (H c I). apply existsb_exists in H. destruct H as (y & Y & E). apply Z.eqb_eq in E. now subst.
  - split; [|split; vm_compute; intuition discriminate]. exists (ch ";"). split; [left; reflexivity|]. vm_compute. intuition discriminate.
  - exact f_points_wf.
  - intros c a o pr flag I M. destruct (LET c I) as [->|[->|[->|[->| ->]]]]; vm_compute in M; injection M as <- <- <- <-; vm_compute; discriminate.
  - intros p I. change (bf_points (Of f_points)) with [f_point] in I. destruct I as [<-|[]]. split.
    + apply Forall_forall. assert (H : forallb (fun x => (0 <=? x) && (x <? 256))%Z f_point = true) by (vm_compute; reflexivity). rewrite forallb_forall in H. intros x X. specialize (H x X). apply andb_true_iff in H. lia.
    + intros c a o pr bs I M. destruct (LET c I) as [->|[->|[->|[->| ->]]]]; vm_compute in M; discriminate M.
  - exists (txt "-0.1"), (- (inject_Z 0 + (1 # 10)))%Q, (-10)%Z. split; [vm_compute; reflexivity|]. split; [vm_compute; reflexivity|]. split; vm_compute; reflexivity.
  - assert (W : ascii_write 2 (set_precision (set_delimiter (a_writer (txt "xyzti")) (txt "; ")) 2) (Of f_points)
      = Ok (mk_awriter (txt "1.5; -0.1; 10000000000000000000000.0; NaN; 300" ++ [10%Z]) (txt "; ") 2 [CoordinateX; CoordinateY; CoordinateZ; GpsTime; Intensity])) by (vm_compute; reflexivity).
    rewrite W. split; [reflexivity|]. cbn [aw_out]. vm_compute. reflexivity.
Qed.
