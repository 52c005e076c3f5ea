(* Concrete buffers for write_all. *)
From Coq Require Import String List ZArith Reals Lia Lra Bool Arith SpecFloat.
From Flocq Require Import Core BinarySingleNaN.
From Verif Require Import Base LayoutModel LayoutSpec LayoutProofs BufferModel BufferSpec ListLemmas BufferProofs BufferFacts TraitModel TraitSpec TraitProofs2
  NumModel NumSpec ConvModel ConvSpec MathModel MathSpec LasModel LasSpec LasIoModel LasIoSpec VoxSpec LasGridSpec LasGridExamples
  LasIoProofs9 LasIoProofs11 LasIoProofs12 LasIoProofs13.
Import ListNotations.
Open Scope nat_scope.

Lemma no_format : exists l, from_attributes [POSITION_3D; SCAN_ANGLE] = Ok l
  /\ forall chunk laz b, 0 < chunk -> bf_wf b -> bf_layout b = l -> write_all chunk laz b = Err.
Proof.
  eexists. split; [vm_compute; reflexivity|]. intros chunk laz b C W L. pose proof (write_all_ok chunk laz b C W) as H.
  replace (format_to_u8 (las_point_format_from_point_layout (bf_layout b))) with (@Err nat) in H by (rewrite L; reflexivity). exact H.
Qed.

(* 3000000, 1234.5678, -0.25 *)
Definition far_x : list Z := [0; 0; 0; 0; 96; 227; 70; 65]%Z.
Definition near_x : list Z := [173; 250; 92; 109; 69; 74; 147; 64]%Z.
Definition near_y : list Z := [0; 0; 0; 0; 0; 0; 208; 191]%Z.
Definition far_point : list Z := far_x ++ near_x ++ near_y.
Definition far_buffer : buffer := Of (VecB (mk_vbuf far_point pos_layout 1)).
Lemma far_panics : bf_wf far_buffer /\ bf_len far_buffer = 1 /\ p3_all finite (point_position (bf_layout far_buffer) far_point)
  /\ forall chunk laz, 0 < chunk -> write_all chunk laz far_buffer = Panic.
Proof.
  assert (W : bf_wf far_buffer) by (split; [exact pos_layout_good|vm_compute; reflexivity]).
  split; [exact W|]. split; [reflexivity|]. split; [vm_compute; tauto|]. intros chunk laz C. pose proof (write_all_ok chunk laz far_buffer C W) as H.
  change (format_to_u8 (las_point_format_from_point_layout (bf_layout far_buffer))) with (@Ok nat 0) in H. cbv iota in H.
  destruct (write_all chunk laz far_buffer) as [f| |]; [|contradiction|reflexivity]. exfalso. destruct H as (REP & _).
  apply (REP far_point (or_introl eq_refl) "LASLocalPosition"%string 0 12); [vm_compute; auto|vm_compute; reflexivity].
Qed.

Definition normal_layout : layout := match from_attributes [POSITION_3D; NORMAL] with Ok l => l | _ => layout_default end.
Definition wave_layout : layout := match from_attributes [POSITION_3D; GPS_TIME; SCAN_ANGLE; WAVEFORM_PARAMETERS] with Ok l => l | _ => layout_default end.
Definition near_layout : layout := match from_attributes [POSITION_3D; RETURN_NUMBER; GPS_TIME] with Ok l => l | _ => layout_default end.
Lemma zero_points k l n p : good_layout l -> In p (bf_points (zeros k l n)) -> p = repeat 0%Z (l_size l).
Proof. intros G I. destruct (zeros_ok k l n G) as (_ & _ & _ & P). rewrite P in I. exact (repeat_spec _ _ _ I). Qed.
Lemma normals_lost : exists b, bf_wf b /\ bf_len b = 1 /\ In NORMAL (map m_def (l_attrs (bf_layout b)))
  /\ forall chunk chunk' laz k, 0 < chunk -> 20 <= chunk' ->
     exists f b', write_all chunk laz b = Ok f /\ read_all chunk' k f = Ok b' /\ mb_len b' = 1 /\ ~ In "Normal"%string (map m_name (l_attrs (mb_layout b'))).
Proof.
  assert (G : good_layout normal_layout) by (apply (grown_layout_good [POSITION_3D; NORMAL]); [vm_compute; reflexivity|discriminate|reflexivity]).
  destruct (zeros_ok KindVector normal_layout 1 G) as (W & L & N & P). exists (zeros KindVector normal_layout 1). split; [exact W|]. split; [exact N|]. split; [rewrite L; vm_compute; auto|].
  intros chunk chunk' laz k C C'.
  destruct (write_read chunk chunk' laz k (zeros KindVector normal_layout 1) 0 (las_layout 0) C W) as (f & b' & WA & RA & _ & LB & NB & _).
  - rewrite L. vm_compute. reflexivity.
  - reflexivity.
  - intros _. split; discriminate.
  - exact C'.
  - intros p I. rewrite (zero_points _ _ _ _ G I), L. apply representable_ok. vm_compute. reflexivity.
  - exists f, b'. split; [exact WA|]. split; [exact RA|]. split; [rewrite NB; exact N|]. rewrite LB. vm_compute. intuition discriminate.
Qed.
Lemma waveforms_unreadable : exists b, bf_wf b /\ bf_len b = 1
  /\ forall chunk chunk' k, 0 < chunk -> exists f, write_all chunk true b = Ok f /\ read_all chunk' k f = Err.
Proof.
  assert (G : good_layout wave_layout) by (apply (grown_layout_good [POSITION_3D; GPS_TIME; SCAN_ANGLE; WAVEFORM_PARAMETERS]); [vm_compute; reflexivity|discriminate|reflexivity]).
  destruct (zeros_ok KindVector wave_layout 1 G) as (W & L & N & P). set (b := zeros KindVector wave_layout 1) in *. exists b. split; [exact W|]. split; [exact N|].
  intros chunk chunk' k C. pose proof (write_all_ok chunk true b C W) as H. rewrite L in H.
  change (format_to_u8 (las_point_format_from_point_layout wave_layout)) with (@Ok nat 9) in H. cbv iota in H.
  destruct (write_all chunk true b) as [f| |]; [|contradiction|].
  - destruct H as (_ & LZ & HF & _). exists f. split; [reflexivity|]. unfold read_all, open_reader. rewrite LZ, HF. reflexivity.
  - exfalso. destruct H as (p & I & NR). apply NR. rewrite (zero_points _ _ _ _ G I). apply representable_ok. vm_compute. reflexivity.
Qed.

Definition near_point (r : Z) : list Z := near_x ++ near_y ++ near_x ++ [r] ++ repeat 0%Z 7 ++ near_x.
Definition near_buffer : buffer := Of (VecB (mk_vbuf (near_point 2 ++ near_point 7) near_layout 2)).
Lemma near_coordinates : in_millimetre_range (S754_finite false 5429686605511341 (-42)) /\ in_millimetre_range (S754_finite true 4503599627370496 (-54)).
Proof.
  split; (split; [apply finite_number; lia|]); unfold number; cbn [SF2R]; unfold F2R; cbn [Fnum Fexp cond_Zopp bpow Z.opp];
    change (Z.pow_pos radix2 42) with 4398046511104%Z; change (Z.pow_pos radix2 54) with 18014398509481984%Z; apply Rabs_le; lra.
Qed.
Lemma near_ok : bf_wf near_buffer /\ bf_len near_buffer = 2 /\ format_to_u8 (las_point_format_from_point_layout (bf_layout near_buffer)) = Ok 1
  /\ record_length 1 <= 64 /\ (forall p, In p (bf_points near_buffer) -> is_bytes p /\ representable 1 default_transforms (bf_layout near_buffer) p)
  /\ (forall p, In p (bf_points near_buffer) -> exists v, las_value (bf_layout near_buffer) POSITION_3D p = Some v /\ p3_all in_millimetre_range (vec3_f64 v))
  /\ map m_def (l_attrs (bf_layout near_buffer)) = [POSITION_3D; RETURN_NUMBER; GPS_TIME]
  /\ (forall p m, In p (bf_points near_buffer) -> In m (l_attrs (bf_layout near_buffer)) -> flag_fits false (m_name m) (attr_value m p)).
Proof.
  assert (G : good_layout near_layout) by (apply (grown_layout_good [POSITION_3D; RETURN_NUMBER; GPS_TIME]); [vm_compute; reflexivity|discriminate|reflexivity]).
  split; [split; [exact G|vm_compute; reflexivity]|]. split; [reflexivity|]. split; [vm_compute; reflexivity|]. split; [vm_compute; lia|].
  assert (PTS : bf_points near_buffer = [near_point 2; near_point 7]) by (vm_compute; reflexivity). rewrite PTS. split; [|split; [|split; [vm_compute; reflexivity|]]].
  - intros p [<-|[<-|[]]]; (split; [repeat constructor; lia|apply representable_ok; vm_compute; reflexivity]).
  - destruct near_coordinates as (NX & NY).
    assert (E : vec3_f64 (near_x ++ near_y ++ near_x) = mk_p3 (S754_finite false 5429686605511341 (-42)) (S754_finite true 4503599627370496 (-54)) (S754_finite false 5429686605511341 (-42)))
      by (vm_compute; reflexivity).
    intros p [<-|[<-|[]]]; exists (near_x ++ near_y ++ near_x); (split; [vm_compute; reflexivity|]); rewrite E; (split; [exact NX|split; [exact NY|exact NX]]).
  - intros p m [<-|[<-|[]]] I; vm_compute in I; destruct I as [<-|[<-|[<-|[]]]]; vm_compute; intuition discriminate.
Qed.
