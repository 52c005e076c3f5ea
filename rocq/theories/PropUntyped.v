(* C70: attributes of untyped points. *)
From Coq Require Import String Ascii List ZArith Lia Bool Arith.
From Verif Require Import Base LayoutModel LayoutSpec BufferModel BufferSpec NumModel ConvModel ConvSpec BufferExamples SegExamples UntypedModel UntypedProofs.
Import ListNotations.
Open Scope nat_scope.

(* C70. Full statement: set_attribute and get_attribute convert, touch only their attribute and report what is impossible as errors.
   Proved: all of it, but an impossible conversion is a panic instead of an error.
   The bytes of the point can be more or fewer than the layout says. *)
Theorem C70_set_partial : forall u m t v, good_layout (up_layout u) -> In m (l_attrs (up_layout u)) -> m_offset m + m_size m <= length (up_bytes u) ->
  convertible t (m_type m) -> length v = dt_size t ->
  exists u' w, untyped_set u (m_def m) t v = Ok u' /\ value_as t (m_type m) v = Some w
    /\ up_layout u' = up_layout u /\ length (up_bytes u') = length (up_bytes u) /\ attr_value m (up_bytes u') = w
    /\ forall i, i < m_offset m \/ m_offset m + m_size m <= i -> nth_error (up_bytes u') i = nth_error (up_bytes u) i.
Proof. exact set_ok. Qed.
Print Assumptions C70_set_partial.

Theorem C70_get_partial : forall u m t, good_layout (up_layout u) -> In m (l_attrs (up_layout u)) -> m_offset m + m_size m <= length (up_bytes u) ->
  convertible (m_type m) t -> exists w, untyped_get u (m_def m) t = Ok w /\ value_as (m_type m) t (attr_value m (up_bytes u)) = Some w.
Proof. exact get_ok. Qed.
Print Assumptions C70_get_partial.

(* Reading after writing; all other attributes read as before. *)
Theorem C70_set_then_get_partial : forall u m t v u',
  good_layout (up_layout u) -> In m (l_attrs (up_layout u)) -> m_offset m + m_size m <= length (up_bytes u) ->
  convertible t (m_type m) -> convertible (m_type m) t -> length v = dt_size t -> untyped_set u (m_def m) t v = Ok u' ->
  exists w r, value_as t (m_type m) v = Some w /\ value_as (m_type m) t w = Some r /\ untyped_get u' (m_def m) t = Ok r
    /\ forall m', In m' (l_attrs (up_layout u)) -> m' <> m -> forall t', m_offset m' + m_size m' <= length (up_bytes u) -> convertible (m_type m') t' ->
       untyped_get u' (m_def m') t' = untyped_get u (m_def m') t'.
Proof. exact set_get. Qed.
Print Assumptions C70_set_then_get_partial.

(* An attribute that the layout does not have ... *)
Theorem C70_missing_get : forall u a t, (forall m, In m (l_attrs (up_layout u)) -> m_def m <> a) ->
  get_raw_attribute u a = Err /\ untyped_get u a t = Err.
Proof. exact missing_get. Qed.
Print Assumptions C70_missing_get.
Theorem C70_missing_set_partial : forall u a t v, (forall m, In m (l_attrs (up_layout u)) -> m_def m <> a) ->
  set_raw_attribute u a v = Err /\ (convertible t (ad_type a) -> untyped_set u a t v = Err).
Proof. exact missing_set. Qed.
Print Assumptions C70_missing_set_partial.
(* ... or whose bytes are not there is an error. *)
Theorem C70_short_partial : forall u m t, good_layout (up_layout u) -> In m (l_attrs (up_layout u)) -> length (up_bytes u) < m_offset m + m_size m ->
  untyped_get u (m_def m) t = Err /\ forall v, convertible t (m_type m) -> untyped_set u (m_def m) t v = Err.
Proof. exact short_get. Qed.
Print Assumptions C70_short_partial.

Theorem C70_new : forall l, length (up_bytes (untyped_new l)) = l_size l /\ up_layout (untyped_new l) = l /\ forall b, In b (up_bytes (untyped_new l)) -> b = 0%Z.
Proof. exact new_point. Qed.
Print Assumptions C70_new.

(* No conversion: both methods panic, they never return their error. *)
Theorem C70_unconvertible_set_panics : forall u a t, ~ convertible t (ad_type a) -> forall v, untyped_set u a t v = Panic.
Proof. exact unconvertible. Qed.
Print Assumptions C70_unconvertible_set_panics.
Theorem C70_unconvertible_get_panics : forall u m t,
  good_layout (up_layout u) -> In m (l_attrs (up_layout u)) -> m_offset m + m_size m <= length (up_bytes u) -> ~ convertible (m_type m) t ->
  untyped_get u (m_def m) t = Panic.
Proof. exact unconvertible_get. Qed.
Print Assumptions C70_unconvertible_get_panics.

(* an f64 written to the u16 intensity of a point of 24 bytes, read back as f64; the gps time is 0 before and after *)
Example C70_nonvacuous :
  let u := untyped_new ex_layout in
  let v := enc_num PF64 (NFlt (fz 700)) in
  good_layout (up_layout u) /\ In m_intensity (l_attrs (up_layout u)) /\ m_offset m_intensity + m_size m_intensity <= length (up_bytes u)
  /\ convertible F64 (m_type m_intensity) /\ convertible (m_type m_intensity) F64 /\ length v = dt_size F64
  /\ (exists u', untyped_set u (m_def m_intensity) F64 v = Ok u' /\ firstn 3 (up_bytes u') = [188; 2; 0]%Z /\ untyped_get u' (m_def m_intensity) F64 = Ok v)
  /\ (forall m, In m (l_attrs (up_layout u)) -> m_def m <> COLOR_RGB) /\ length (up_bytes (mk_untyped ex_layout [1; 2; 3]%Z)) < m_offset m_gps + m_size m_gps
  /\ ~ convertible Vec3f64 (m_type m_intensity).
Proof.
  cbv zeta. split; [exact ex_layout_good|]. split; [exact ex_intensity|]. split; [vm_compute; lia|]. split; [right; left; split; discriminate|].
  split; [right; left; split; discriminate|]. split; [vm_compute; reflexivity|]. split; [eexists; split; [vm_compute; reflexivity|split; vm_compute; reflexivity]|].
  split; [intros m H; vm_compute in H; repeat (destruct H as [<-|H]; [vm_compute; discriminate|]); contradiction|]. split; [vm_compute; lia|].
  intros [H|[(H & _)|(_ & H)]]; [discriminate|now apply H|now apply H].
Qed.
