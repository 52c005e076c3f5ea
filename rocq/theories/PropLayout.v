(* Property theorems about point layouts: C01 - C08. *)
From Coq Require Import String List ZArith Lia Bool Arith.
From Verif Require Import Base LayoutModel LayoutSpec LayoutProofs.
Import ListNotations.
Open Scope string_scope.

(* ---- C01 ---- *)
Theorem C01_grown_layout_never_overlaps :
  forall (history : list (attr_def * field_alignment)) (l : layout),
  foldM (fun l p => add_attribute l (fst p) (snd p)) history layout_default = Ok l ->
  map m_def (l_attrs l) = map fst history
  /\ NoDup (map m_name (l_attrs l))
  /\ (forall m, In m (l_attrs l) -> m_size m = dt_size (m_type m))
  /\ increasing_members (l_attrs l)
  /\ disjoint_members (l_attrs l)
  /\ (forall m b, In m (l_attrs l) -> occupies m b -> b < l_size l).
Proof. exact grown_layout. Qed.
Print Assumptions C01_grown_layout_never_overlaps.

Example C01_nonvacuous :
  exists l, foldM (fun l p => add_attribute l (fst p) (snd p))
    [(INTENSITY, Default); (POSITION_3D, Packed 4); (GPS_TIME, Default); (CLASSIFICATION, Packed 1)]
    layout_default = Ok l
  /\ map m_offset (l_attrs l) = [0; 4; 32; 40].
Proof. eexists. split; vm_compute; reflexivity. Qed.

(* ---- C02 ---- *)
(* Every non-panicking call yields exactly the repr(C) layout. *)
Theorem C02_from_attributes_is_repr_C :
  forall (attrs : list attr_def) (l : layout),
  (forall a, In a attrs -> power_of_two (dt_align (ad_type a))) ->
  from_attributes attrs = Ok l ->
  map m_def (l_attrs l) = attrs
  /\ c_struct (map (fun a => (dt_size (ad_type a), dt_align (ad_type a))) attrs)
              (map m_offset (l_attrs l)) (l_size l) (l_align l).
Proof.
  exact (fun attrs l P H =>
    conj (proj1 (from_attributes_c_struct attrs l P H))
         (proj1 (proj2 (from_attributes_c_struct attrs l P H)))).
Qed.
Print Assumptions C02_from_attributes_is_repr_C.

(* It succeeds for distinct names unless the struct exceeds what Rust allows (isize::MAX). *)
Theorem C02_from_attributes_succeeds :
  forall (attrs : list attr_def),
  NoDup (map ad_name attrs) ->
  (forall a, In a attrs -> power_of_two (dt_align (ad_type a))) ->
  (forall os s a,
     c_struct (map (fun a => (dt_size (ad_type a), dt_align (ad_type a))) attrs) os s a ->
     (Z.of_nat s + Z.of_nat a <= 2 ^ 63)%Z) ->
  exists l, from_attributes attrs = Ok l.
Proof. exact from_attributes_succeeds. Qed.
Print Assumptions C02_from_attributes_succeeds.

(* Repeated names panic. *)
Theorem C02_from_attributes_distinct_names :
  forall attrs l, from_attributes attrs = Ok l -> NoDup (map ad_name attrs).
Proof. exact from_attributes_names. Qed.
Print Assumptions C02_from_attributes_distinct_names.

Example C02_nonvacuous :
  exists l, from_attributes [INTENSITY; POSITION_3D; CLASSIFICATION] = Ok l
            /\ map m_offset (l_attrs l) = [0; 8; 32] /\ l_size l = 40 /\ l_align l = 8.
Proof. eexists. vm_compute. repeat split; reflexivity. Qed.

(* ---- C03 ---- *)
(* What holds for every n: the field offsets. Missing: size and alignment (see the refutation). *)
Theorem C03_packed_offsets_partial :
  forall (attrs : list attr_def) (n : nat) (l : layout),
  n <> 0 -> (forall a, In a attrs -> dt_align (ad_type a) <> 0) ->
  from_attributes_packed attrs n = Ok l ->
  map m_def (l_attrs l) = attrs
  /\ exists e, placed 0 (map (fun a => (dt_size (ad_type a), Nat.min n (dt_align (ad_type a)))) attrs)
                      (map m_offset (l_attrs l)) e.
Proof. exact packed_offsets. Qed.
Print Assumptions C03_packed_offsets_partial.

(* For n = 1 the whole layout is the packed(1) layout. *)
Theorem C03_packed1_is_repr_packed_partial :
  forall (attrs : list attr_def) (l : layout),
  (forall a, In a attrs -> dt_align (ad_type a) <> 0) ->
  from_attributes_packed attrs 1 = Ok l ->
  packed_struct 1 (map (fun a => (dt_size (ad_type a), dt_align (ad_type a))) attrs)
                (map m_offset (l_attrs l)) (l_size l) (l_align l).
Proof. exact from_packed1_c_struct. Qed.
Print Assumptions C03_packed1_is_repr_packed_partial.

(* packed(4) struct { f32, u8 } has size 8 and alignment 4; the layout says 5 and 1. *)
Theorem C03_packed_size_refuted :
  exists attrs n l, from_attributes_packed attrs n = Ok l
  /\ forall os s a,
     packed_struct n (map (fun a => (dt_size (ad_type a), dt_align (ad_type a))) attrs) os s a ->
     l_size l <> s /\ l_align l <> a.
Proof. exact packed_size_wrong. Qed.
Print Assumptions C03_packed_size_refuted.

Example C03_nonvacuous :
  exists l, from_attributes_packed [INTENSITY; POSITION_3D] 4 = Ok l /\ map m_offset (l_attrs l) = [0; 4].
Proof. eexists. vm_compute. split; reflexivity. Qed.

(* ---- C04 ---- *)
(* All supported repr attributes except align(n), which the macro ignores (see the refutation). *)
Theorem C04_derive_matches_rust_partial :
  forall (args : list repr_arg) (fields : list field_desc) (l : layout),
  In ReprC args -> (forall n, ~ In (ReprAlign n) args) ->
  (forall n n', In (ReprPacked n) args -> In (ReprPacked n') args -> n = n') ->
  derive_layout args fields = Ok l ->
  map m_def (l_attrs l) = map (fun f => mk_def (fd_name f) (pt_datatype (fd_type f))) fields
  /\ rust_struct args fields (map m_offset (l_attrs l)) (l_size l) (l_align l).
Proof. exact derive_matches_rust. Qed.
Print Assumptions C04_derive_matches_rust_partial.

Theorem C04_derive_succeeds_partial :
  forall args fields sml,
  get_struct_member_layout args = Ok sml ->
  (forall n, sml = SmlPacked n -> power_of_two n) ->
  NoDup (map fd_name fields) ->
  (forall os s a, c_struct (rust_fields sml fields) os s a -> (Z.of_nat s + Z.of_nat a <= 2 ^ 63)%Z) ->
  exists l, derive_layout args fields = Ok l.
Proof. exact derive_layout_total. Qed.
Print Assumptions C04_derive_succeeds_partial.

Theorem C04_derive_align_refuted :
  exists args fields l, derive_layout args fields = Ok l
  /\ forall os s a, rust_struct args fields os s a -> l_size l <> s /\ l_align l <> a.
Proof. exact derive_align_wrong. Qed.
Print Assumptions C04_derive_align_refuted.

Example C04_nonvacuous :
  exists l, derive_layout [ReprC; ReprPacked 2]
    [mk_field "a" PtU8; mk_field "b" PtVec3f64; mk_field "c" PtU8] = Ok l
  /\ map m_offset (l_attrs l) = [0; 2; 26] /\ l_size l = 28 /\ l_align l = 2.
Proof. eexists. vm_compute. repeat split; reflexivity. Qed.

(* ---- C05 ---- *)
Theorem C05_lookups_agree :
  forall (l : layout), api_layout l ->
  (forall n, has_attribute_with_name l n = true <-> exists m, In m (l_attrs l) /\ m_name m = n)
  /\ (forall n m, get_attribute_by_name l n = Some m <-> In m (l_attrs l) /\ m_name m = n)
  /\ (forall a, has_attribute l a = true <-> exists m, In m (l_attrs l) /\ m_def m = a)
  /\ (forall a m, get_attribute l a = Some m <-> In m (l_attrs l) /\ m_def m = a)
  /\ (forall a o, offset_of l a = Some o <-> exists m, In m (l_attrs l) /\ m_def m = a /\ m_offset m = o)
  /\ (forall a i, index_of l a = Some i <-> exists m, layout_at l i = Ok m /\ m_def m = a).
Proof.
  exact (fun l A =>
    conj (has_name_spec l)
   (conj (fun n m => get_by_name_spec l n m (api_layout_names l A))
   (conj (has_attribute_spec l)
   (conj (fun a m => get_attribute_spec l a m (api_layout_names l A))
   (conj (fun a o => offset_of_spec l a o (api_layout_names l A))
         (fun a i => index_of_spec l a i (api_layout_names l A))))))).
Qed.
Print Assumptions C05_lookups_agree.

(* An attribute is found exactly if it was put in. *)
Theorem C05_found_iff_added :
  forall (history : list (attr_def * field_alignment)) (l : layout),
  foldM (fun l p => add_attribute l (fst p) (snd p)) history layout_default = Ok l ->
  forall a, has_attribute l a = true <-> In a (map fst history).
Proof. exact found_iff_added. Qed.
Print Assumptions C05_found_iff_added.

Example C05_nonvacuous :
  exists l, api_layout l /\ index_of l POSITION_3D = Some 1 /\ offset_of l POSITION_3D = Some 0.
Proof.
  eexists. split; [eapply (api_from_members [at_offset_in_type INTENSITY 24; at_offset_in_type POSITION_3D 0] 8)|].
  - intros m [<-|[<-|[]]]; reflexivity.
  - vm_compute. reflexivity.
  - vm_compute. split; reflexivity.
Qed.

(* ---- C06 ---- *)
(* Acceptance implies well-formedness, for all member lists. *)
Theorem C06_from_members_sound_partial :
  forall (ms : list member) (al : nat) (l : layout),
  from_members_and_alignment ms al = Ok l ->
  l_attrs l = ms /\ l_align l = al
  /\ NoDup (map m_name ms) /\ disjoint_members ms /\ power_of_two al
  /\ least (fun s => Nat.divide al s /\ forall m, In m ms -> m_offset m + m_size m <= s) (l_size l)
  /\ (Z.of_nat (l_size l) + Z.of_nat al <= 2 ^ 63)%Z.
Proof. exact from_members_sound. Qed.
Print Assumptions C06_from_members_sound_partial.

(* Well-formed lists are accepted if all members are non-empty. Missing: empty members. *)
Theorem C06_from_members_complete_partial :
  forall (ms : list member) (al : nat),
  NoDup (map m_name ms) -> disjoint_members ms -> power_of_two al ->
  (forall m, In m ms -> 0 < m_size m) ->
  (forall s, least (fun s => Nat.divide al s /\ forall m, In m ms -> m_offset m + m_size m <= s) s ->
             (Z.of_nat s + Z.of_nat al <= 2 ^ 63)%Z) ->
  exists l, from_members_and_alignment ms al = Ok l.
Proof. exact from_members_complete. Qed.
Print Assumptions C06_from_members_complete_partial.

(* With a zero-sized member the answer depends on the order of the list. *)
Theorem C06_empty_member_refuted :
  exists m1 m2, disjoint_members [m1; m2]
  /\ is_ok (from_members_and_alignment [m1; m2] 1) = true
  /\ from_members_and_alignment [m2; m1] 1 = Panic.
Proof. exact empty_member_order. Qed.
Print Assumptions C06_empty_member_refuted.

Example C06_nonvacuous :
  exists l, from_members_and_alignment [at_offset_in_type INTENSITY 24; at_offset_in_type POSITION_3D 0] 8 = Ok l
            /\ l_size l = 32.
Proof. eexists. vm_compute. split; reflexivity. Qed.

(* ---- C07 ---- *)
(* Holds when the members are listed in memory order. *)
Theorem C07_add_to_ordered_layout_partial :
  forall l a fa l',
  increasing_members (l_attrs l) -> add_attribute l a fa = Ok l' ->
  increasing_members (l_attrs l') /\ disjoint_members (l_attrs l').
Proof.
  exact (fun l a fa l' I H =>
    conj (add_after_increasing l a fa l' I H)
         (increasing_disjoint _ (add_after_increasing l a fa l' I H))).
Qed.
Print Assumptions C07_add_to_ordered_layout_partial.

Theorem C07_add_overlaps_refuted :
  exists l a fa l', api_layout l /\ add_attribute l a fa = Ok l' /\ ~ disjoint_members (l_attrs l').
Proof. exact add_overlaps. Qed.
Print Assumptions C07_add_overlaps_refuted.

(* ---- C08 ---- *)
(* With overflow checks, any returned value is the least multiple. *)
Theorem C08_align_to_debug_partial :
  forall w x a r : Z,
  (0 <= x < 2 ^ w -> 0 <= a < 2 ^ w -> align_to_debug w x a = Ok r ->
   if a =? 0 then r = x
   else Z.divide a r /\ x <= r < 2 ^ w /\ (forall m, Z.divide a m -> x <= m -> r <= m))%Z.
Proof. exact align_debug_ok. Qed.
Print Assumptions C08_align_to_debug_partial.

Theorem C08_align_to_debug_total_partial :
  forall w x a : Z, (0 <= x -> 0 <= a -> x + a < 2 ^ w -> exists r, align_to_debug w x a = Ok r)%Z.
Proof. exact align_debug_total. Qed.
Print Assumptions C08_align_to_debug_total_partial.

(* Without overflow checks it is right for every power-of-two alignment whenever the result fits. *)
Theorem C08_align_to_release_pow2_partial :
  forall w k x : Z, (0 <= k < w -> 0 <= x < 2 ^ w ->
  (exists m, Z.divide (2 ^ k) m /\ x <= m < 2 ^ w) ->
  let r := align_to_release w x (2 ^ k) in
  Z.divide (2 ^ k) r /\ x <= r < 2 ^ w /\ (forall m, Z.divide (2 ^ k) m -> x <= m -> r <= m))%Z.
Proof. exact align_release_pow2. Qed.
Print Assumptions C08_align_to_release_pow2_partial.

(* 255u8.align_to(5): 255 is a multiple of 5, yet the call overflows (debug) or returns 0 (release). *)
Theorem C08_align_to_overflow_refuted :
  exists w x a m : Z, (0 <= x < 2 ^ w /\ 0 < a < 2 ^ w /\ Z.divide a m /\ x <= m < 2 ^ w
  /\ align_to_debug w x a = Panic /\ align_to_release w x a < x)%Z.
Proof. exact align_to_overflow. Qed.
Print Assumptions C08_align_to_overflow_refuted.
