(* Concrete structs for the examples and counterexamples of PropDerive. *)
From Coq Require Import String List ZArith Lia Bool Arith.
From Verif Require Import Base LayoutModel LayoutSpec LayoutProofs DeriveModel DeriveSpec DeriveProofs.
Import ListNotations.
Local Open Scope string_scope.
Open Scope nat_scope.
Local Open Scope list_scope.

Definition repr (inner : list nested) : attribute := mk_attribute ["repr"] (Ok (MList ["repr"] inner)).
Definition arg_c : nested := NMeta (MPath ["C"]).
Definition arg_packed : nested := NMeta (MPath ["packed"]).
Definition arg_packed_n (n : Z) : nested := NMeta (MList ["packed"] [NLit (LInt n)]).
Definition arg_align (n : Z) : nested := NMeta (MList ["align"] [NLit (LInt n)]).
Definition doc (text : string) : attribute := mk_attribute ["doc"] (Ok (MNameValue ["doc"] (LStr text))).
Definition derives : attribute := mk_attribute ["derive"] (Ok (MList ["derive"] [NMeta (MPath ["Clone"])])).
Definition builtin (x : string) : attribute := pasture_attribute (MPath [x]).
Definition custom (s : string) : attribute := pasture_attribute (MNameValue ["attribute"] (LStr s)).
Definition vec (v x : string) : ty := TPath false false [vector_segment v x].

(* #[derive(Clone)] #[repr(C, packed(2))] struct { classification: u8, position: Vector3<f64>, extra: i32 } *)
Definition ex_attrs : list attribute := [derives; repr [arg_c; arg_packed_n 2]].
Definition ex_fields : list field :=
  [mk_struct_field (plain "u8") [builtin "BUILTIN_CLASSIFICATION"]; mk_struct_field (vec "Vector3" "f64") [builtin "BUILTIN_POSITION_3D"];
   mk_struct_field (plain "i32") [custom "extra"]].
Definition ex_descs : list field_desc := [mk_field "Classification" PtU8; mk_field "Position3D" PtVec3f64; mk_field "extra" PtI32].
Lemma derives_not_repr : ~ named "repr" derives.
Proof. discriminate. Qed.
Lemma ex_one : one_repr ex_attrs.
Proof. exists [derives], (repr [arg_c; arg_packed_n 2]), []. split; [reflexivity|]. split; [reflexivity|]. intros a [[<-|[]]|[]]. discriminate. Qed.
Lemma ex_args : repr_arguments ex_attrs [ReprC; ReprPacked 2].
Proof.
  apply ras_other; [exact derives_not_repr|]. apply (ras_repr [arg_c; arg_packed_n 2] [] [ReprC; ReprPacked 2] []); [|constructor].
  constructor; [constructor|]. constructor; [apply (ra_packed_n 2); lia|constructor].
Qed.
Lemma ex_bare : Forall2 bare_field ex_fields ex_descs.
Proof.
  constructor; [split; [apply short_scalar; cbn; tauto|eexists; split; [reflexivity|apply (names_builtin "BUILTIN_CLASSIFICATION" CLASSIFICATION); cbv; tauto]]|].
  constructor; [split; [apply short_vector; cbn; tauto|eexists; split; [reflexivity|apply (names_builtin "BUILTIN_POSITION_3D" POSITION_3D); cbv; tauto]]|].
  constructor; [split; [apply short_scalar; cbn; tauto|eexists; split; [reflexivity|apply names_custom]]|]. constructor.
Qed.
Lemma bare_documented f d : bare_field f d -> documented_field f d.
Proof.
  intros (T & a & A & N). split; [now constructor|]. exists a. rewrite A. split; [now left|]. split; [exact N|]. intros b [<-|[]] _. reflexivity.
Qed.

(* a doc comment on a field *)
Definition doc_fields : list field := [mk_struct_field (plain "u8") [doc " The class"; builtin "BUILTIN_CLASSIFICATION"]].
Lemma doc_rejected : exists attrs fields ds args, one_repr attrs /\ repr_arguments attrs args /\ In ReprC args /\ (forall a, In a args -> a = ReprC)
  /\ Forall2 documented_field fields ds /\ NoDup (map fd_name ds)
  /\ Forall2 (fun f d => short_type (f_type f) (fd_type d)) fields ds
  /\ derive_point_type (mk_item attrs 0 (Struct fields)) = Err.
Proof.
  exists [repr [arg_c]], doc_fields, [mk_field "Classification" PtU8], [ReprC].
  split; [exists [], (repr [arg_c]), []; split; [reflexivity|]; split; [reflexivity|]; intros a [[]|[]]|].
  split; [apply (ras_repr [arg_c] [] [ReprC] []); [constructor; constructor|constructor]|]. split; [now left|]. split; [intros a [<-|[]]; reflexivity|].
  split; [|split; [repeat constructor; intros []|split; [constructor; [apply short_scalar; cbn; tauto|constructor]|reflexivity]]].
  constructor; [|constructor]. split; [constructor; apply short_scalar; cbn; tauto|].
  exists (builtin "BUILTIN_CLASSIFICATION"). split; [right; now left|]. split; [apply (names_builtin "BUILTIN_CLASSIFICATION" CLASSIFICATION); cbv; tauto|].
  intros b [<-|[<-|[]]] H; [discriminate H|reflexivity].
Qed.

(* the path of a type *)
Definition path_fields : list field :=
  [mk_struct_field (TPath false false [mk_segment "nalgebra" NoArguments; vector_segment "Vector3" "f64"]) [builtin "BUILTIN_POSITION_3D"]].
Lemma path_rejected : exists attrs fields ds args, one_repr attrs /\ repr_arguments attrs args /\ In ReprC args /\ (forall a, In a args -> a = ReprC)
  /\ Forall2 documented_field fields ds /\ NoDup (map fd_name ds)
  /\ Forall (fun f => exists a, f_attrs f = [a]) fields
  /\ derive_point_type (mk_item attrs 0 (Struct fields)) = Err.
Proof.
  exists [repr [arg_c]], path_fields, [mk_field "Position3D" PtVec3f64], [ReprC].
  split; [exists [], (repr [arg_c]), []; split; [reflexivity|]; split; [reflexivity|]; intros a [[]|[]]|].
  split; [apply (ras_repr [arg_c] [] [ReprC] []); [constructor; constructor|constructor]|]. split; [now left|]. split; [intros a [<-|[]]; reflexivity|].
  split; [|split; [repeat constructor; intros []|split; [repeat constructor; eexists; reflexivity|reflexivity]]].
  constructor; [|constructor]. split; [apply primitive_path; cbn; tauto|].
  exists (builtin "BUILTIN_POSITION_3D"). split; [now left|]. split; [apply (names_builtin "BUILTIN_POSITION_3D" POSITION_3D); cbv; tauto|].
  intros b [<-|[]] _. reflexivity.
Qed.

(* two repr attributes: #[repr(C)] #[repr(packed)] struct { a: u8, b: u16 } is packed: offsets 0 and 1, 3 bytes *)
Definition two_fields : list field := [mk_struct_field (plain "u8") [custom "a"]; mk_struct_field (plain "u16") [custom "b"]].
Definition two_descs : list field_desc := [mk_field "a" PtU8; mk_field "b" PtU16].
Lemma two_bare : Forall2 bare_field two_fields two_descs.
Proof.
  constructor; [split; [apply short_scalar; cbn; tauto|eexists; split; [reflexivity|apply names_custom]]|].
  constructor; [split; [apply short_scalar; cbn; tauto|eexists; split; [reflexivity|apply names_custom]]|]. constructor.
Qed.
Lemma two_args : repr_arguments [repr [arg_c]; repr [arg_packed]] [ReprC; ReprPacked 1].
Proof.
  apply (ras_repr [arg_c] [repr [arg_packed]] [ReprC] [ReprPacked 1]); [constructor; constructor|].
  apply (ras_repr [arg_packed] [] [ReprPacked 1] []); [constructor; constructor|constructor].
Qed.
Lemma least_unique P x y : least P x -> least P y -> x = y.
Proof. intros (A & B) (C & D). apply Nat.le_antisymm; auto. Qed.
Lemma least_1 n : least (fun x => Nat.divide 1 x /\ n <= x) n.
Proof. split; [split; [apply Nat.divide_1_l|lia]|]. intros y (_ & H). exact H. Qed.
Lemma two_packed os s a : rust_struct [ReprC; ReprPacked 1] two_descs os s a -> os = [0; 1] /\ s = 3 /\ a = 1.
Proof.
  intros [C NP NA CS|n C I U CS|n C NP I U CS].
  - elim (NP 1). cbn. tauto.
  - assert (n = 1) as -> by (symmetry; apply U; cbn; tauto). destruct CS as (e & P & (A1 & A2 & A3) & L). cbn in *.
    inversion P as [|? ? ? ? o1 os1 ? P1 P2]; subst. inversion P2 as [|? ? ? ? o2 os2 ? P3 P4]; subst. inversion P4; subst.
    cbn in P1, P3, P2. assert (o1 = 0) as -> by (apply (least_unique _ _ _ P1); apply least_1).
    assert (o2 = 1) as -> by (apply (least_unique _ _ _ P3); apply least_1).
    assert (a = 1) as -> by (destruct A3 as [A3|[A3|[A3|[]]]]; congruence).
    split; [reflexivity|]. split; [|reflexivity]. apply (least_unique _ _ _ L). apply (least_1 3).
  - elim (NP 1). cbn. tauto.
Qed.
Lemma two_reprs_wrong : exists attrs fields ds args ms al l, repr_arguments attrs args /\ In ReprC args /\ Forall2 bare_field fields ds
  /\ derive_point_type (mk_item attrs 0 (Struct fields)) = Ok (ms, al) /\ generated_layout ms al = Ok l
  /\ (exists os s a, rust_struct args ds os s a)
  /\ forall os s a, rust_struct args ds os s a -> map m_offset (l_attrs l) <> os /\ l_size l <> s.
Proof.
  exists [repr [arg_c]; repr [arg_packed]], two_fields, two_descs, [ReprC; ReprPacked 1].
  eexists. eexists. eexists. split; [exact two_args|]. split; [now left|]. split; [exact two_bare|]. split; [vm_compute; reflexivity|]. split; [vm_compute; reflexivity|].
  split.
  - exists [0; 1], 3, 1. apply rs_packed with (n := 1); try (cbn; tauto); [intros n [H|[H|[]]]; congruence|].
    exists 3. split; [|split].
    + apply placed_cons; [apply (least_1 0)|]. apply placed_cons; [apply (least_1 1)|]. constructor.
    + cbn. split; [lia|]. split; [intros b [<-|[<-|[]]]; lia|now left].
    + apply (least_1 3).
  - intros os s a R. destruct (two_packed os s a R) as (-> & -> & ->). split; vm_compute; discriminate.
Qed.

(* #[repr(align(4))] #[repr(C)]: rejected *)
Lemma align_first_rejected : exists attrs fields ds args, repr_arguments attrs args /\ In ReprC args /\ Forall2 bare_field fields ds /\ NoDup (map fd_name ds)
  /\ derive_point_type (mk_item attrs 0 (Struct fields)) = Err.
Proof.
  exists [repr [arg_align 4]; repr [arg_c]], two_fields, two_descs, [ReprAlign 4; ReprC].
  split; [apply (ras_repr [arg_align 4] [repr [arg_c]] [ReprAlign 4] [ReprC]); [constructor; [apply (ra_align 4); lia|constructor]|];
          apply (ras_repr [arg_c] [] [ReprC] []); [constructor; constructor|constructor]|].
  split; [cbn; tauto|]. split; [exact two_bare|]. split; [|vm_compute; reflexivity]. repeat constructor; cbn; intuition congruence.
Qed.

(* two members with the same name *)
Lemma same_names_accepted : exists attrs fields ms al, one_repr attrs
  /\ derive_point_type (mk_item attrs 0 (Struct fields)) = Ok (ms, al) /\ generated_layout ms al = Panic.
Proof.
  exists [repr [arg_c]], [mk_struct_field (plain "u8") [custom "a"]; mk_struct_field (plain "u8") [custom "a"]]. eexists. eexists.
  split; [exists [], (repr [arg_c]), []; split; [reflexivity|]; split; [reflexivity|]; intros a [[]|[]]|]. split; [vm_compute; reflexivity|vm_compute; reflexivity].
Qed.

(* an attribute of something else *)
Lemma foreign_accepted : exists attrs fields ms al, one_repr attrs /\ 0 < List.length fields
  /\ Forall (fun f => forall a, In a (f_attrs f) -> ~ named "pasture" a) fields
  /\ derive_point_type (mk_item attrs 0 (Struct fields)) = Ok (ms, al).
Proof.
  exists [repr [arg_c]], [mk_struct_field (plain "u8") [mk_attribute ["other"] (Ok (MList ["other"] [NMeta (MNameValue ["attribute"] (LStr "a"))]))]]. eexists. eexists.
  split; [exists [], (repr [arg_c]), []; split; [reflexivity|]; split; [reflexivity|]; intros a [[]|[]]|]. split; [cbn; lia|].
  split; [constructor; [|constructor]; intros a [<-|[]]; discriminate|]. vm_compute; reflexivity.
Qed.
