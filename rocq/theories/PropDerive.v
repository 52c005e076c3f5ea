(* Property theorems about derive(PointType) on the syntax of a struct: C86. *)
From Coq Require Import String List ZArith Lia Bool Arith.
From Verif Require Import Base LayoutModel LayoutSpec DeriveModel DeriveSpec DeriveProofs DeriveExamples.
Import ListNotations.
Local Open Scope string_scope.
Open Scope nat_scope.
Local Open Scope list_scope.

(* ---- C86 ---- *)
(* Proved: structs with one repr attribute, without align, whose fields have short type names and no attribute but #[pasture(..)].
   Missing: doc comments on fields, types with the path of their crate, several repr attributes, align; refuted below (align: C04). *)
Theorem C86_documented_structs_partial :
  forall (attrs : list attribute) (fields : list field) (ds : list field_desc) (args : list repr_arg),
  one_repr attrs -> repr_arguments attrs args -> In ReprC args -> (forall n, ~ In (ReprAlign n) args) ->
  (forall n, In (ReprPacked n) args -> power_of_two n) -> (forall n n', In (ReprPacked n) args -> In (ReprPacked n') args -> n = n') ->
  Forall2 bare_field fields ds -> NoDup (map fd_name ds) ->
  (forall os s a, rust_struct args ds os s a -> (Z.of_nat s + Z.of_nat a <= 2 ^ 63)%Z) ->
  exists ms al l, derive_point_type (mk_item attrs 0 (Struct fields)) = Ok (ms, al) /\ generated_layout ms al = Ok l
    /\ map m_def (l_attrs l) = map (fun d => mk_def (fd_name d) (data_type_of (fd_type d))) ds
    /\ rust_struct args ds (map m_offset (l_attrs l)) (l_size l) (l_align l).
Proof. exact documented_structs. Qed.
Print Assumptions C86_documented_structs_partial.

(* What compiles: no generics, a struct, a repr attribute with C or packed, one attribute per field, and types and names as documented. Missing: types with
   several segments or arguments, further arguments of #[pasture(..)] (the macro looks at the first one only), attributes with other names. *)
Theorem C86_accepts_only_partial :
  forall (i : item) (ms : list member) (al : nat), derive_point_type i = Ok (ms, al) ->
  it_generics i = 0 /\ (exists a inner, In a (it_attrs i) /\ named "repr" a /\ lists a inner /\ exists x, In x inner /\ (x = NMeta (MPath ["C"]) \/ packed_argument x))
  /\ exists fields ds, it_data i = Struct fields
    /\ Forall2 (fun f d => (regular (f_type f) -> short_type (f_type f) (fd_type d))
         /\ exists a, f_attrs f = [a] /\ (forall x, a = pasture_attribute x -> names a (fd_name d))) fields ds
    /\ map m_def ms = map (fun d => mk_def (fd_name d) (data_type_of (fd_type d))) ds.
Proof. exact accepts_only. Qed.
Print Assumptions C86_accepts_only_partial.

Theorem C86_doc_comment_refuted :
  exists attrs fields ds args, one_repr attrs /\ repr_arguments attrs args /\ In ReprC args /\ (forall a, In a args -> a = ReprC)
  /\ Forall2 documented_field fields ds /\ NoDup (map fd_name ds)
  /\ Forall2 (fun f d => short_type (f_type f) (fd_type d)) fields ds
  /\ derive_point_type (mk_item attrs 0 (Struct fields)) = Err.
Proof. exact doc_rejected. Qed.
Print Assumptions C86_doc_comment_refuted.

Theorem C86_type_path_refuted :
  exists attrs fields ds args, one_repr attrs /\ repr_arguments attrs args /\ In ReprC args /\ (forall a, In a args -> a = ReprC)
  /\ Forall2 documented_field fields ds /\ NoDup (map fd_name ds)
  /\ Forall (fun f => exists a, f_attrs f = [a]) fields
  /\ derive_point_type (mk_item attrs 0 (Struct fields)) = Err.
Proof. exact path_rejected. Qed.
Print Assumptions C86_type_path_refuted.

(* #[repr(C)] #[repr(packed)]: accepted, with the offsets and the size of a struct that is not packed *)
Theorem C86_two_reprs_refuted :
  exists attrs fields ds args ms al l, repr_arguments attrs args /\ In ReprC args /\ Forall2 bare_field fields ds
  /\ derive_point_type (mk_item attrs 0 (Struct fields)) = Ok (ms, al) /\ generated_layout ms al = Ok l
  /\ (exists os s a, rust_struct args ds os s a)
  /\ forall os s a, rust_struct args ds os s a -> map m_offset (l_attrs l) <> os /\ l_size l <> s.
Proof. exact two_reprs_wrong. Qed.
Print Assumptions C86_two_reprs_refuted.

Theorem C86_repr_order_refuted :
  exists attrs fields ds args, repr_arguments attrs args /\ In ReprC args /\ Forall2 bare_field fields ds /\ NoDup (map fd_name ds)
  /\ derive_point_type (mk_item attrs 0 (Struct fields)) = Err.
Proof. exact align_first_rejected. Qed.
Print Assumptions C86_repr_order_refuted.

(* two members with the same attribute name compile, and layout() panics when the program runs *)
Theorem C86_same_names_refuted :
  exists attrs fields ms al, one_repr attrs
  /\ derive_point_type (mk_item attrs 0 (Struct fields)) = Ok (ms, al) /\ generated_layout ms al = Panic.
Proof. exact same_names_accepted. Qed.
Print Assumptions C86_same_names_refuted.

(* a struct none of whose members has an attribute #[pasture(..)] compiles *)
Theorem C86_other_attribute_refuted :
  exists attrs fields ms al, one_repr attrs /\ 0 < List.length fields
  /\ Forall (fun f => forall a, In a (f_attrs f) -> ~ named "pasture" a) fields
  /\ derive_point_type (mk_item attrs 0 (Struct fields)) = Ok (ms, al).
Proof. exact foreign_accepted. Qed.
Print Assumptions C86_other_attribute_refuted.

Example C86_nonvacuous :
  one_repr ex_attrs /\ repr_arguments ex_attrs [ReprC; ReprPacked 2] /\ Forall2 bare_field ex_fields ex_descs /\ NoDup (map fd_name ex_descs)
  /\ power_of_two 2
  /\ exists ms al l, derive_point_type (mk_item ex_attrs 0 (Struct ex_fields)) = Ok (ms, al) /\ generated_layout ms al = Ok l
       /\ map m_offset (l_attrs l) = [0; 2; 26] /\ l_size l = 30 /\ l_align l = 2
       /\ map (fun m => ad_name (m_def m)) (l_attrs l) = ["Classification"; "Position3D"; "extra"].
Proof.
  split; [exact ex_one|]. split; [exact ex_args|]. split; [exact ex_bare|]. split; [repeat constructor; cbn; intuition congruence|].
  split; [exists 1; reflexivity|]. eexists. eexists. eexists. split; [vm_compute; reflexivity|]. split; [vm_compute; reflexivity|]. vm_compute. auto.
Qed.
