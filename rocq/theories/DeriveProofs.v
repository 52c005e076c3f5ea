(* Proofs about derive(PointType) on the syntax of a struct. *)
From Coq Require Import String List ZArith Lia Bool Arith.
From Verif Require Import Base LayoutModel LayoutSpec LayoutProofs DeriveModel DeriveSpec.
Import ListNotations.
Local Open Scope string_scope.
Open Scope nat_scope.
Local Open Scope list_scope.

Lemma data_type_eq p : pt_datatype p = data_type_of p.
Proof. now destruct p. Qed.

Lemma short_ok t p : short_type t p -> primitive_of_type t = Ok p.
Proof.
  intros [x q H|v x q H]; cbn [In scalars vectors] in H.
  - repeat (destruct H as [H|H]; [injection H as <- <-; reflexivity|]). destruct H.
  - repeat (destruct H as [H|H]; [injection H as <- <- <-; reflexivity|]). destruct H.
Qed.
Lemma names_ok a s : names a s -> attribute_name_of_field [a] = Ok s.
Proof.
  intros [x d H|s']; [|reflexivity]. cbn [In builtins] in H.
  repeat (destruct H as [H|H]; [injection H as <- <-; reflexivity|]). destruct H.
Qed.
Lemma fields_ok fields ds : Forall2 bare_field fields ds -> field_descriptions fields = Ok ds.
Proof.
  induction 1 as [|f d fs ds (T & a & A & N) _ IH]; [reflexivity|]. unfold field_descriptions in *. cbn [mapM].
  rewrite (short_ok _ _ T), A, (names_ok _ _ N). cbn [bind]. rewrite IH. cbn [bind]. now destruct d.
Qed.

(* ---- repr ---- *)
Lemma repr_named a : is_repr_attribute a = true <-> named "repr" a.
Proof.
  unfold is_repr_attribute, named. destruct (a_path a) as [|x [|y p]]; cbn; try (split; discriminate). rewrite String.eqb_eq. split; congruence.
Qed.
Lemma find_repr before r after : named "repr" r -> (forall a, In a before -> ~ named "repr" a) -> find is_repr_attribute (before ++ r :: after) = Some r.
Proof.
  intros R. induction before as [|a before IH]; intros H; cbn [find app].
  - apply repr_named in R. now rewrite R.
  - destruct (is_repr_attribute a) eqn:E; [apply repr_named in E; elim (H a); cbn; auto|]. apply IH. intros b B. apply H. now right.
Qed.
Lemma no_repr_args attrs args : repr_arguments attrs args -> (forall a, In a attrs -> ~ named "repr" a) -> args = [].
Proof.
  induction 1 as [|a attrs args N R IH|inner attrs here args F R IH]; intros H; auto.
  - apply IH. intros b B. apply H. now right.
  - elim (H _ (or_introl eq_refl)). reflexivity.
Qed.
Lemma one_repr_args before r after args : repr_arguments (before ++ r :: after) args -> named "repr" r ->
  (forall a, In a before \/ In a after -> ~ named "repr" a) ->
  exists inner, r = mk_attribute ["repr"] (Ok (MList ["repr"] inner)) /\ Forall2 repr_argument inner args.
Proof.
  revert args. induction before as [|a before IH]; intros args R N H; cbn [app] in R.
  - inversion R; subst; [contradiction|]. exists inner. split; [reflexivity|].
    rewrite (no_repr_args _ _ H4) by (intros a A; apply H; auto). now rewrite app_nil_r.
  - inversion R; subst.
    + apply IH; auto. intros b [B|B]; apply H; auto. left. now right.
    + elim (H _ (or_introl (or_introl eq_refl))). reflexivity.
Qed.
Lemma packed_find inner args : Forall2 repr_argument inner args ->
  match find arg_is_packed inner with
  | Some arg => exists n, get_packing_from_arg arg = Ok n /\ find (fun a => match a with ReprPacked _ => true | _ => false end) args = Some (ReprPacked n)
  | None => find (fun a => match a with ReprPacked _ => true | _ => false end) args = None
  end.
Proof.
  induction 1 as [|x y inner args R _ IH]; cbn [find]; [reflexivity|].
  destruct R; cbn -[Z.pow Z.ltb]; auto.
  - exists 1. auto.
  - exists (Z.to_nat n). destruct (Z.ltb_spec n (2 ^ 64)); [auto|lia].
Qed.
Lemma c_exists inner args : Forall2 repr_argument inner args -> existsb arg_is_c inner = existsb (fun a => match a with ReprC => true | _ => false end) args.
Proof. induction 1 as [|x y inner args R _ IH]; [reflexivity|]. cbn [existsb]. rewrite IH. f_equal. destruct R; reflexivity. Qed.
Lemma struct_layout_ok attrs args : one_repr attrs -> repr_arguments attrs args -> struct_layout_of attrs = get_struct_member_layout args.
Proof.
  intros (before & r & after & -> & N & H) R. unfold struct_layout_of. rewrite find_repr by auto.
  destruct (one_repr_args _ _ _ _ R N H) as (inner & -> & F). cbn [a_meta bind]. unfold get_struct_member_layout.
  pose proof (packed_find _ _ F) as P. destruct (find arg_is_packed inner) as [arg|].
  - destruct P as (n & -> & ->). reflexivity.
  - rewrite P. now rewrite (c_exists _ _ F).
Qed.

Lemma derive_point_type_layout attrs fields ds args : one_repr attrs -> repr_arguments attrs args -> Forall2 bare_field fields ds ->
  (let* '(ms, al) := derive_point_type (mk_item attrs 0 (Struct fields)) in generated_layout ms al) = derive_layout args ds.
Proof.
  intros O R F. unfold derive_point_type, derive_layout. cbn [it_generics it_data it_attrs Nat.eqb negb]. rewrite (fields_ok _ _ F), (struct_layout_ok _ _ O R).
  cbn [bind]. destruct (get_struct_member_layout args) as [sml| |]; cbn [bind]; try reflexivity.
  destruct (derive_offsets sml ds 0 1) as [[os al]| |]; reflexivity.
Qed.

Lemma documented_structs attrs fields ds args :
  one_repr attrs -> repr_arguments attrs args -> In ReprC args -> (forall n, ~ In (ReprAlign n) args) ->
  (forall n, In (ReprPacked n) args -> power_of_two n) -> (forall n n', In (ReprPacked n) args -> In (ReprPacked n') args -> n = n') ->
  Forall2 bare_field fields ds -> NoDup (map fd_name ds) ->
  (forall os s a, rust_struct args ds os s a -> (Z.of_nat s + Z.of_nat a <= 2 ^ 63)%Z) ->
  exists ms al l, derive_point_type (mk_item attrs 0 (Struct fields)) = Ok (ms, al) /\ generated_layout ms al = Ok l
    /\ map m_def (l_attrs l) = map (fun d => mk_def (fd_name d) (data_type_of (fd_type d))) ds
    /\ rust_struct args ds (map m_offset (l_attrs l)) (l_size l) (l_align l).
Proof.
  intros O R C A P2 P1 F ND FIT. pose proof (derive_point_type_layout _ _ _ _ O R F) as E.
  assert (G : exists sml, get_struct_member_layout args = Ok sml /\ (forall n, sml = SmlPacked n -> In (ReprPacked n) args)
              /\ (sml = SmlC -> forall n, ~ In (ReprPacked n) args)).
  { unfold get_struct_member_layout. destruct (find _ args) as [a|] eqn:E1.
    - apply find_some in E1. destruct E1 as (I & T). destruct a as [|n| |]; try discriminate. exists (SmlPacked n). split; [reflexivity|].
      split; [|discriminate]. intros n' H. now injection H as <-.
    - assert (EX : existsb (fun a => match a with ReprC => true | _ => false end) args = true) by (apply existsb_exists; exists ReprC; auto).
      rewrite EX. exists SmlC. split; [reflexivity|]. split; [discriminate|]. intros _ n I. now pose proof (find_none _ _ E1 _ I). }
  destruct G as (sml & G & GP & GC).
  destruct (derive_layout_total args ds sml G) as (l & L); auto.
  { intros os s a CS. apply (FIT os s a). destruct sml as [|n].
    - apply rs_c; auto.
    - eapply rs_packed with (n := n); auto. unfold packed_struct. rewrite map_map. exact CS. }
  rewrite L in E. destruct (derive_point_type _) as [[ms al]| |] eqn:D; cbn [bind] in E; try discriminate.
  exists ms, al, l. split; [reflexivity|]. split; [exact E|].
  destruct (derive_matches_rust args ds l C A P1 L) as (M & S). split; [|exact S].
  rewrite M. apply map_ext. intros d. now rewrite data_type_eq.
Qed.

(* ---- what is accepted ---- *)
Lemma ident_short x p : primitive_of_ident x = Ok p -> short_type (plain x) p.
Proof.
  unfold primitive_of_ident. intros H.
  repeat match type of H with (if String.eqb ?a ?b then _ else _) = _ => destruct (String.eqb_spec a b) as [->|_]; [injection H as <-; constructor; cbn; tauto|] end.
  discriminate.
Qed.
Lemma regular_short t p : regular t -> primitive_of_type t = Ok p -> short_type t p.
Proof.
  intros R H. destruct R as [|x q|x q|x g q G]; cbn in H; try discriminate.
  - destruct q; [discriminate|]. now apply ident_short.
  - destruct q; [discriminate|]. destruct (String.eqb x "Vector3" || String.eqb x "Vector4"); discriminate.
  - destruct q; [discriminate|]. destruct (String.eqb_spec x "Vector3") as [->|N3]; [|destruct (String.eqb_spec x "Vector4") as [->|N4]]; cbn in H; try discriminate.
    + destruct g as [[iq il is|]|]; try discriminate. destruct iq; [elim G; reflexivity|].
      destruct is as [|[y ya] [|]]; try discriminate; [|destruct ya; discriminate]. destruct ya; try discriminate. destruct il; try discriminate. cbn in H.
      repeat match type of H with (if String.eqb ?a ?b then _ else _) = _ => destruct (String.eqb_spec a b) as [->|_]; [injection H as <-; apply short_vector; cbn; tauto|] end.
      discriminate.
    + destruct g as [[iq il is|]|]; try discriminate. destruct iq; [elim G; reflexivity|].
      destruct is as [|[y ya] [|]]; try discriminate; [|destruct ya; discriminate]. destruct ya; try discriminate. destruct il; try discriminate. cbn in H.
      destruct (String.eqb_spec y "u8") as [->|_]; [injection H as <-; apply short_vector; cbn; tauto|discriminate].
Qed.
Lemma builtin_names x s : builtin_name x = Ok s -> names (pasture_attribute (MPath [x])) s.
Proof.
  unfold builtin_name. intros H.
  repeat match type of H with (if String.eqb ?a ?b then _ else _) = _ =>
    destruct (String.eqb_spec a b) as [->|_];
    [injection H as <-; match goal with |- names (pasture_attribute (MPath [?n])) ?nm =>
        let d := eval cbv in (find (fun e => String.eqb (fst e) n) builtins) in
        match d with Some (_, ?df) => change nm with (ad_name df); apply names_builtin; cbv; tauto end end|] end.
  discriminate.
Qed.
Lemma field_accepted attrs s : attribute_name_of_field attrs = Ok s -> exists a, attrs = [a] /\ (forall x, a = pasture_attribute x -> names a s).
Proof.
  unfold attribute_name_of_field. destruct attrs as [|a [|]]; try discriminate. intros H. exists a. split; [reflexivity|]. intros x ->. cbn in H.
  destruct x as [p| |p l]; try discriminate.
  - destruct p as [|y [|]]; try discriminate. cbn in H. now apply builtin_names.
  - destruct p as [|y [|]]; try discriminate. cbn in H. destruct (String.eqb_spec y "attribute") as [->|_]; [|discriminate]. cbn in H. destruct l; try discriminate.
    injection H as <-. constructor.
Qed.
Lemma descriptions_sound fields ds : field_descriptions fields = Ok ds ->
  Forall2 (fun f d => (regular (f_type f) -> short_type (f_type f) (fd_type d))
    /\ exists a, f_attrs f = [a] /\ (forall x, a = pasture_attribute x -> names a (fd_name d))) fields ds.
Proof.
  unfold field_descriptions. revert ds. induction fields as [|f fs IH]; intros ds H; cbn [mapM] in H.
  - injection H as <-. constructor.
  - destruct (primitive_of_type (f_type f)) as [p| |] eqn:P; cbn [bind] in H; try discriminate.
    destruct (attribute_name_of_field (f_attrs f)) as [n| |] eqn:N; cbn [bind] in H; try discriminate.
    destruct (mapM _ fs) as [ds'| |] eqn:M; cbn [bind] in H; try discriminate. injection H as <-. constructor; [|now apply IH]. cbn [fd_type fd_name].
    split; [intros R; now apply regular_short|]. now apply field_accepted.
Qed.
Lemma ident_single p x : match get_ident p with Some y => String.eqb y x | None => false end = true -> p = [x].
Proof. destruct p as [|y [|? ?]]; cbn [get_ident]; try discriminate. intros H. apply String.eqb_eq in H. now subst. Qed.
Lemma c_meta x : arg_is_c x = true -> x = NMeta (MPath ["C"]).
Proof. unfold arg_is_c. destruct x as [[p| |]|]; try discriminate. intros H. now rewrite (ident_single _ _ H). Qed.
Lemma packed_meta x : arg_is_packed x = true -> packed_argument x.
Proof.
  unfold arg_is_packed. destruct x as [[p|p args|]|]; try discriminate; intros H; rewrite (ident_single _ _ H); constructor.
Qed.
Lemma accepts_only i ms al : derive_point_type i = Ok (ms, al) ->
  it_generics i = 0 /\ (exists a inner, In a (it_attrs i) /\ named "repr" a /\ lists a inner /\ exists x, In x inner /\ (x = NMeta (MPath ["C"]) \/ packed_argument x))
  /\ exists fields ds, it_data i = Struct fields
    /\ Forall2 (fun f d => (regular (f_type f) -> short_type (f_type f) (fd_type d))
         /\ exists a, f_attrs f = [a] /\ (forall x, a = pasture_attribute x -> names a (fd_name d))) fields ds
    /\ map m_def ms = map (fun d => mk_def (fd_name d) (data_type_of (fd_type d))) ds.
Proof.
  unfold derive_point_type. intros H. destruct (Nat.eqb_spec (it_generics i) 0) as [G|]; [|discriminate]. cbn [negb] in H. split; [exact G|].
  destruct (it_data i) as [fields|]; [|discriminate]. destruct (field_descriptions fields) as [ds| |] eqn:F; cbn [bind] in H; try discriminate.
  destruct (struct_layout_of (it_attrs i)) as [sml| |] eqn:SL; cbn [bind] in H; try discriminate.
  destruct (derive_offsets sml ds 0 1) as [[os al']| |] eqn:D; cbn [bind] in H; try discriminate.
  fold (derive_members ds os) in H. assert (HM : ms = derive_members ds os) by congruence. split.
  - unfold struct_layout_of in SL. destruct (find is_repr_attribute (it_attrs i)) as [r|] eqn:FR; [|discriminate]. apply find_some in FR. destruct FR as (I & N).
    destruct (a_meta r) as [m| |] eqn:M; cbn [bind] in SL; try discriminate. destruct m as [|mp inner|]; try discriminate.
    exists r, inner. split; [exact I|]. split; [now apply repr_named|]. split; [now exists mp|]. destruct (find arg_is_packed inner) as [x|] eqn:FP.
    + apply find_some in FP. destruct FP as (J & PX). exists x. split; [exact J|]. right. now apply packed_meta.
    + destruct (existsb arg_is_c inner) eqn:EC; [|discriminate]. apply existsb_exists in EC. destruct EC as (x & J & CX). exists x. split; [exact J|]. left. now apply c_meta.
  - exists fields, ds. split; [reflexivity|]. split; [now apply descriptions_sound|].
    apply derive_offsets_sound in D. destruct D as (L & _). destruct (derive_members_offsets ds os L) as (_ & MD & _). rewrite HM, MD.
    apply map_ext. intros d. now rewrite data_type_eq.
Qed.
