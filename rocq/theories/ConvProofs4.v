(* Building a BufferLayoutConverter, and applying all of its mappings. *)
From Coq Require Import String List ZArith Lia Bool Arith.
From Verif Require Import Base LayoutModel LayoutSpec LayoutProofs BufferModel BufferSpec ListLemmas BufferProofs
  BufferSteps BufferSteps2 BufferSteps3 BufferSteps4 TraitModel TraitSpec TraitProofs TraitProofs2 TraitProofs3 NumModel
  ConvModel ConvSpec ConvProofs ConvProofs2 ConvProofs3.
Import ListNotations.
Open Scope nat_scope.

Definition tgt_def (mp : mapping) : attr_def := m_def (mp_tgt mp).
Definition find_target (ms : list mapping) (a : attr_def) : option mapping := find (fun mp => attr_def_eqb (tgt_def mp) a) ms.

Lemma find_target_In ms a mp : find_target ms a = Some mp -> In mp ms /\ tgt_def mp = a.
Proof. intros F. apply find_some in F. destruct F as [I E]. apply attr_def_eqb_eq in E. auto. Qed.

Lemma find_target_None ms a : ~ In a (map tgt_def ms) -> find_target ms a = None.
Proof.
  induction ms as [|mp ms IH]; simpl; auto. intros N. destruct (attr_def_eqb (tgt_def mp) a) eqn:E.
  - apply attr_def_eqb_eq in E. tauto.
  - apply IH. tauto.
Qed.

Lemma with_attr_outside m v r q : q < m_offset m \/ m_offset m + length v <= q -> nth_error (with_attr m v r) q = nth_error r q.
Proof.
  intros Q. unfold with_attr, set_range. rewrite nth_error_mapi. destruct (nth_error r q); cbn [option_map]; auto.
  destruct (Nat.leb_spec (m_offset m) q), (Nat.ltb_spec q (m_offset m + length v)); cbn [andb]; auto. lia.
Qed.

(* ------------------------------------------------------------------ all mappings *)

Section All.
Variables (from to : layout) (sb : buffer) (s e ts te max : nat).
Hypotheses (GF : good_layout from) (GT : good_layout to).
Hypotheses (WS : bf_wf sb) (LS : bf_layout sb = from) (S1 : s <= e) (S2 : e <= bf_len sb) (T1 : ts <= te) (EQ : e - s = te - ts).

Definition one_step (tb : mbuf) (mp : mapping) : res mbuf :=
  match bf_is_columnar sb, mb_is_columnar tb with
  | true, true => convert_cc mp sb s e tb ts te
  | true, false => convert_ci mp sb s e tb ts te
  | false, true => convert_ic max mp sb s e tb ts te
  | false, false => convert_ii max mp sb s e tb ts te
  end.

Definition src_point (k : nat) : list Z := nth (k - ts + s) (bf_points sb) [].

Lemma one_step_ok tb mp : mp_ok from to mp -> m_size (mp_src mp) <= max -> mb_wf tb -> mb_layout tb = to -> te <= mb_len tb ->
  exists tb', one_step tb mp = Ok tb' /\ effect mp tb tb' ts te (fun k => mp_value mp (attr_value (mp_src mp) (src_point k))).
Proof.
  intros MO M W L T2. unfold one_step. rewrite bf_is_columnar_eq, mb_is_columnar_eq.
  destruct (bf_columnar sb) eqn:CS, (mb_columnar tb) eqn:CT.
  - now apply (cc_ok from to).
  - now apply (ci_ok from to).
  - now apply (ic_ok from to).
  - now apply (ii_ok from to).
Qed.

Lemma all_steps ms : Forall (mp_ok from to) ms -> Forall (fun mp => m_size (mp_src mp) <= max) ms -> NoDup (map tgt_def ms) ->
  forall tb, mb_wf tb -> mb_layout tb = to -> te <= mb_len tb ->
  exists tb', foldM one_step ms tb = Ok tb' /\ mb_wf tb' /\ mb_layout tb' = to /\ mb_len tb' = mb_len tb /\ mb_off tb' = mb_off tb
    /\ mb_len (mb_root tb') = mb_len (mb_root tb)
    /\ (forall q, q < mb_off tb \/ mb_off tb + mb_len tb <= q ->
          nth_error (mb_points (mb_root tb')) q = nth_error (mb_points (mb_root tb)) q)
    /\ (forall k r, nth_error (mb_points tb) k = Some r ->
          exists r', nth_error (mb_points tb') k = Some r'
            /\ (~ (ts <= k < te) -> r' = r)
            /\ (ts <= k < te -> forall tm, In tm (l_attrs to) ->
                  attr_value tm r' = match find_target ms (m_def tm) with
                                     | Some mp => mp_value mp (attr_value (mp_src mp) (src_point k))
                                     | None => attr_value tm r
                                     end)
            /\ (forall q, (forall tm, In tm (l_attrs to) -> q < m_offset tm \/ m_offset tm + m_size tm <= q) ->
                  nth_error r' q = nth_error r q)).
Proof.
  induction ms as [|mp ms IH]; intros FO FM ND tb W L T2.
  - exists tb. simpl. split; [reflexivity|]. repeat split; auto. intros k r Hr. exists r. auto.
  - inversion_clear FO as [|? ? MO FO']. inversion_clear FM as [|? ? MM FM']. inversion_clear ND as [|? ? NI ND'].
    destruct (one_step_ok tb mp MO MM W L T2) as (t1 & E1 & EF). destruct EF as (W1 & SH & L1 & N1 & P1 & O1 & R1 & C1 & OUT1).
    destruct (IH FO' FM' ND' t1) as (t2 & E2 & W2 & L2 & N2 & O2 & R2 & OUT2 & PT); auto; try congruence; try lia.
    exists t2. cbn [foldM]. rewrite E1. cbn [bind]. split; [exact E2|]. split; [exact W2|]. split; [exact L2|]. split; [congruence|].
    split; [congruence|]. split; [congruence|]. split. { intros q Q. rewrite OUT2 by (rewrite ?O1, ?N1; exact Q). now apply OUT1. }
    intros k r Hr.
    set (r1 := if Nat.leb ts k && Nat.ltb k te then with_attr (mp_tgt mp) (mp_value mp (attr_value (mp_src mp) (src_point k))) r else r).
    assert (Hr1 : nth_error (mb_points t1) k = Some r1) by (rewrite P1, nth_error_mapi, Hr; reflexivity).
    destruct (PT k r1 Hr1) as (r' & Hr' & OUT & INN & PAD). exists r'. split; [exact Hr'|].
    assert (MT : In (mp_tgt mp) (l_attrs to)) by apply MO.
    assert (LV : length (mp_value mp (attr_value (mp_src mp) (src_point k))) = m_size (mp_tgt mp) \/ ~ (ts <= k < te)).
    { destruct (Nat.leb_spec ts k), (Nat.ltb_spec k te); try (right; lia). left. now apply (val_len from to mp sb s e ts te). }
    split; [|split; [|intros q Q; rewrite (PAD q Q); unfold r1; destruct (_ && _) eqn:B; auto; apply andb_true_iff in B; destruct B as [B1 B2];
      apply Nat.leb_le in B1; apply Nat.ltb_lt in B2; destruct LV as [LV|LV]; [|lia]; apply with_attr_outside; rewrite LV; auto]]; unfold r1 in *; clear r1;
    destruct (Nat.leb_spec ts k), (Nat.ltb_spec k te); cbn [andb] in *; intros K; try lia; try (apply OUT; lia).
    destruct LV as [LV|LV]; [|lia].
    intros tm Ht. rewrite (INN K tm Ht). unfold find_target at 2. cbn [find]. fold (find_target ms (m_def tm)).
    destruct (wf_uniform tb W) as [U UL]. pose proof (uniform_nth _ _ _ _ U Hr) as LR. rewrite L in LR.
    destruct (attr_def_eqb (tgt_def mp) (m_def tm)) eqn:Q.
    + apply attr_def_eqb_eq in Q. assert (mp_tgt mp = tm) by (exact (good_def_inj to (mp_tgt mp) tm GT MT Ht Q)). subst tm.
      rewrite find_target_None by (rewrite <- Q in *; exact NI). now apply (attr_value_with_same to).
    + destruct (find_target ms (m_def tm)); auto. apply (attr_value_with_other to); auto.
      intros <-. unfold tgt_def in Q. rewrite attr_def_eqb_refl in Q. discriminate.
Qed.
End All.

(* ------------------------------------------------------------------ building *)

Lemma mapM_ok {A B} (f : A -> res B) l l' : mapM f l = Ok l' -> Forall2 (fun a b => f a = Ok b) l l'.
Proof.
  revert l'. induction l as [|a l IH]; intros l'; simpl; [intros [= <-]; constructor|].
  intros E. apply bind_ok in E. destruct E as (b & E1 & E). apply bind_ok in E. destruct E as (bs & E2 & [= <-]). constructor; auto.
Qed.
Lemma mapM_all {A B} (f : A -> res B) l : (forall a, In a l -> exists b, f a = Ok b) -> exists l', mapM f l = Ok l'.
Proof.
  induction l as [|a l IH]; intros H; simpl; [eauto|]. destruct (H a) as [b Eb]; [now left|]. rewrite Eb. cbn [bind].
  destruct IH as [l' E]; [intros; apply H; now right|]. rewrite E. cbn [bind]. eauto.
Qed.
Lemma mapM_panic {A B} (f : A -> res B) l a : (forall x, In x l -> f x <> Err) -> In a l -> f a = Panic -> mapM f l = Panic.
Proof.
  induction l as [|x l IH]; intros NE I P; [contradiction|]. cbn [mapM]. destruct I as [->|I].
  - now rewrite P.
  - assert (N : f x <> Err) by (apply NE; now left). destruct (f x) as [b| |]; cbn [bind]; auto; [|contradiction].
    rewrite IH; auto. intros y Hy. apply NE. now right.
Qed.

Lemma default_mapping_spec sm tm :
  make_default_mapping sm tm =
  if datatype_eqb (m_type sm) (m_type tm) then Ok (mk_mapping tm sm None None)
  else match table_spec (m_type sm) (m_type tm) with Some c => Ok (mk_mapping tm sm (Some c) None) | None => Panic end.
Proof.
  unfold make_default_mapping. rewrite generic_spec. destruct (datatype_eqb _ _); auto.
  destruct (table_spec (m_type sm) (m_type tm)); reflexivity.
Qed.

Lemma convertible_spec from to : convertible from to <-> (datatype_eqb from to = true \/ table_spec from to <> None).
Proof.
  unfold convertible. destruct (datatype_eqb from to) eqn:E.
  - apply datatype_eqb_eq in E. tauto.
  - assert (N : from <> to) by (intros ->; rewrite (proj2 (datatype_eqb_eq to to) eq_refl) in E; discriminate).
    rewrite (table_spec_supported from to N). intuition congruence.
Qed.

Lemma default_mapping_ok from to sm tm mp : In sm (l_attrs from) -> In tm (l_attrs to) -> make_default_mapping sm tm = Ok mp ->
  mp_ok from to mp /\ mp_src mp = sm /\ mp_tgt mp = tm /\ mp_tf mp = None.
Proof.
  intros Hs Ht. rewrite default_mapping_spec. destruct (datatype_eqb (m_type sm) (m_type tm)) eqn:E.
  - apply datatype_eqb_eq in E. intros [= <-]. unfold mp_ok. simpl. auto.
  - destruct (table_spec (m_type sm) (m_type tm)) eqn:T; intros [= <-]. unfold mp_ok. simpl. auto.
Qed.
Lemma default_mapping_exists sm tm : convertible (m_type sm) (m_type tm) -> exists mp, make_default_mapping sm tm = Ok mp.
Proof.
  rewrite convertible_spec, default_mapping_spec. destruct (datatype_eqb (m_type sm) (m_type tm)); eauto.
  intros [|]; [discriminate|]. destruct (table_spec (m_type sm) (m_type tm)); [eauto|congruence].
Qed.
Lemma default_mapping_panics sm tm : ~ convertible (m_type sm) (m_type tm) -> make_default_mapping sm tm = Panic.
Proof.
  rewrite convertible_spec, default_mapping_spec. destruct (datatype_eqb (m_type sm) (m_type tm)); [tauto|].
  destruct (table_spec (m_type sm) (m_type tm)); auto. intros H. exfalso. apply H. right. discriminate.
Qed.
Lemma convertible_dec a b : convertible a b \/ ~ convertible a b.
Proof.
  rewrite convertible_spec. destruct (datatype_eqb a b); [tauto|]. destruct (table_spec a b); [left; right; discriminate|right; intuition discriminate].
Qed.

(* which transformation a call asks for *)
Definition call_tf (o : option call) : option transformation :=
  match o with Some (Transformed _ _ _ f source) => Some (mk_tf f source) | _ => None end.

(* the mappings of a converter after some calls *)
Definition built (from to : layout) (calls : list call) (c : converter) : Prop :=
  cv_from c = from /\ cv_to c = to /\ Forall (mp_ok from to) (cv_maps c) /\ NoDup (map tgt_def (cv_maps c))
  /\ forall tm, In tm (l_attrs to) ->
       match find_target (cv_maps c) (m_def tm) with
       | Some mp => exists o, mapped_from from calls tm = Some (mp_src mp, o) /\ mp_tf mp = call_tf o
       | None => mapped_from from calls tm = None
       end.

Lemma Forall2_In_l {A B} (R : A -> B -> Prop) l l' a : Forall2 R l l' -> In a l -> exists b, In b l' /\ R a b.
Proof. induction 1; intros I; [contradiction|]. destruct I as [->|I]; [exists y; simpl; auto|]. destruct IHForall2 as (b & ? & ?); auto. exists b. simpl; auto. Qed.
Lemma Forall2_In_r {A B} (R : A -> B -> Prop) l l' b : Forall2 R l l' -> In b l' -> exists a, In a l /\ R a b.
Proof. induction 1; intros I; [contradiction|]. destruct I as [->|I]; [exists x; simpl; auto|]. destruct IHForall2 as (a & ? & ?); auto. exists a. simpl; auto. Qed.

Lemma find_target_NoDup ms mp : NoDup (map tgt_def ms) -> In mp ms -> find_target ms (tgt_def mp) = Some mp.
Proof.
  unfold find_target. induction ms as [|x ms IH]; intros ND I; [contradiction|]. inversion_clear ND as [|? ? NI ND']. cbn [find].
  destruct I as [->|I]; [now rewrite attr_def_eqb_refl|].
  destruct (attr_def_eqb (tgt_def x) (tgt_def mp)) eqn:E; [|now apply IH].
  apply attr_def_eqb_eq in E. exfalso. apply NI. rewrite E. now apply in_map.
Qed.

(* for_layouts and for_layouts_with_default produce a list of mappings in the order of the target attributes *)
Lemma built_default from to ms c : good_layout from -> good_layout to -> c = mk_converter from to ms ->
  (exists tms, ms = map snd tms /\ NoDup (map m_def (map fst tms)) /\
     (forall tm mp, In (tm, mp) tms -> In tm (l_attrs to) /\ exists sm, get_attribute_by_name from (m_name tm) = Some sm /\ make_default_mapping sm tm = Ok mp) /\
     (forall tm, In tm (l_attrs to) -> ~ In tm (map fst tms) -> get_attribute_by_name from (m_name tm) = None)) ->
  built from to [] c.
Proof.
  intros GF GT -> (tms & -> & ND & M & NM). unfold built. cbn [cv_from cv_to cv_maps].
  assert (PR : forall tm mp, In (tm, mp) tms -> mp_ok from to mp /\ mp_tgt mp = tm /\ mp_tf mp = None /\ get_attribute_by_name from (m_name tm) = Some (mp_src mp)).
  { intros tm mp I. destruct (M tm mp I) as (Ht & sm & G & D). assert (Hs : In sm (l_attrs from)) by (now apply find_some in G).
    destruct (default_mapping_ok from to sm tm mp Hs Ht D) as (A & B & C & E). subst sm. auto. }
  assert (TE : map tgt_def (map snd tms) = map m_def (map fst tms)).
  { rewrite !map_map. apply map_ext_in. intros [tm mp] I. destruct (PR tm mp I) as (_ & E & _). unfold tgt_def. simpl. now rewrite E. }
  split; auto. split; auto. split.
  { apply Forall_forall. intros mp I. apply in_map_iff in I. destruct I as ([tm mp'] & <- & I). now destruct (PR tm mp' I). }
  split; [rewrite TE; exact ND|]. intros tm Ht. unfold mapped_from. cbn [rev find].
  destruct (find_target (map snd tms) (m_def tm)) as [mp|] eqn:F.
  - apply find_target_In in F. destruct F as [I E]. apply in_map_iff in I. destruct I as ([tm' mp'] & <- & I). cbn [snd] in *.
    destruct (PR tm' mp' I) as (A & B & C & D). destruct (M tm' mp' I) as (Ht' & _). unfold tgt_def in E. rewrite B in E.
    pose proof (good_def_inj to tm' tm GT Ht' Ht E) as Q. rewrite Q in D.
    unfold get_attribute_by_name in D. rewrite D. exists None. auto.
  - destruct (in_dec (fun a b : member => ltac:(decide equality; try apply Nat.eq_dec; decide equality; [apply datatype_eq_dec|apply string_dec]) : {a = b} + {a <> b}) tm (map fst tms)) as [I|NI].
    + apply in_map_iff in I. destruct I as ([tm' mp] & Q & I). cbn [fst] in Q. subst tm'. destruct (PR tm mp I) as (_ & B & _).
      assert (F' : find_target (map snd tms) (tgt_def mp) = Some mp).
      { apply find_target_NoDup; [now rewrite TE|]. apply in_map_iff. exists (tm, mp). auto. }
      unfold tgt_def in F'. rewrite B in F'. congruence.
    + specialize (NM tm Ht NI). unfold get_attribute_by_name in NM. now rewrite NM.
Qed.

Lemma Forall2_pairs {A B} (R : A -> B -> Prop) l l' : Forall2 R l l' -> exists ps, l = map fst ps /\ l' = map snd ps /\ Forall (fun p => R (fst p) (snd p)) ps.
Proof.
  induction 1 as [|a b l l' H F (ps & -> & -> & FP)]; [exists []; auto|]. exists ((a, b) :: ps). simpl. auto.
Qed.

Lemma NoDup_defs l : good_layout l -> NoDup (map m_def (l_attrs l)).
Proof.
  intros (_ & ND & _). replace (map m_name (l_attrs l)) with (map ad_name (map m_def (l_attrs l))) in ND by (rewrite map_map; reflexivity).
  eapply NoDup_map_inv; eauto.
Qed.

Lemma for_layouts_built from to c : good_layout from -> good_layout to -> for_layouts from to = Ok c -> built from to [] c.
Proof.
  intros GF GT E. unfold for_layouts in E. apply bind_ok in E. destruct E as (ms & E & [= <-]). apply mapM_ok in E.
  destruct (Forall2_pairs _ _ _ E) as (ps & E1 & -> & FP). apply (built_default from to (map snd ps)); auto.
  exists ps. split; auto. split; [rewrite <- E1; now apply NoDup_defs|]. split.
  - intros tm mp I. rewrite Forall_forall in FP. specialize (FP _ I). cbn [fst snd] in FP. split; [rewrite E1; now apply (in_map fst _ (tm, mp))|].
    destruct (get_attribute_by_name from (m_name tm)) as [sm|]; [|discriminate]. exists sm. auto.
  - intros tm Ht NI. rewrite <- E1 in NI. contradiction.
Qed.

Lemma with_default_built from to c : good_layout from -> good_layout to -> for_layouts_with_default from to = Ok c -> built from to [] c.
Proof.
  intros GF GT E. unfold for_layouts_with_default in E. apply bind_ok in E. destruct E as (mss & E & [= <-]). apply mapM_ok in E.
  apply (built_default from to (concat mss)); auto.
  assert (X : forall l, (forall m, In m l -> In m (l_attrs to)) -> NoDup (map m_def l) -> forall mss,
     Forall2 (fun ta ms => match get_attribute_by_name from (m_name ta) with
                           | Some fa => let* mp := make_default_mapping fa ta in Ok [mp] | None => Ok [] end = Ok ms) l mss ->
     exists tms, concat mss = map snd tms /\ NoDup (map m_def (map fst tms)) /\ (forall tm mp, In (tm, mp) tms -> In tm l /\ exists sm, get_attribute_by_name from (m_name tm) = Some sm /\ make_default_mapping sm tm = Ok mp)
       /\ (forall tm, In tm l -> ~ In tm (map fst tms) -> get_attribute_by_name from (m_name tm) = None)).
  { clear E mss. induction l as [|tm l IH]; intros SUB ND mss F; inversion F as [|? ms ? mss' R F']; subst.
    - exists []. simpl. split; auto. split; [constructor|]. split; [tauto|]. tauto.
    - inversion_clear ND as [|? ? NI ND']. destruct (IH (fun m H => SUB m (or_intror H)) ND' mss' F') as (tms & E1 & E2 & E3 & E4).
      destruct (get_attribute_by_name from (m_name tm)) as [sm|] eqn:G.
      + destruct (make_default_mapping sm tm) as [mp| |] eqn:D; try discriminate. injection R as <-.
        exists ((tm, mp) :: tms). simpl. split; [now rewrite E1|]. split.
        { constructor; auto. intros I. apply NI. rewrite map_map in I. apply in_map_iff in I. destruct I as ([tm' mp'] & Q & I). simpl in Q.
          destruct (E3 tm' mp' I) as [I' _]. rewrite <- Q. now apply in_map. }
        split.
        * intros tm' mp' [Q|I]; [injection Q as <- <-; split; [now left|eauto]|]. destruct (E3 _ _ I) as [? ?]. auto.
        * intros tm' [<-|I] N; [tauto|]. apply E4; tauto.
      + injection R as <-. exists tms. simpl. split; [exact E1|]. split; [exact E2|]. split.
        * intros tm' mp' I. destruct (E3 _ _ I) as [? ?]. auto.
        * intros tm' [<-|I] N; auto. }
  destruct (X (l_attrs to) (fun m H => H) (NoDup_defs to GT) mss E) as (tms & E1 & E2 & E3 & E4). exists tms. auto.
Qed.

(* set_custom_mapping *)
Lemma put_mapping_find ms a mp : tgt_def mp = a -> forall a', find_target (put_mapping ms a mp) a' = if attr_def_eqb a a' then Some mp else find_target ms a'.
Proof.
  intros T a'. unfold put_mapping, find_target.
  assert (X : match replace_mapping ms a mp with
              | Some ms' => find (fun m => attr_def_eqb (tgt_def m) a') ms' = if attr_def_eqb a a' then Some mp else find (fun m => attr_def_eqb (tgt_def m) a') ms
              | None => find (fun m => attr_def_eqb (tgt_def m) a) ms = None
              end).
  { induction ms as [|m ms IH]; simpl; auto. fold (tgt_def m). destruct (attr_def_eqb (tgt_def m) a) eqn:E.
    - apply attr_def_eqb_eq in E. simpl. rewrite T, E. now destruct (attr_def_eqb a a').
    - destruct (replace_mapping ms a mp) as [ms'|]; cbn [option_map]; auto. simpl. rewrite IH.
      destruct (attr_def_eqb (tgt_def m) a') eqn:E'; auto. destruct (attr_def_eqb a a') eqn:E''; auto.
      apply attr_def_eqb_eq in E', E''. subst. rewrite E' in E. rewrite attr_def_eqb_refl in E. discriminate. }
  destruct (replace_mapping ms a mp) as [ms'|]; auto. 
  assert (FA : forall p (l : list mapping), find p (l ++ [mp]) = match find p l with Some x => Some x | None => if p mp then Some mp else None end).
  { intros p l. induction l as [|x l IH]; simpl; auto. destruct (p x); auto. }
  rewrite FA, T. destruct (attr_def_eqb a a') eqn:E.
  - apply attr_def_eqb_eq in E. subst a'. now rewrite X.
  - destruct (find (fun m => attr_def_eqb (tgt_def m) a') ms); reflexivity.
Qed.

Lemma put_mapping_props (P : mapping -> Prop) ms a mp : tgt_def mp = a -> P mp -> Forall P ms -> NoDup (map tgt_def ms) ->
  Forall P (put_mapping ms a mp) /\ NoDup (map tgt_def (put_mapping ms a mp)).
Proof.
  intros T PM F ND. unfold put_mapping.
  assert (X : match replace_mapping ms a mp with
              | Some ms' => Forall P ms' /\ map tgt_def ms' = map tgt_def ms
              | None => ~ In a (map tgt_def ms)
              end).
  { clear ND. induction F as [|m ms PX F IH]; simpl; auto. fold (tgt_def m). destruct (attr_def_eqb (tgt_def m) a) eqn:E.
    - apply attr_def_eqb_eq in E. split; [now constructor|]. simpl. congruence.
    - destruct (replace_mapping ms a mp) as [ms'|]; cbn [option_map].
      + destruct IH as [A B]. split; [now constructor|]. simpl. congruence.
      + intros [Q|Q]; auto. rewrite Q, attr_def_eqb_refl in E. discriminate. }
  destruct (replace_mapping ms a mp) as [ms'|].
  - destruct X as [A ->]. auto.
  - split; [apply Forall_app; auto|]. rewrite map_app. simpl. rewrite T. now apply NoDup_snoc.
Qed.

Lemma transformed_mapping_spec from to sm tm (f : list Z -> list Z) (source : bool) mp : In sm (l_attrs from) -> In tm (l_attrs to) ->
  (forall v, length v = dt_size (if source then m_type sm else m_type tm) -> length (f v) = length v) ->
  make_transformed_mapping sm tm f source = Ok mp ->
  mp_ok from to mp /\ mp_src mp = sm /\ mp_tgt mp = tm /\ mp_tf mp = Some (mk_tf f source).
Proof.
  intros Hs Ht TY E. unfold make_transformed_mapping in E. apply bind_ok in E. destruct E as (m0 & E & [= <-]).
  destruct (default_mapping_ok from to sm tm m0 Hs Ht E) as ((A1 & A2 & A3 & A4) & B & C & D). subst sm tm. cbn [mp_src mp_tgt mp_conv mp_tf].
  split; [|auto]. unfold mp_ok. cbn [mp_src mp_tgt mp_conv mp_tf tf_func tf_source]. auto.
Qed.

Lemma apply_call_built from to calls k c c' : good_layout from -> good_layout to -> typed k -> built from to calls c -> apply_call c k = Ok c' ->
  built from to (calls ++ [k]) c'.
Proof.
  intros GF GT TY (B1 & B2 & B3 & B4 & B5) E.
  assert (X : exists sm tm mp, In sm (l_attrs from) /\ m_def sm = call_from k /\ In tm (l_attrs to) /\ m_def tm = call_to k
     /\ mp_ok from to mp /\ mp_src mp = sm /\ mp_tgt mp = tm /\ mp_tf mp = call_tf (Some k) /\ c' = mk_converter from to (put_mapping (cv_maps c) (call_to k) mp)).
  { destruct k as [fa ta|d fa ta f source]; cbn [apply_call] in E.
    - unfold set_custom_mapping in E. rewrite B1, B2 in E. apply bind_ok in E. destruct E as (sm & Es & E). apply bind_ok in E. destruct E as (tm & Et & E).
      apply bind_ok in E. destruct E as (mp & Em & [= <-]).
      change (get_attribute from fa) with (member_of from fa) in Es. change (get_attribute to ta) with (member_of to ta) in Et.
      destruct (member_of from fa) as [sm'|] eqn:Ms; [|discriminate]. injection Es as ->. destruct (member_of to ta) as [tm'|] eqn:Mt; [|discriminate]. injection Et as ->.
      apply member_of_spec in Ms; auto. apply member_of_spec in Mt; auto. destruct Ms as [Hs Ds], Mt as [Ht Dt].
      destruct (default_mapping_ok from to sm tm mp Hs Ht Em) as (A & B & C & D). exists sm, tm, mp. repeat split; auto; apply A.
    - unfold set_custom_mapping_with_transformation in E. rewrite B1, B2 in E. apply bind_ok in E. destruct E as (sm & Es & E). apply bind_ok in E. destruct E as (tm & Et & E).
      apply bind_ok in E. destruct E as ([] & Ea & E). apply bind_ok in E. destruct E as (mp & Em & [= <-]).
      change (get_attribute from fa) with (member_of from fa) in Es. change (get_attribute to ta) with (member_of to ta) in Et.
      destruct (member_of from fa) as [sm'|] eqn:Ms; [|discriminate]. injection Es as ->. destruct (member_of to ta) as [tm'|] eqn:Mt; [|discriminate]. injection Et as ->.
      apply member_of_spec in Ms; auto. apply member_of_spec in Mt; auto. destruct Ms as [Hs Ds], Mt as [Ht Dt].
      destruct (transformed_mapping_spec from to sm tm f source mp Hs Ht) as (A & B & C & D); auto.
      { intros v Lv. cbn [typed] in TY. unfold assert in Ea. destruct source.
        - destruct (datatype_eqb d (m_type sm)) eqn:Q; [|discriminate]. apply datatype_eqb_eq in Q. subst d. rewrite TY; auto.
        - destruct (datatype_eqb d (m_type tm)) eqn:Q; [|discriminate]. apply datatype_eqb_eq in Q. subst d. rewrite TY; auto. }
      exists sm, tm, mp. repeat split; auto; apply A. }
  destruct X as (sm & tm & mp & Hs & Ds & Ht & Dt & MO & MS & MT & MF & ->).
  assert (TD : tgt_def mp = call_to k) by (unfold tgt_def; congruence).
  destruct (put_mapping_props (mp_ok from to) (cv_maps c) (call_to k) mp TD MO B3 B4) as [P1 P2].
  unfold built. cbn [cv_from cv_to cv_maps]. split; auto. split; auto. split; auto. split; auto.
  intros tm' Ht'. rewrite put_mapping_find by exact TD. unfold mapped_from. rewrite rev_app_distr. cbn [rev app find].
  destruct (attr_def_eqb (call_to k) (m_def tm')) eqn:Q.
  - exists (Some k). rewrite <- Ds. rewrite (member_of_In _ _ GF Hs). subst sm. auto.
  - specialize (B5 tm' Ht'). exact B5.
Qed.

Lemma foldM_snoc {A S} (f : S -> A -> res S) l a st : foldM f (l ++ [a]) st = let* s' := foldM f l st in f s' a.
Proof.
  revert st. induction l as [|x l IH]; intros st; simpl.
  - now destruct (f st a).
  - destruct (f st x); simpl; auto.
Qed.

Lemma build_built strict from to calls c : good_layout from -> good_layout to -> Forall typed calls -> build strict from to calls = Ok c ->
  built from to calls c.
Proof.
  intros GF GT. revert c. unfold build. induction calls as [|k calls IH] using rev_ind; intros c TY E.
  - apply bind_ok in E. destruct E as (c0 & E & [= <-]). destruct strict; [now apply for_layouts_built|now apply with_default_built].
  - apply Forall_app in TY. destruct TY as [TY TK]. inversion_clear TK as [|? ? TK' _].
    apply bind_ok in E. destruct E as (c0 & E0 & E). rewrite foldM_snoc in E. apply bind_ok in E. destruct E as (c1 & E1 & E2).
    apply (apply_call_built from to calls k c1); auto. apply IH; auto. rewrite E0. exact E1.
Qed.
