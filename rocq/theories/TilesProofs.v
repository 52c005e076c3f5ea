(* JSON text and trees: tilesets and tables survive. *)
From Coq Require Import String List ZArith Bool Arith Lia SpecFloat.
From Verif Require Import Base LayoutModel NumModel MathModel MathSpec PntsModel TilesModel TilesSpec.
Import ListNotations.
Local Open Scope string_scope.
Open Scope nat_scope.
Local Open Scope list_scope.

Lemma assoc_cons {A} k k0 (a : A) l : assoc k ((k0, a) :: l) = if String.eqb k0 k then Some a else assoc k l.
Proof. unfold assoc. cbn [find fst]. destruct (String.eqb k0 k); reflexivity. Qed.
Lemma assoc_app {A} k (l1 l2 : list (string * A)) : assoc k (l1 ++ l2) = match assoc k l1 with Some a => Some a | None => assoc k l2 end.
Proof. induction l1 as [|[k0 a] l1 IH]; [reflexivity|]. cbn [app]. rewrite !assoc_cons. destruct (String.eqb k0 k); [reflexivity|exact IH]. Qed.
Lemma assoc_none {A} k (l : list (string * A)) : assoc k l = None <-> ~ In k (map fst l).
Proof.
  induction l as [|[k0 a] l IH]; [cbn; tauto|]. rewrite assoc_cons. cbn [map fst In]. destruct (String.eqb_spec k0 k) as [->|N].
  - split; [discriminate|]. intros H. exfalso. apply H. now left.
  - rewrite IH. split; [intros H [E|I]; [exact (N E)|exact (H I)]|intros H I; apply H; now right].
Qed.
Lemma assoc_in {A} k (a : A) l : NoDup (map fst l) -> (assoc k l = Some a <-> In (k, a) l).
Proof.
  induction l as [|[k0 b] l IH]; intros ND; [cbn; split; [discriminate|tauto]|]. cbn [map fst] in ND. inversion ND as [|? ? NI ND']; subst.
  rewrite assoc_cons. cbn [In]. destruct (String.eqb_spec k0 k) as [->|N].
  - split; [intros [= ->]; now left|]. intros [[= ->]|I]; [reflexivity|]. exfalso. apply NI. apply in_map_iff. now exists (k, a).
  - rewrite (IH ND'). split; [now right|]. intros [[= E _]|I]; [now elim N|exact I].
Qed.
Lemma assoc_single {A} k (a : A) l : NoDup (map fst l) -> assoc k l = Some a -> (forall k', k' <> k -> assoc k' l = None) -> l = [(k, a)].
Proof.
  intros ND E O. destruct l as [|[k0 b] l]; [discriminate E|].
  assert (K0 : k0 = k). { destruct (string_dec k0 k) as [|N]; [assumption|]. specialize (O k0 N). rewrite assoc_cons, String.eqb_refl in O. discriminate O. }
  subst k0. rewrite assoc_cons, String.eqb_refl in E. injection E as ->. destruct l as [|[k1 c] l]; [reflexivity|].
  cbn [map fst] in ND. inversion ND as [|? ? NI _]; subst. assert (N : k1 <> k) by (intros ->; apply NI; now left).
  specialize (O k1 N). rewrite assoc_cons in O. destruct (String.eqb_spec k k1) as [E|_]; [congruence|]. rewrite assoc_cons, String.eqb_refl in O. discriminate O.
Qed.

(* ---- reparsed values ---- *)

Section Reparsed.
Variable r : spec_float -> spec_float.
Notation rp := (reparsed r).

Lemma rp_obj fs v' : rp (JObj fs) v' -> exists fs', v' = JObj fs' /\ NoDup (map fst fs') /\ (forall k, assoc k fs = None -> assoc k fs' = None)
  /\ (forall k v, assoc k fs = Some v -> exists w, assoc k fs' = Some w /\ rp v w).
Proof. intros H. inversion H; subst. eexists. repeat split; eauto. Qed.
Lemma rp_arr l v' : rp (JArr l) v' -> exists l', v' = JArr l' /\ Forall2 rp l l'.
Proof. intros H. inversion H; subst. eauto. Qed.
Lemma rp_text s v' : rp (JText s) v' -> v' = JText s.
Proof. intros H. now inversion H. Qed.
Lemma rp_float f v' : finite f -> rp (json_f64 f) v' -> v' = JFloat (r f).
Proof. intros F H. destruct f; cbn in F; try contradiction; cbn [json_f64] in H; now inversion H. Qed.
Lemma rp_single k x v' : rp (JObj [(k, x)]) v' -> exists x', v' = JObj [(k, x')] /\ rp x x'.
Proof.
  intros H. destruct (rp_obj _ _ H) as (fs' & -> & ND & HN & HS). destruct (HS k x) as (w & E & R); [now rewrite assoc_cons, String.eqb_refl|].
  exists w. split; [|exact R]. f_equal. apply assoc_single; [exact ND|exact E|]. intros k' N. apply HN. rewrite assoc_cons.
  destruct (String.eqb_spec k k') as [->|_]; [now elim N|reflexivity].
Qed.

Lemma float_back f v' : finite f -> rp (json_f64 f) v' -> float_of_json v' = Ok (r f).
Proof. intros F H. now rewrite (rp_float _ _ F H). Qed.
Lemma floats_back n l v' : length l = n -> Forall finite l -> rp (json_floats l) v' -> floats_of_json n v' = Ok (map r l).
Proof.
  intros L F H. destruct (rp_arr _ _ H) as (l' & -> & F2). cbn [floats_of_json].
  assert (E : length l' = n /\ mapM float_of_json l' = Ok (map r l)).
  { subst n. clear H. revert l' F2. induction F as [|f l Ff F IH]; intros l' F2; cbn [map] in F2; inversion F2; subst; [now split|].
    destruct (IH _ H3) as [E1 E2]. cbn [mapM map length]. rewrite (float_back _ _ Ff H1). cbn [bind]. rewrite E2. cbn [bind]. split; [now rewrite E1|reflexivity]. }
  destruct E as [E1 E2]. now rewrite E1, Nat.eqb_refl.
Qed.
Lemma volume_back v v' : volume_ok v -> rp (json_of_volume v) v' -> volume_of_json v' = Ok (map_volume r v).
Proof.
  destruct v as [l|l|l]; cbn [volume_ok json_of_volume]; intros [L F] H; destruct (rp_single _ _ _ H) as (x' & -> & R); cbn [volume_of_json String.eqb Ascii.eqb Bool.eqb];
    rewrite (floats_back _ _ _ L F R); reflexivity.
Qed.
Lemma refinement_back x v' : rp (json_of_refinement x) v' -> refinement_of_json v' = Ok x.
Proof. destruct x; intros H; rewrite (rp_text _ _ H); reflexivity. Qed.

(* a field of an object *)
Lemma field_back {A} k (f : json -> res A) fs fs' v a : assoc k fs = Some v ->
  (forall k v, assoc k fs = Some v -> exists w, assoc k fs' = Some w /\ rp v w) -> (forall w, rp v w -> f w = Ok a) -> field k f fs' = Ok a.
Proof. intros E HS B. destruct (HS _ _ E) as (w & E' & R). unfold field. rewrite E'. now apply B. Qed.
Definition not_null (v : json) : Prop := match v with JNull => False | _ => True end.
Lemma option_back {A B} k (f : json -> res B) (enc : A -> json) (g : A -> B) fs fs' (o : option A) : assoc k fs = option_map enc o ->
  (forall k, assoc k fs = None -> assoc k fs' = None) ->
  (forall k v, assoc k fs = Some v -> exists w, assoc k fs' = Some w /\ rp v w) ->
  (forall a w, o = Some a -> rp (enc a) w -> f w = Ok (g a) /\ not_null w) -> option_field k f fs' = Ok (option_map g o).
Proof.
  intros E HN HS B0. unfold option_field. destruct o as [a|]; cbn [option_map] in E |- *.
  - destruct (HS _ _ E) as (w & E' & R). rewrite E'. destruct (B0 a w eq_refl R) as [F N]. destruct w; try contradiction; rewrite F; reflexivity.
  - now rewrite (HN _ E).
Qed.
Lemma obj_not_null fs w : rp (JObj fs) w -> not_null w.
Proof. intros H. inversion H; exact I. Qed.
Lemma volume_not_null v w : rp (json_of_volume v) w -> not_null w.
Proof. destruct v; apply obj_not_null. Qed.

Lemma content_back c w : for_option volume_ok (ct_volume c) -> rp (json_of_content c) w -> content_of_json w = Ok (map_content r c).
Proof.
  intros V H. unfold json_of_content in H. destruct (rp_obj _ _ H) as (fs' & -> & _ & HN & HS). cbn [content_of_json].
  rewrite (option_back "boundingVolume"%string volume_of_json json_of_volume (map_volume r) _ fs' (ct_volume c)) with (2 := HN) (3 := HS).
  - cbn [bind]. rewrite (field_back "uri"%string text_of_json _ fs' (JText (ct_uri c)) (ct_uri c)) with (2 := HS); [reflexivity| |].
    + rewrite assoc_app. destruct (ct_volume c); reflexivity.
    + intros w R. now rewrite (rp_text _ _ R).
  - rewrite assoc_app. destruct (ct_volume c); reflexivity.
  - intros a w E R. rewrite E in V. split; [now apply volume_back|now apply volume_not_null in R].
Qed.

End Reparsed.

(* ---- tilesets ---- *)

Lemma tileset_induction (P : tileset -> Prop) : (forall e f v rv c m cs, Forall P cs -> P (mk_ts e f v rv c m cs)) -> forall t, P t.
Proof.
  intros H. fix IH 1. intros [e f v rv c m cs]. apply H. induction cs as [|a cs IHc]; constructor; [apply IH|exact IHc].
Qed.

(* the fields of the object that a tileset is written as *)
Definition tile_fields (t : tileset) : list (string * json) :=
  ([("geometricError", json_f64 (ts_error t))]
        ++ optional "refine" json_of_refinement (ts_refinement t)
        ++ [("boundingVolume", json_of_volume (ts_volume t))]
        ++ optional "viewerRequestVolume" json_of_volume (ts_request_volume t)
        ++ optional "content" json_of_content (ts_content t)
        ++ optional "transform" json_floats (ts_transform t)
        ++ match ts_children t with [] => [] | cs => [("children", JArr (map json_of_tileset cs))] end)%list.
Lemma json_of_tileset_eq t : json_of_tileset t = JObj (tile_fields t).
Proof. destruct t. reflexivity. Qed.
Lemma tile_lookups t :
  assoc "geometricError"%string (tile_fields t) = Some (json_f64 (ts_error t))
  /\ assoc "refine"%string (tile_fields t) = option_map json_of_refinement (ts_refinement t)
  /\ assoc "boundingVolume"%string (tile_fields t) = Some (json_of_volume (ts_volume t))
  /\ assoc "viewerRequestVolume"%string (tile_fields t) = option_map json_of_volume (ts_request_volume t)
  /\ assoc "content"%string (tile_fields t) = option_map json_of_content (ts_content t)
  /\ assoc "transform"%string (tile_fields t) = option_map json_floats (ts_transform t)
  /\ assoc "children"%string (tile_fields t) = match ts_children t with [] => None | cs => Some (JArr (map json_of_tileset cs)) end.
Proof.
  unfold tile_fields. destruct t as [e [f|] v [rv|] [c|] [m|] [|c0 cs]]; cbn [ts_error ts_refinement ts_volume ts_request_volume ts_content ts_transform ts_children optional app option_map];
  repeat split.
Qed.

Lemma list_max_in n l : In n l -> n <= list_max l.
Proof. intros H. pose proof (proj1 (list_max_le l (list_max l)) (Nat.le_refl _)) as F. rewrite Forall_forall in F. now apply F. Qed.

Lemma tileset_back_fuel r t : tileset_ok t -> forall fuel v', height t < fuel -> reparsed r (json_of_tileset t) v' -> tileset_of_json_fuel fuel v' = Ok (map_tileset r t).
Proof.
  induction t as [e f v rv c m cs IH] using tileset_induction. intros OK fuel v' H R. inversion OK as [? Fe Fv Frv Fc Fm Fcs]; subst.
  rewrite json_of_tileset_eq in R. destruct (rp_obj _ _ _ R) as (fs' & -> & _ & HN & HS).
  destruct (tile_lookups (mk_ts e f v rv c m cs)) as (L1 & L2 & L3 & L4 & L5 & L6 & L7).
  cbn [ts_error ts_refinement ts_volume ts_request_volume ts_content ts_transform ts_children] in *.
  destruct fuel as [|fuel]; [lia|]. cbn [tileset_of_json_fuel].
  rewrite (field_back r _ float_of_json _ fs' _ (r e) L1 HS); [|intros w; now apply float_back]. cbn [bind].
  rewrite (option_back r _ refinement_of_json _ (fun x => x) _ fs' _ L2 HN HS); [|intros a w _ Ra; split; [now apply refinement_back in Ra|destruct a; apply rp_text in Ra; subst w; exact I]].
  cbn [bind].
  rewrite (field_back r _ volume_of_json _ fs' _ (map_volume r v) L3 HS); [|intros w; now apply volume_back]. cbn [bind].
  rewrite (option_back r _ volume_of_json _ (map_volume r) _ fs' _ L4 HN HS);
    [|intros a w E Ra; subst rv; split; [now apply volume_back|now apply volume_not_null in Ra]]. cbn [bind].
  rewrite (option_back r _ content_of_json _ (map_content r) _ fs' _ L5 HN HS);
    [|intros a w E Ra; subst c; split; [now apply content_back|now apply obj_not_null in Ra]]. cbn [bind].
  rewrite (option_back r _ (floats_of_json 16) _ (map r) _ fs' _ L6 HN HS);
    [|intros a w E Ra; subst m; destruct Fm as [Lm Fm]; split; [now apply floats_back|apply rp_arr in Ra; destruct Ra as (l' & -> & _); exact I]]. cbn [bind].
  destruct cs as [|c0 cs].
  - rewrite (HN _ L7). cbn [bind map_tileset map ts_error ts_refinement ts_volume ts_request_volume ts_content ts_transform ts_children]. destruct f; reflexivity.
  - destruct (HS _ _ L7) as (w & E & Rw). rewrite E. destruct (rp_arr _ _ _ Rw) as (l' & -> & F2).
    assert (M : mapM (tileset_of_json_fuel fuel) l' = Ok (map (map_tileset r) (c0 :: cs))).
    { assert (HH : forall c, In c (c0 :: cs) -> height c < fuel).
      { intros c' I'. cbn [height ts_children] in H. assert (S (height c') <= list_max (map (fun c => S (height c)) (c0 :: cs))) by (apply list_max_in, in_map_iff; eauto). lia. }
      clear - IH F2 Fcs HH. revert l' F2 HH. induction (c0 :: cs) as [|a l IHl]; intros l' F2 HH; cbn [map] in F2; inversion F2; subst; [reflexivity|].
      inversion IH as [|? ? Pa Pl]; subst. inversion Fcs as [|? ? Oa Ol]; subst. cbn [mapM map].
      rewrite (Pa Oa fuel y); [|apply HH; now left|assumption]. cbn [bind]. rewrite (IHl Pl Ol l'0); [reflexivity|assumption|]. intros c I. apply HH. now right. }
    rewrite M. cbn [bind map_tileset ts_error ts_refinement ts_volume ts_request_volume ts_content ts_transform ts_children]. destruct f; reflexivity.
Qed.
Lemma height_depth r t v' : reparsed r (json_of_tileset t) v' -> height t < depth v'.
Proof.
  revert v'. induction t as [e f v rv c m cs IH] using tileset_induction. intros v' R.
  rewrite json_of_tileset_eq in R. destruct (rp_obj _ _ _ R) as (fs' & -> & ND & HN & HS).
  destruct (tile_lookups (mk_ts e f v rv c m cs)) as (_ & _ & _ & _ & _ & _ & L7). cbn [ts_children] in L7.
  destruct cs as [|c0 cs]; [cbn; lia|]. destruct (HS _ _ L7) as (w & E & Rw). destruct (rp_arr _ _ _ Rw) as (l' & -> & F2).
  apply (assoc_in _ _ _ ND) in E. cbn [depth].
  assert (D : depth (JArr l') <= list_max (map (fun e => depth (snd e)) fs')) by (apply list_max_in, in_map_iff; exists ("children"%string, JArr l'); now split).
  assert (height (mk_ts e f v rv c m (c0 :: cs)) <= depth (JArr l')); [|lia].
  cbn [height depth]. apply Nat.le_trans with (list_max (map depth l')); [|lia]. apply list_max_le. apply Forall_forall. intros n I. apply in_map_iff in I. destruct I as (x & <- & I).
  clear - IH F2 I. revert l' F2. induction (c0 :: cs) as [|a l IHl]; intros l' F2; [destruct I|]. cbn [map] in F2. inversion F2; subst. inversion IH as [|? ? Pa Pl]; subst.
  cbn [map list_max fold_right]. destruct I as [->|I].
  - specialize (Pa _ H1). lia.
  - specialize (IHl Pl I _ H3). unfold list_max in IHl. lia.
Qed.
Lemma tileset_back r t v' : tileset_ok t -> reparsed r (json_of_tileset t) v' -> tileset_of_json v' = Ok (map_tileset r t).
Proof. intros OK R. apply tileset_back_fuel; [exact OK| |exact R]. exact (height_depth _ _ _ R). Qed.
