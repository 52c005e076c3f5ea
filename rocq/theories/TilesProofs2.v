(* Root tilesets, nesting, the builder. *)
From Coq Require Import String List ZArith Bool Arith Lia SpecFloat.
From Verif Require Import Base LayoutModel NumModel MathModel MathSpec PntsModel TilesModel TilesSpec TilesProofs.
Import ListNotations.
Local Open Scope string_scope.
Open Scope nat_scope.
Local Open Scope list_scope.

(* ---- tables as maps ---- *)
Lemma assoc_map_snd {A B} (f : A -> B) k l : assoc k (map (fun e => (fst e, f (snd e))) l) = option_map f (assoc k l).
Proof. induction l as [|[k0 a] l IH]; [reflexivity|]. cbn [map fst snd]. rewrite !assoc_cons. destruct (String.eqb k0 k); [reflexivity|exact IH]. Qed.
Lemma mapM_entries {A B} (f : A -> res B) fs : NoDup (map fst fs) -> (forall k v, assoc k fs = Some v -> exists u, f v = Ok u) ->
  exists t, mapM (fun e => let* x := f (snd e) in Ok (fst e, x)) fs = Ok t /\ map fst t = map fst fs
    /\ forall k, match assoc k fs with Some v => exists u, f v = Ok u /\ assoc k t = Some u | None => assoc k t = None end.
Proof.
  induction fs as [|[k0 v0] fs IH]; cbn [map fst]; intros ND H; [exists []; repeat split; intros k; reflexivity|].
  inversion ND as [|? ? NI ND']; subst. destruct (H k0 v0) as [u0 U0]; [now rewrite assoc_cons, String.eqb_refl|].
  destruct IH as (t & E & K & T); [exact ND'| |].
  - intros k v AS. apply (H k v). rewrite assoc_cons. destruct (String.eqb_spec k0 k) as [->|]; [|exact AS].
    exfalso. apply NI. apply (assoc_in k v fs ND') in AS. exact (in_map fst _ _ AS).
  - cbn [mapM fst snd]. rewrite U0. cbn [bind]. rewrite E. cbn [bind]. exists ((k0, u0) :: t). split; [reflexivity|]. split; [cbn [map fst]; now rewrite K|].
    intros k. specialize (T k). rewrite !assoc_cons. destruct (String.eqb k0 k); [now exists u0|exact T].
Qed.
Lemma map_fst_map {A B} (f : A -> B) (l : list (string * A)) : map fst (map (fun e => (fst e, f (snd e))) l) = map fst l.
Proof. rewrite map_map. apply map_ext. reflexivity. Qed.

(* ---- root tilesets ---- *)
Lemma asset_back r a w : reparsed r (json_of_asset a) w -> asset_of_json w = Ok a.
Proof.
  intros H. unfold json_of_asset in H. destruct (rp_obj _ _ _ H) as (fs' & -> & _ & HN & HS). cbn [asset_of_json].
  rewrite (field_back r "version" text_of_json _ fs' (JText (as_version a)) (as_version a)) with (2 := HS); [|reflexivity|intros w R; now rewrite (rp_text _ _ _ R)].
  cbn [bind]. rewrite (option_back r "tilesetVersion" text_of_json JText (fun x => x) _ fs' (as_tileset_version a)) with (2 := HN) (3 := HS).
  - destruct a as [ver [tv|]]; reflexivity.
  - destruct a as [ver [tv|]]; reflexivity.
  - intros s w _ R. rewrite (rp_text _ _ _ R). now split.
Qed.
Lemma property_back r p w : finite (p_minimum p) -> finite (p_maximum p) -> reparsed r (json_of_property p) w -> property_of_json w = Ok (map_property r p).
Proof.
  intros F1 F2 H. destruct (rp_obj _ _ _ H) as (fs' & -> & _ & HN & HS). cbn [property_of_json].
  rewrite (field_back r "minimum" float_of_json _ fs' (json_f64 (p_minimum p)) (r (p_minimum p))) with (2 := HS); [|reflexivity|intros w; now apply float_back]. cbn [bind].
  rewrite (field_back r "maximum" float_of_json _ fs' (json_f64 (p_maximum p)) (r (p_maximum p))) with (2 := HS); [|reflexivity|intros w; now apply float_back]. reflexivity.
Qed.
Lemma properties_back r ps w : NoDup (map fst ps) -> Forall (fun e => finite (p_minimum (snd e)) /\ finite (p_maximum (snd e))) ps ->
  reparsed r (JObj (map (fun e => (fst e, json_of_property (snd e))) ps)) w ->
  exists qs, properties_of_json w = Ok qs /\ NoDup (map fst qs) /\ forall k, assoc k qs = option_map (map_property r) (assoc k ps).
Proof.
  intros ND F H. destruct (rp_obj _ _ _ H) as (fs' & -> & ND' & HN & HS). cbn [properties_of_json].
  assert (B : forall k p, assoc k ps = Some p -> exists v, assoc k fs' = Some v /\ property_of_json v = Ok (map_property r p)).
  { intros k p E. destruct (HS k (json_of_property p)) as (v & E' & R); [now rewrite (assoc_map_snd json_of_property), E|].
    apply (assoc_in _ _ _ ND) in E. rewrite Forall_forall in F. destruct (F _ E) as [F1 F2]. exists v. split; [exact E'|]. now apply property_back. }
  assert (D : forall k, assoc k ps = None -> assoc k fs' = None) by (intros k E; apply HN; now rewrite (assoc_map_snd json_of_property), E).
  destruct (mapM_entries property_of_json fs' ND') as (t & E & K & T).
  - intros k v E. destruct (assoc k ps) as [p|] eqn:EP; [|rewrite (D _ EP) in E; discriminate E]. destruct (B _ _ EP) as (v' & E' & P). rewrite E in E'. injection E' as <-. eauto.
  - exists t. split; [exact E|]. split; [now rewrite K|]. intros k. specialize (T k). destruct (assoc k ps) as [p|] eqn:EP.
    + destruct (B _ _ EP) as (v' & E' & P). rewrite E' in T. destruct T as (u & U & AS). rewrite P in U. injection U as <-. exact AS.
    + now rewrite (D _ EP) in T.
Qed.
Lemma root_back r t w : root_ok t -> reparsed r (json_of_root t) w -> exists t', root_of_json w = Ok t' /\ root_as r t t'.
Proof.
  intros (OP & FE & OT) H. destruct (rp_obj _ _ _ H) as (fs' & -> & _ & HN & HS). cbn [root_of_json].
  rewrite (field_back r "asset" asset_of_json _ fs' (json_of_asset (rt_asset t)) (rt_asset t)) with (2 := HS); [|reflexivity|intros w; now apply asset_back]. cbn [bind].
  assert (PB : exists o, option_field "properties" properties_of_json fs' = Ok o
     /\ match rt_properties t, o with None, None => True | Some ps, Some qs => NoDup (map fst qs) /\ forall k, assoc k qs = option_map (map_property r) (assoc k ps) | _, _ => False end).
  { unfold option_field. destruct (HS "properties" _ eq_refl) as (v & E & R). rewrite E. destruct (rt_properties t) as [ps|].
    - destruct OP as [ND F]. destruct (properties_back r ps v ND F R) as (qs & EQ & Q). exists (Some qs). split; [|exact Q].
      destruct (rp_obj _ _ _ R) as (fv & -> & _). rewrite EQ. reflexivity.
    - inversion R; subst. now exists None. }
  destruct PB as (o & EO & PO). rewrite EO. cbn [bind].
  rewrite (field_back r "geometricError" float_of_json _ fs' (json_f64 (rt_error t)) (r (rt_error t))) with (2 := HS); [|reflexivity|intros w; now apply float_back]. cbn [bind].
  rewrite (field_back r "root" tileset_of_json _ fs' (json_of_tileset (rt_root t)) (map_tileset r (rt_root t))) with (2 := HS); [|reflexivity|intros w; now apply tileset_back]. cbn [bind].
  eexists. split; [reflexivity|]. repeat split. cbn [rt_properties]. exact PO.
Qed.

(* ---- printing: keys and nesting ---- *)
Lemma ku_float f : keys_unique (json_f64 f).
Proof. destruct f; constructor. Qed.
Lemma ku_floats l : keys_unique (json_floats l).
Proof. constructor. apply Forall_forall. intros v I. apply in_map_iff in I. destruct I as (f & <- & _). apply ku_float. Qed.
Lemma ku_volume v : keys_unique (json_of_volume v).
Proof. destruct v; (constructor; [cbn; constructor; [intros []|constructor]|constructor; [cbn [snd]; apply ku_floats|constructor]]). Qed.
Lemma ku_content c : keys_unique (json_of_content c).
Proof.
  destruct c as [[v|] u]; unfold json_of_content; cbn [ct_volume ct_uri optional app]; (constructor; [cbn [map fst]; repeat (constructor; [cbn; intuition discriminate|]); constructor|]).
  - constructor; [apply ku_volume|repeat constructor].
  - repeat constructor.
Qed.
Lemma ku_tileset t : keys_unique (json_of_tileset t).
Proof.
  induction t as [e f v rv c m cs IH] using tileset_induction. rewrite json_of_tileset_eq. constructor.
  - unfold tile_fields; cbn [ts_error ts_refinement ts_volume ts_request_volume ts_content ts_transform ts_children].
    destruct f, rv, c, m, cs; cbn [optional app map fst]; repeat (constructor; [cbn; intuition discriminate|]); constructor.
  - unfold tile_fields; cbn [ts_error ts_refinement ts_volume ts_request_volume ts_content ts_transform ts_children]. rewrite !Forall_app.
    repeat apply conj.
    + repeat constructor. apply ku_float.
    + destruct f; repeat constructor.
    + repeat constructor. apply ku_volume.
    + destruct rv; repeat constructor. apply ku_volume.
    + destruct c; [constructor; [apply ku_content|constructor]|constructor].
    + destruct m; [constructor; [apply ku_floats|constructor]|constructor].
    + destruct cs as [|c0 cs]; [constructor|]. constructor; [|constructor]. cbn [snd]. constructor. apply Forall_forall. intros x I. apply in_map_iff in I. destruct I as (y & <- & I).
      rewrite Forall_forall in IH. now apply IH.
Qed.
Lemma ku_root t : root_ok t -> keys_unique (json_of_root t).
Proof.
  intros (OP & _ & _). unfold json_of_root. constructor; [cbn [map fst]; repeat (constructor; [cbn; intuition discriminate|]); constructor|].
  constructor; [cbn [snd]|constructor; [cbn [snd]|constructor; [apply ku_float|constructor; [apply ku_tileset|constructor]]]].
  - destruct (rt_asset t) as [ver [tv|]]; constructor; try (cbn; repeat (constructor; [cbn; intuition discriminate|]); constructor); repeat constructor.
  - destruct (rt_properties t) as [ps|]; [|constructor]. destruct OP as [ND _]. constructor; [now rewrite map_fst_map|].
    apply Forall_forall. intros x I. apply in_map_iff in I. destruct I as (y & <- & _). cbn [snd]. unfold json_of_property.
    constructor; [cbn; repeat (constructor; [cbn; intuition discriminate|]); constructor|]. repeat constructor; apply ku_float.
Qed.

Lemma depth_float f : depth (json_f64 f) = 0.
Proof. destruct f; reflexivity. Qed.
Lemma depth_floats l : depth (json_floats l) = 1.
Proof. cbn [json_floats depth]. f_equal. induction l as [|f l IH]; [reflexivity|]. cbn [map list_max fold_right]. rewrite depth_float. unfold list_max in IH. now rewrite IH. Qed.
Lemma depth_volume v : depth (json_of_volume v) = 2.
Proof. destruct v as [l|l|l]; cbn [json_of_volume]; cbn [depth map snd]; change (map depth (map json_f64 l)) with (map depth (map json_f64 l)); pose proof (depth_floats l) as D; unfold json_floats in *; cbn [depth] in D |- *; cbn [list_max fold_right]; rewrite D; reflexivity. Qed.
Lemma depth_fields fs n : Forall (fun e => depth (snd e) <= n) fs -> depth (JObj fs) <= S n.
Proof. intros F. cbn [depth]. apply le_n_S. apply list_max_le. apply Forall_forall. intros x I. apply in_map_iff in I. destruct I as (e & <- & I). rewrite Forall_forall in F. now apply F. Qed.
Lemma depth_content c : depth (json_of_content c) <= 3.
Proof. unfold json_of_content. apply depth_fields. rewrite Forall_app. split; [|repeat constructor]. destruct (ct_volume c); [constructor; [cbn [snd]; rewrite depth_volume; lia|constructor]|constructor]. Qed.
Lemma depth_tileset t : depth (json_of_tileset t) <= 2 * height t + 4.
Proof.
  induction t as [e f v rv c m cs IH] using tileset_induction. rewrite json_of_tileset_eq. set (n := height (mk_ts e f v rv c m cs)).
  replace (2 * n + 4) with (S (2 * n + 3)) by lia. apply depth_fields.
  unfold tile_fields; cbn [ts_error ts_refinement ts_volume ts_request_volume ts_content ts_transform ts_children]. rewrite !Forall_app.
  repeat apply conj.
  - constructor; [cbn [snd]; rewrite depth_float; lia|constructor].
  - destruct f as [f|]; [|constructor]. constructor; [|constructor]. cbn. lia.
  - constructor; [cbn [snd]; rewrite depth_volume; lia|constructor].
  - destruct rv; [|constructor]. constructor; [|constructor]. cbn [snd]. rewrite depth_volume. lia.
  - destruct c as [c|]; [|constructor]. constructor; [|constructor]. cbn [snd]. pose proof (depth_content c). lia.
  - destruct m as [m|]; [|constructor]. constructor; [|constructor]. cbn [snd]. pose proof (depth_floats m). lia.
  - destruct cs as [|c0 cs]; [constructor|]. constructor; [|constructor]. cbn [snd depth].
    replace (2 * n + 3) with (S (2 * n + 2)) by lia. apply le_n_S, list_max_le, Forall_forall. intros x I. rewrite map_map in I. apply in_map_iff in I. destruct I as (y & <- & I).
    rewrite Forall_forall in IH. specialize (IH y I).
    assert (S (height y) <= n); [|lia]. unfold n. cbn [height]. apply list_max_in. apply in_map_iff. now exists y.
Qed.
Lemma depth_root t : depth (json_of_root t) <= 2 * height (rt_root t) + 5.
Proof.
  set (n := height (rt_root t)). replace (2 * n + 5) with (S (2 * n + 4)) by lia. apply depth_fields.
  constructor; [cbn [snd]|constructor; [cbn [snd]|constructor; [|constructor; [|constructor]]]].
  - apply Nat.le_trans with 1; [|lia]. apply depth_fields. constructor; [cbn; lia|]. destruct (as_tileset_version (rt_asset t)); repeat constructor.
  - destruct (rt_properties t) as [ps|]; [|cbn; lia]. apply Nat.le_trans with 2; [|lia]. apply depth_fields. apply Forall_forall. intros x I. apply in_map_iff in I. destruct I as (y & <- & _).
    cbn [snd]. apply depth_fields. repeat constructor; cbn [snd]; rewrite depth_float; lia.
  - cbn [snd]. rewrite depth_float. lia.
  - cbn [snd]. apply depth_tileset.
Qed.

(* trees, without text *)
Lemma json_induction (P : json -> Prop) : P JNull -> (forall b, P (JBool b)) -> (forall z, P (JInt z)) -> (forall f, P (JFloat f)) -> (forall s, P (JText s)) ->
  (forall l, Forall P l -> P (JArr l)) -> (forall fs, Forall (fun e => P (snd e)) fs -> P (JObj fs)) -> forall v, P v.
Proof.
  intros H1 H2 H3 H4 H5 H6 H7. fix IH 1. intros [| | | | |l|fs]; [exact H1|apply H2|apply H3|apply H4|apply H5| |].
  - apply H6. induction l as [|a l IHl]; constructor; [apply IH|exact IHl].
  - apply H7. induction fs as [|[k v] fs IHf]; constructor; [apply IH|exact IHf].
Qed.
Lemma reparsed_refl v : keys_unique v -> reparsed (fun f => f) v v.
Proof.
  induction v as [|b|z|f|s|l IH|fs IH] using json_induction; intros K; try constructor.
  - inversion K as [| | | | |? F|]; subst. clear K. induction l as [|a l IHl]; constructor; inversion IH; inversion F; subst; auto.
  - now inversion K.
  - auto.
  - intros k v E. exists v. split; [exact E|]. inversion K as [| | | | | |? ND F]; subst. apply (assoc_in _ _ _ ND) in E. rewrite Forall_forall in IH, F. exact (IH _ E (F _ E)).
Qed.
Lemma map_tileset_id t : map_tileset (fun f => f) t = t.
Proof.
  assert (V : forall v, map_volume (fun f => f) v = v) by (intros [l|l|l]; cbn [map_volume]; now rewrite map_id).
  induction t as [e f v rv c m cs IH] using tileset_induction. cbn [map_tileset ts_error ts_refinement ts_volume ts_request_volume ts_content ts_transform ts_children].
  f_equal.
  - apply V.
  - destruct rv; cbn [option_map]; [now rewrite V|reflexivity].
  - destruct c as [[[v0|] u]|]; cbn [option_map map_content ct_volume ct_uri]; unfold map_content; cbn [option_map ct_volume ct_uri]; [now rewrite V|reflexivity|reflexivity].
  - destruct m; cbn [option_map]; [now rewrite map_id|reflexivity].
  - induction IH as [|a l Ha _ IHl]; [reflexivity|]. cbn [map]. now rewrite Ha, IHl.
Qed.
Lemma tileset_survives t : tileset_ok t -> tileset_of_json (json_of_tileset t) = Ok t.
Proof. intros OK. rewrite (tileset_back (fun f => f) t _ OK (reparsed_refl _ (ku_tileset t))). now rewrite map_tileset_id. Qed.
Lemma root_survives t : root_ok t -> exists t', root_of_json (json_of_root t) = Ok t' /\ root_as (fun f => f) t t'.
Proof. intros OK. apply root_back; [exact OK|]. apply reparsed_refl. now apply ku_root. Qed.
Lemma root_text_survives c r limit t : prints_and_parses c r limit -> root_ok t -> 2 * height (rt_root t) + 5 <= limit ->
  exists v t', json_parse c (json_text c (json_of_root t)) = Some v /\ root_of_json v = Ok t' /\ root_as r t t'.
Proof.
  intros C OK H. destruct (C (json_of_root t) 0) as (v & E & R); [now apply ku_root|pose proof (depth_root t); lia|].
  cbn [repeat] in E. rewrite app_nil_r in E. destruct (root_back r t v OK R) as (t' & E' & S'). now exists v, t'.
Qed.

(* chains *)
Lemma chain_ok n : tileset_ok (chain n).
Proof. induction n as [|n IH]; cbn [chain add_child]; constructor; cbn; auto; repeat constructor. Qed.
Lemma chain_deep n : n < depth (json_of_tileset (chain n)).
Proof.
  assert (H : height (chain n) = n). { induction n as [|n IH]; [reflexivity|]. change (height (chain (S n))) with (Nat.max (S (height (chain n))) 0). rewrite IH. lia. }
  pose proof (height_depth _ _ _ (reparsed_refl _ (ku_tileset (chain n)))). lia.
Qed.
Lemma deep_lost c limit : rejects_deeper c limit -> exists t, tileset_ok t /\ json_parse c (json_text c (json_of_tileset t)) = None.
Proof. intros R. exists (chain limit). split; [apply chain_ok|]. apply R. apply chain_deep. Qed.

(* ---- the builder ---- *)
Lemma last_of_snoc {A} (p : tile_call -> option A) calls c : last_of p (calls ++ [c]) = match p c with Some a => Some a | None => last_of p calls end.
Proof. unfold last_of. rewrite fold_left_app. reflexivity. Qed.
Lemma foldM_snoc {S A} (f : S -> A -> res S) l a s : foldM f (l ++ [a]) s = let* s' := foldM f l s in f s' a.
Proof. revert s. induction l as [|x l IH]; intros s; cbn [foldM app bind]; [destruct (f s a); reflexivity|]. destruct (f s x); cbn [bind]; [apply IH|reflexivity|reflexivity]. Qed.
Lemma build_ok calls : Forall (fun c => match c with CError e => lt f64_cmp e f64_zero = false | _ => True end) calls ->
  build calls = Ok (mk_ts (finish f64_zero (last_of errors calls)) (last_of refinements calls) (finish (Region (repeat f64_zero 6)) (last_of volumes calls))
    (last_of requests calls) (last_of contents calls) (last_of transforms_set calls) (flat_map children_added calls)).
Proof.
  induction calls as [|c calls IH] using rev_ind; [reflexivity|]. rewrite Forall_app. intros [F FC]. inversion FC as [|? ? C _]; subst.
  unfold build in *. rewrite foldM_snoc, (IH F). cbn [bind]. rewrite !last_of_snoc, flat_map_app. cbn [flat_map].
  destruct c as [e|rf|v|v|u v|m|t|ts]; cbn [tile_step errors refinements volumes requests contents transforms_set children_added finish app]; rewrite ?app_nil_r; try reflexivity.
  unfold set_geometric_error. rewrite C. reflexivity.
Qed.
Lemma foldM_keeps_panic {S A} (f : S -> A -> res S) l1 l2 s : foldM f l1 s = Panic -> foldM f (l1 ++ l2) s = Panic.
Proof. revert s. induction l1 as [|a l IH]; intros s H; [discriminate H|]. cbn [foldM app] in *. destruct (f s a); cbn [bind] in *; [now apply IH|discriminate H|reflexivity]. Qed.
Lemma build_panics calls : Exists (fun c => match c with CError e => lt f64_cmp e f64_zero = true | _ => False end) calls -> build calls = Panic.
Proof.
  intros EX. apply Exists_exists in EX. destruct EX as (c & I & B). destruct c as [e| | | | | | |]; try contradiction.
  (* the first offending call *)
  assert (G : forall l, In (CError e) l -> forall t, (exists t', foldM tile_step l t = Ok t') -> False).
  { clear - B. induction l as [|a l IH]; intros I t [t' E]; [destruct I|]. cbn [foldM] in E. destruct I as [->|I].
    - cbn [tile_step] in E. unfold set_geometric_error in E. rewrite B in E. discriminate E.
    - destruct (tile_step t a) as [s| |]; cbn [bind] in E; try discriminate E. apply (IH I s). now exists t'. }
  assert (NE : forall l t, foldM tile_step l t <> Err).
  { clear. induction l as [|a l IH]; intros t; cbn [foldM]; [discriminate|]. destruct (tile_step t a) as [s| |] eqn:E; cbn [bind]; [apply IH| |discriminate].
    destruct a; cbn [tile_step] in E; try discriminate E. unfold set_geometric_error in E. destruct (lt f64_cmp e f64_zero); discriminate E. }
  unfold build. destruct (foldM tile_step calls ts_default) as [t| |] eqn:E; [exfalso; eapply G; eauto|exfalso; eapply NE; eauto|reflexivity].
Qed.
