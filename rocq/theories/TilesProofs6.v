(* Bounding volumes: what they are made of is what the accessors return, also after writing and reading. *)
From Coq Require Import String List ZArith Bool Arith Lia SpecFloat.
From Verif Require Import Base LayoutModel NumModel MathModel MathSpec PntsModel TilesModel TilesSpec TilesProofs TilesProofs2.
Import ListNotations.
Open Scope nat_scope.
Local Open Scope list_scope.
Local Open Scope string_scope.
Local Open Scope list_scope.

Lemma float_self f : finite f -> float_of_json (json_f64 f) = Ok f.
Proof. destruct f; cbn; intros []; reflexivity. Qed.
Lemma floats_self n l : length l = n -> Forall finite l -> floats_of_json n (json_floats l) = Ok l.
Proof.
  intros L F. unfold floats_of_json, json_floats. rewrite map_length, L, Nat.eqb_refl. clear L n.
  induction F as [|x l X F IH]; [reflexivity|]. cbn [map mapM]. rewrite (float_self _ X). cbn [bind]. rewrite IH. reflexivity.
Qed.
Lemma volume_self v : volume_ok v -> volume_of_json (json_of_volume v) = Ok v.
Proof.
  destruct v as [l|l|l]; intros (L & F); cbn [json_of_volume volume_of_json String.eqb Ascii.eqb Bool.eqb]; rewrite (floats_self _ _ L F); reflexivity.
Qed.
Lemma region_back w s e n lo hi : Forall finite [w; s; e; n; lo; hi] ->
  exists r, volume_of_json (json_of_volume (Region (region_new w s e n lo hi))) = Ok (Region r)
    /\ region_west f64_zero r = w /\ region_south f64_zero r = s /\ region_east f64_zero r = e /\ region_north f64_zero r = n
    /\ region_min_height f64_zero r = lo /\ region_max_height f64_zero r = hi.
Proof. intros F. eexists. split; [apply volume_self; split; [reflexivity|exact F]|]. repeat split. Qed.
Lemma box_back c x y z : Forall finite_point [c; x; y; z] ->
  exists b, volume_of_json (json_of_volume (Box (box_new c x y z))) = Ok (Box b)
    /\ box_center f64_zero b = c /\ box_x f64_zero b = x /\ box_y f64_zero b = y /\ box_z f64_zero b = z.
Proof.
  intros F. inversion F as [|? ? (A1 & A2 & A3) F1]; subst. inversion F1 as [|? ? (B1 & B2 & B3) F2]; subst. inversion F2 as [|? ? (C1 & C2 & C3) F3]; subst. inversion F3 as [|? ? (D1 & D2 & D3) _]; subst.
  eexists. split; [apply volume_self; split; [reflexivity|repeat (constructor; [assumption|]); constructor]|]. destruct c, x, y, z. repeat split.
Qed.
Lemma sphere_back c r : finite_point c -> finite r ->
  exists s, volume_of_json (json_of_volume (Sphere (sphere_new c r))) = Ok (Sphere s) /\ sphere_center f64_zero s = c /\ sphere_radius f64_zero s = r.
Proof.
  intros (A & B & C) R. eexists. split; [apply volume_self; split; [reflexivity|repeat (constructor; [assumption|]); constructor]|]. destruct c. repeat split.
Qed.

(* ---- any JSON value: an error or a tileset, never a panic ---- *)
Lemma bind_calm {A B} (x : res A) (f : A -> res B) : x <> Panic -> (forall a, x = Ok a -> f a <> Panic) -> bind x f <> Panic.
Proof. intros H F. destruct x as [a| |]; cbn; [apply F; reflexivity|discriminate|contradiction]. Qed.
Lemma mapM_calm {A B} (f : A -> res B) l : (forall x, In x l -> f x <> Panic) -> mapM f l <> Panic.
Proof.
  induction l as [|x l IH]; intros H; [discriminate|]. cbn [mapM]. apply bind_calm; [apply H; now left|]. intros b _. apply bind_calm; [apply IH; intros y Y; apply H; now right|]. discriminate.
Qed.
Lemma field_calm {A} k (f : json -> res A) fs : (forall v, f v <> Panic) -> field k f fs <> Panic.
Proof. intros H. unfold field. destruct (assoc k fs); [apply H|discriminate]. Qed.
Lemma option_field_calm {A} k (f : json -> res A) fs : (forall v, f v <> Panic) -> option_field k f fs <> Panic.
Proof. intros H. unfold option_field. destruct (assoc k fs) as [v|]; [|discriminate]. destruct v; try discriminate; (apply bind_calm; [apply H|discriminate]). Qed.
Lemma float_calm v : float_of_json v <> Panic.
Proof. unfold float_of_json. destruct (as_f64 v); discriminate. Qed.
Lemma text_calm v : text_of_json v <> Panic.
Proof. destruct v; discriminate. Qed.
Lemma floats_calm n v : floats_of_json n v <> Panic.
Proof. unfold floats_of_json. destruct v; try discriminate. destruct (Nat.eqb _ n); [|discriminate]. apply mapM_calm. intros x _. apply float_calm. Qed.
Lemma volume_calm v : volume_of_json v <> Panic.
Proof.
  unfold volume_of_json. destruct v as [| | | | | |[|(k, x) [|]]]; try discriminate. repeat (destruct (String.eqb k _); [apply bind_calm; [apply floats_calm|discriminate]|]). discriminate.
Qed.
Lemma refinement_calm v : refinement_of_json v <> Panic.
Proof. unfold refinement_of_json. destruct v; try discriminate. repeat (destruct (String.eqb _ _); [discriminate|]). discriminate. Qed.
Lemma content_calm v : content_of_json v <> Panic.
Proof. destruct v; try discriminate. cbn [content_of_json]. apply bind_calm; [apply option_field_calm, volume_calm|]. intros. apply bind_calm; [apply field_calm, text_calm|discriminate]. Qed.
Lemma tileset_fuel_calm n : forall v, tileset_of_json_fuel n v <> Panic.
Proof.
  induction n as [|n IH]; intros v; [destruct v; discriminate|]. destruct v; try discriminate. cbn [tileset_of_json_fuel].
  apply bind_calm; [apply field_calm, float_calm|intros ? _]. apply bind_calm; [apply option_field_calm, refinement_calm|intros ? _]. apply bind_calm; [apply field_calm, volume_calm|intros ? _]. apply bind_calm; [apply option_field_calm, volume_calm|intros ? _].
  apply bind_calm; [apply option_field_calm, content_calm|intros ? _]. apply bind_calm; [apply option_field_calm, floats_calm|intros ? _]. apply bind_calm; [|discriminate]. destruct (assoc _ _) as [w|]; [|discriminate]. destruct w; try discriminate. apply mapM_calm. intros x _. apply IH.
Qed.
Lemma asset_calm v : asset_of_json v <> Panic.
Proof. destruct v; try discriminate. cbn [asset_of_json]. apply bind_calm; [apply field_calm, text_calm|intros ? _]. apply bind_calm; [apply option_field_calm, text_calm|discriminate]. Qed.
Lemma property_calm v : property_of_json v <> Panic.
Proof. destruct v; try discriminate. cbn [property_of_json]. apply bind_calm; [apply field_calm, float_calm|intros ? _]. apply bind_calm; [apply field_calm, float_calm|discriminate]. Qed.
Lemma properties_calm v : properties_of_json v <> Panic.
Proof. destruct v; try discriminate. cbn [properties_of_json]. apply mapM_calm. intros x _. apply bind_calm; [apply property_calm|discriminate]. Qed.
Lemma root_calm v : root_of_json v <> Panic.
Proof.
  destruct v; try discriminate. cbn [root_of_json]. apply bind_calm; [apply field_calm, asset_calm|intros ? _]. apply bind_calm; [apply option_field_calm, properties_calm|intros ? _].
  apply bind_calm; [apply field_calm, float_calm|intros ? _]. apply bind_calm; [apply field_calm; intros w; apply tileset_fuel_calm|discriminate].
Qed.

(* ---- what is read has arrays of the right lengths ---- *)
Lemma mapM_len {A B} (f : A -> res B) l r : mapM f l = Ok r -> length r = length l.
Proof.
  revert r. induction l as [|x l IH]; intros r E; [injection E as <-; reflexivity|]. cbn [mapM] in E. destruct (f x); try discriminate. cbn [bind] in E. destruct (mapM f l); try discriminate. injection E as <-. cbn. now rewrite (IH _ eq_refl).
Qed.
Lemma floats_len n v l : floats_of_json n v = Ok l -> length l = n.
Proof. unfold floats_of_json. destruct v; try discriminate. destruct (Nat.eqb_spec (length l0) n) as [<-|]; [|discriminate]. apply mapM_len. Qed.
Lemma volume_len v w : volume_of_json v = Ok w -> volume_shaped w.
Proof.
  unfold volume_of_json. destruct v as [| | | | | |[|(k, x) [|]]]; try discriminate.
  destruct (String.eqb k _); [destruct (floats_of_json 6 x) eqn:E; try discriminate; intros H; injection H as <-; apply (floats_len _ _ _ E)|].
  destruct (String.eqb k _); [destruct (floats_of_json 12 x) eqn:E; try discriminate; intros H; injection H as <-; apply (floats_len _ _ _ E)|].
  destruct (String.eqb k _); [destruct (floats_of_json 4 x) eqn:E; try discriminate; intros H; injection H as <-; apply (floats_len _ _ _ E)|discriminate].
Qed.
Lemma option_field_for {A} k (f : json -> res A) fs o (P : A -> Prop) : option_field k f fs = Ok o -> (forall v a, f v = Ok a -> P a) -> for_option P o.
Proof.
  unfold option_field. intros E H. destruct (assoc k fs) as [v|]; [|injection E as <-; exact I].
  assert (X : forall w, (let* a := f w in Ok (Some a)) = Ok o -> for_option P o). { intros w E'. destruct (f w) eqn:F; try discriminate. cbn [bind] in E'. injection E' as <-. exact (H _ _ F). }
  destruct v; try (apply (X _ E)). injection E as <-. exact I.
Qed.
Lemma mapM_Forall {A B} (f : A -> res B) (P : B -> Prop) l : (forall x b, In x l -> f x = Ok b -> P b) -> forall r, mapM f l = Ok r -> Forall P r.
Proof.
  induction l as [|x l IH]; intros H r E; [injection E as <-; constructor|]. cbn [mapM] in E. destruct (f x) eqn:F; try discriminate. cbn [bind] in E. destruct (mapM f l) eqn:G; try discriminate. injection E as <-.
  constructor; [apply (H x); [now left|exact F]|]. apply IH; [|reflexivity]. intros y b Y. apply H. now right.
Qed.
Lemma tileset_fuel_len n : forall v t, tileset_of_json_fuel n v = Ok t -> tileset_shaped t.
Proof.
  induction n as [|n IH]; intros v t E; [destruct v; discriminate|]. destruct v; try discriminate. cbn [tileset_of_json_fuel] in E.
  destruct (field "geometricError" _ _) as [e| |]; try discriminate. cbn [bind] in E. destruct (option_field "refine" _ _) as [r| |]; try discriminate. cbn [bind] in E.
  destruct (field "boundingVolume" _ _) as [bv| |] eqn:EV; try discriminate. cbn [bind] in E. destruct (option_field "viewerRequestVolume" _ _) as [rv| |] eqn:ER; try discriminate. cbn [bind] in E.
  destruct (option_field "content" _ _) as [c| |] eqn:EC; try discriminate. cbn [bind] in E. destruct (option_field "transform" _ _) as [m| |] eqn:EM; try discriminate. cbn [bind] in E.
  match type of E with bind ?x _ = _ => destruct x as [cs| |] eqn:ES; try discriminate end. cbn [bind] in E. injection E as <-. constructor; cbn [ts_volume ts_request_volume ts_content ts_transform ts_children].
  - unfold field in EV. destruct (assoc _ _) as [w|]; [|discriminate]. exact (volume_len _ _ EV).
  - exact (option_field_for _ _ _ _ _ ER volume_len).
  - refine (option_field_for _ _ _ _ _ EC _). intros w a W. destruct w; try discriminate. cbn [content_of_json] in W. destruct (option_field "boundingVolume" _ _) as [o| |] eqn:EO; try discriminate. cbn [bind] in W.
    destruct (field "uri" _ _); try discriminate. cbn [bind] in W. injection W as <-. exact (option_field_for _ _ _ _ _ EO volume_len).
  - exact (option_field_for _ _ _ _ _ EM (floats_len 16)).
  - destruct (assoc "children" _) as [w|]; [|injection ES as <-; constructor]. destruct w; try discriminate. refine (mapM_Forall _ _ _ _ _ ES). intros x b _. apply IH.
Qed.
Lemma root_len v t : root_of_json v = Ok t -> tileset_shaped (rt_root t).
Proof.
  destruct v; try discriminate. cbn [root_of_json]. intros E. destruct (field "asset" _ _); try discriminate. cbn [bind] in E. destruct (option_field "properties" _ _); try discriminate. cbn [bind] in E.
  destruct (field "geometricError" _ _); try discriminate. cbn [bind] in E. destruct (field "root" _ _) as [r| |] eqn:ER; try discriminate. cbn [bind] in E. injection E as <-. cbn [rt_root].
  unfold field in ER. destruct (assoc _ _) as [w|]; [|discriminate]. exact (tileset_fuel_len _ _ _ ER).
Qed.
Lemma any_json v : root_of_json v = Err \/ exists t, root_of_json v = Ok t /\ tileset_shaped (rt_root t).
Proof. pose proof (root_calm v) as C. pose proof (root_len v) as L. destruct (root_of_json v) as [t| |]; [right; eauto|now left|contradiction]. Qed.
