(* Examples for the statements about 3D Tiles: a codec that satisfies what is assumed of serde_json, tilesets, tables. *)
From Coq Require Import String Ascii List ZArith Lia Bool Arith SpecFloat.
From Verif Require Import Base LayoutModel NumModel MathModel MathSpec PntsModel PntsExamples TilesModel TilesSpec TilesProofs TilesProofs2 TilesProofs3.
Import ListNotations.
Local Open Scope string_scope.
Open Scope nat_scope.
Local Open Scope list_scope.

(* ---- a codec for trees of values ---- *)
Definition chars (s : string) : list Z := map (fun c => Z.of_nat (nat_of_ascii c)) (list_ascii_of_string s).
Definition of_chars (l : list Z) : string := string_of_list_ascii (map (fun z => ascii_of_nat (Z.to_nat z)) l).
Definition text_bytes (s : string) : list Z := Z.of_nat (List.length (chars s)) :: chars s.
Fixpoint tree_bytes (v : json) : list Z :=
  match v with
  | JNull => [0%Z]
  | JBool b => [1%Z; if b then 1%Z else 0%Z]
  | JInt z => [2%Z; z]
  | JFloat f => 3%Z :: f64_bytes f
  | JText s => 4%Z :: text_bytes s
  | JArr l => 5%Z :: Z.of_nat (List.length l) :: flat_map tree_bytes l
  | JObj fs => 6%Z :: Z.of_nat (List.length fs) :: flat_map (fun e => text_bytes (fst e) ++ tree_bytes (snd e)) fs
  end.
Definition parse_text (l : list Z) : option (string * list Z) :=
  match l with n :: l => Some (of_chars (firstn (Z.to_nat n) l), skipn (Z.to_nat n) l) | [] => None end.
Fixpoint parse_many {A : Type} (p : list Z -> option (A * list Z)) (n : nat) (l : list Z) : option (list A * list Z) :=
  match n with
  | O => Some ([], l)
  | S n => match p l with
           | Some (a, l) => match parse_many p n l with Some (r, l) => Some (a :: r, l) | None => None end
           | None => None
           end
  end.
Fixpoint parse_tree (fuel : nat) (l : list Z) : option (json * list Z) :=
  match fuel, l with
  | O, _ | _, [] => None
  | S fuel, k :: l =>
      if Z.eqb k 0 then Some (JNull, l)
      else if Z.eqb k 1 then match l with b :: l => Some (JBool (Z.eqb b 1), l) | [] => None end
      else if Z.eqb k 2 then match l with z :: l => Some (JInt z, l) | [] => None end
      else if Z.eqb k 3 then Some (JFloat (f64_of_bytes (firstn 8 l)), skipn 8 l)
      else if Z.eqb k 4 then match parse_text l with Some (s, l) => Some (JText s, l) | None => None end
      else if Z.eqb k 5 then match l with
                             | n :: l => match parse_many (parse_tree fuel) (Z.to_nat n) l with Some (r, l) => Some (JArr r, l) | None => None end
                             | [] => None
                             end
      else match l with
           | n :: l =>
               let p l := match parse_text l with
                          | Some (s, l) => match parse_tree fuel l with Some (v, l) => Some ((s, v), l) | None => None end
                          | None => None
                          end in
               match parse_many p (Z.to_nat n) l with Some (r, l) => Some (JObj r, l) | None => None end
           | [] => None
           end
  end.
(* a parser with a recursion limit *)
Definition tree_parse (limit : nat) (l : list Z) : option json :=
  match parse_tree (List.length l) l with
  | Some (v, rest) => if forallb (Z.eqb 32) rest && (depth v <=? limit) then Some v else None
  | None => None
  end.
Definition tree_codec (limit : nat) : json_codec := mk_codec tree_bytes (tree_parse limit).

Fixpoint reread_tree (r : spec_float -> spec_float) (v : json) : json :=
  match v with
  | JFloat f => JFloat (r f)
  | JArr l => JArr (map (reread_tree r) l)
  | JObj fs => JObj (map (fun e => (fst e, reread_tree r (snd e))) fs)
  | v => v
  end.
Lemma of_chars_ok s : of_chars (chars s) = s.
Proof.
  unfold of_chars, chars. rewrite map_map. rewrite (map_ext _ (fun c => c)), map_id, string_of_list_ascii_of_string; [reflexivity|].
  intros c. rewrite Nat2Z.id. apply ascii_nat_embedding.
Qed.
Lemma parse_text_ok s rest : parse_text (text_bytes s ++ rest) = Some (s, rest).
Proof.
  cbn [text_bytes parse_text app]. rewrite Nat2Z.id, firstn_app, firstn_all, Nat.sub_diag, firstn_O, app_nil_r, of_chars_ok.
  now rewrite skipn_app, skipn_all, Nat.sub_diag.
Qed.
Lemma parse_many_ok {A B} (p : list Z -> option (B * list Z)) (enc : A -> list Z) (g : A -> B) l rest :
  Forall (fun a => forall rest, p (enc a ++ rest) = Some (g a, rest)) l ->
  parse_many p (List.length l) (flat_map enc l ++ rest) = Some (map g l, rest).
Proof.
  induction 1 as [|a l H _ IH]; [reflexivity|]. cbn [List.length parse_many flat_map map]. rewrite <- app_assoc, H, IH. reflexivity.
Qed.
Lemma list_max_in x l : In x l -> x <= list_max l.
Proof. intros I. pose proof (proj1 (list_max_le l (list_max l)) (le_n _)) as F. rewrite Forall_forall in F. now apply F. Qed.
Lemma parse_tree_ok v : forall fuel rest, depth v < fuel -> parse_tree fuel (tree_bytes v ++ rest) = Some (reread_tree ex_reread v, rest).
Proof.
  induction v as [|b|z|f|s|l IH|fs IH] using json_induction; intros [|fuel] rest D; try (exfalso; lia).
  - reflexivity.
  - destruct b; reflexivity.
  - reflexivity.
  - assert (L : List.length (f64_bytes f) = 8) by (unfold f64_bytes; now rewrite NumProofs.le_enc_length).
    cbn [tree_bytes app parse_tree Z.eqb Pos.eqb reread_tree]. rewrite firstn_app, skipn_app, L, Nat.sub_diag, firstn_O, app_nil_r. rewrite <- L, firstn_all, skipn_all. reflexivity.
  - cbn [tree_bytes app parse_tree Z.eqb Pos.eqb reread_tree]. rewrite parse_text_ok. reflexivity.
  - cbn [tree_bytes app parse_tree Z.eqb Pos.eqb reread_tree]. rewrite Nat2Z.id.
    rewrite (parse_many_ok (parse_tree fuel) tree_bytes (reread_tree ex_reread)); [reflexivity|].
    apply Forall_forall. intros v I r. rewrite Forall_forall in IH. apply IH; [exact I|]. cbn [depth] in D. pose proof (list_max_in (depth v) (map depth l) (in_map _ _ _ I)). lia.
  - cbn [tree_bytes app parse_tree Z.eqb Pos.eqb reread_tree]. rewrite Nat2Z.id.
    rewrite (parse_many_ok _ (fun e => text_bytes (fst e) ++ tree_bytes (snd e)) (fun e => (fst e, reread_tree ex_reread (snd e)))); [reflexivity|].
    apply Forall_forall. intros e I r. cbn beta. rewrite <- app_assoc, parse_text_ok. rewrite Forall_forall in IH. rewrite (IH e I); [reflexivity|].
    cbn [depth] in D. pose proof (list_max_in (depth (snd e)) (map (fun e => depth (snd e)) fs) (in_map (fun e => depth (snd e)) _ _ I)). lia.
Qed.
Lemma flat_map_in_len {A} (f : A -> list Z) l a : In a l -> List.length (f a) <= List.length (flat_map f l).
Proof. induction l as [|x l IH]; intros []; cbn [flat_map]; rewrite app_length; [subst; lia|]. specialize (IH H). lia. Qed.
Lemma tree_len v : depth v < List.length (tree_bytes v).
Proof.
  induction v as [|b|z|f|s|l IH|fs IH] using json_induction; cbn [depth tree_bytes List.length]; try lia.
  - enough (list_max (map depth l) <= List.length (flat_map tree_bytes l)) by lia. apply list_max_le. apply Forall_forall. intros x I. apply in_map_iff in I. destruct I as (v & <- & I).
    rewrite Forall_forall in IH. specialize (IH v I). pose proof (flat_map_in_len tree_bytes l v I). lia.
  - enough (list_max (map (fun e => depth (snd e)) fs) <= List.length (flat_map (fun e => text_bytes (fst e) ++ tree_bytes (snd e)) fs)) by lia.
    apply list_max_le. apply Forall_forall. intros x I. apply in_map_iff in I. destruct I as (e & <- & I).
    rewrite Forall_forall in IH. specialize (IH e I). pose proof (flat_map_in_len (fun e => text_bytes (fst e) ++ tree_bytes (snd e)) fs e I) as L. cbn beta in L. rewrite app_length in L. lia.
Qed.
Lemma depth_reread r v : depth (reread_tree r v) = depth v.
Proof.
  induction v as [|b|z|f|s|l IH|fs IH] using json_induction; try reflexivity; cbn [reread_tree depth]; do 2 f_equal; rewrite map_map.
  - apply map_ext_in. intros v I. rewrite Forall_forall in IH. now apply IH.
  - apply map_ext_in. intros e I. cbn [snd]. rewrite Forall_forall in IH. now apply IH.
Qed.
Lemma reread_reparsed r v : keys_unique v -> reparsed r v (reread_tree r v).
Proof.
  induction v as [|b|z|f|s|l IH|fs IH] using json_induction; intros K; inversion K; subst; try constructor.
  - induction l as [|v l IHl]; [constructor|]. inversion IH; inversion H0; subst. constructor; [auto|]. apply IHl; auto. now constructor.
  - now rewrite map_fst_map.
  - intros k E. rewrite assoc_map_snd, E. reflexivity.
  - intros k v E. rewrite assoc_map_snd, E. cbn [option_map]. eexists. split; [reflexivity|]. apply (assoc_in _ _ _ H0) in E.
    rewrite Forall_forall in IH, H1. apply (IH _ E). apply (H1 _ E).
Qed.
Lemma tree_codec_ok limit : prints_and_parses (tree_codec limit) ex_reread limit.
Proof.
  intros v k K D. exists (reread_tree ex_reread v). split; [|now apply reread_reparsed]. cbn [tree_codec json_parse json_text]. unfold tree_parse.
  rewrite parse_tree_ok by (rewrite app_length; pose proof (tree_len v); lia). rewrite depth_reread. apply Nat.leb_le in D. rewrite D, andb_true_r.
  assert (F : forallb (Z.eqb 32) (repeat 32%Z k) = true) by (induction k; [reflexivity|assumption]). now rewrite F.
Qed.
Lemma tree_codec_limit limit : rejects_deeper (tree_codec limit) limit.
Proof.
  intros v D. cbn [tree_codec json_parse json_text]. unfold tree_parse. rewrite <- (app_nil_r (tree_bytes v)) at 2. rewrite parse_tree_ok by apply tree_len. rewrite depth_reread.
  apply Nat.leb_gt in D. now rewrite D, andb_false_r.
Qed.

(* ---- examples ---- *)
Definition one : spec_float := S754_finite false 4503599627370496 (-52).
Definition two : spec_float := S754_finite false 4503599627370496 (-51).
(* a tile with content, a transformation and two children of which one has a child *)
Definition leaf (uri : string) (v : volume) : tileset := mk_ts f64_zero None v None (Some (mk_content None uri)) None [].
Definition identity_matrix : list spec_float :=
  [one; f64_zero; f64_zero; f64_zero; f64_zero; one; f64_zero; f64_zero; f64_zero; f64_zero; one; f64_zero; f64_zero; f64_zero; f64_zero; one].
Definition ex_tiles : tileset :=
  mk_ts two (Some Add) (Box [one; one; one; two; f64_zero; f64_zero; f64_zero; two; f64_zero; f64_zero; f64_zero; two])
    (Some (Sphere [one; two; one; two])) (Some (mk_content (Some (Region (repeat one 6))) "root.pnts")) (Some identity_matrix)
    [leaf "a.pnts" (Sphere [one; one; one; one]);
     mk_ts one (Some Replace) (Region (repeat two 6)) None None None [leaf "b.pnts" (Sphere [two; one; one; one])]].
Definition ex_root : root_tileset :=
  mk_root (mk_asset "1.0" (Some "v7")) (Some [("Height", mk_property f64_zero two); ("Class", mk_property one two)]) two ex_tiles.
Lemma ex_tiles_ok : tileset_ok ex_tiles.
Proof. repeat (constructor; cbn); auto. Qed.
Lemma ex_root_ok : root_ok ex_root.
Proof.
  split; [|split; [exact I|exact ex_tiles_ok]]. split; [repeat (constructor; [cbn; intuition discriminate|]); constructor|].
  repeat constructor.
Qed.

Definition ex_bt : bt_header := [("id", BatchArray [JInt 1; JFloat one; JText "a"]); ("height", BatchReference 24 "FLOAT" "SCALAR")].
Lemma ex_bt_printable : bt_printable 4 ex_bt.
Proof. split; [repeat (constructor; [cbn; intuition discriminate|]); constructor|]. repeat (constructor; cbn); lia || reflexivity. Qed.
Definition ex_ft : ft_header :=
  [("POINTS_LENGTH", SingleValue (JInt 5)); ("RTC_CENTER", ArrayValue [JFloat one; JInt 2; JFloat two]); ("CONSTANT_RGBA", ArrayValue [JInt 1; JInt 2; JInt 3; JInt 255]);
   ("POSITION", DataReference 0 None); ("BATCH_ID", DataReference 64 (Some "UNSIGNED_SHORT"))].
Lemma ex_ft_printable : ft_printable 4 ex_ft.
Proof. split; [repeat (constructor; [cbn; intuition discriminate|]); constructor|]. repeat (constructor; cbn); lia || reflexivity. Qed.
Lemma ex_ft_plain : Forall (fun e => ft_plain (snd e)) ex_ft.
Proof. repeat constructor. Qed.
