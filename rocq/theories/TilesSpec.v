(* Vocabulary of the statements about 3D Tiles: JSON text, tilesets, tables. *)
From Coq Require Import String List ZArith Bool Arith SpecFloat.
From Verif Require Import Base LayoutModel NumModel MathModel MathSpec PntsModel TilesModel.
Import ListNotations.
Local Open Scope string_scope.
Open Scope nat_scope.

(* ---- JSON text ---- *)

(* What the parser makes of the printed text of a value: the same tree, where the fields of an object may come in another order and every
   f64 is replaced by the f64 that is read from its digits *)
Inductive reparsed (reread : spec_float -> spec_float) : json -> json -> Prop :=
| RpNull : reparsed reread JNull JNull
| RpBool b : reparsed reread (JBool b) (JBool b)
| RpInt z : reparsed reread (JInt z) (JInt z)
| RpFloat f : reparsed reread (JFloat f) (JFloat (reread f))
| RpText s : reparsed reread (JText s) (JText s)
| RpArr l l' : Forall2 (reparsed reread) l l' -> reparsed reread (JArr l) (JArr l')
| RpObj fs fs' : NoDup (map fst fs') -> (forall k, assoc k fs = None -> assoc k fs' = None) ->
    (forall k v, assoc k fs = Some v -> exists v', assoc k fs' = Some v' /\ reparsed reread v v') -> reparsed reread (JObj fs) (JObj fs').
(* no object has a key twice *)
Inductive keys_unique : json -> Prop :=
| KuNull : keys_unique JNull
| KuBool b : keys_unique (JBool b)
| KuInt z : keys_unique (JInt z)
| KuFloat f : keys_unique (JFloat f)
| KuText s : keys_unique (JText s)
| KuArr l : Forall keys_unique l -> keys_unique (JArr l)
| KuObj fs : NoDup (map fst fs) -> Forall (fun e => keys_unique (snd e)) fs -> keys_unique (JObj fs).
(* What is assumed of serde_json: a value whose nesting does not exceed the recursion limit survives printing and parsing, also with
   spaces behind it *)
Definition prints_and_parses (c : json_codec) (reread : spec_float -> spec_float) (limit : nat) : Prop :=
  forall v k, keys_unique v -> depth v <= limit ->
    exists v', json_parse c (json_text c v ++ repeat 32%Z k) = Some v' /\ reparsed reread v v'.
(* and the recursion limit: deeper values are not parsed *)
Definition rejects_deeper (c : json_codec) (limit : nat) : Prop :=
  forall v, limit < depth v -> json_parse c (json_text c v) = None.

(* ---- tilesets ---- *)

Definition map_volume (r : spec_float -> spec_float) (v : volume) : volume :=
  match v with Region l => Region (map r l) | Box l => Box (map r l) | Sphere l => Sphere (map r l) end.
Definition map_content (r : spec_float -> spec_float) (c : content) : content := mk_content (option_map (map_volume r) (ct_volume c)) (ct_uri c).
(* the tileset with all its numbers replaced *)
Fixpoint map_tileset (r : spec_float -> spec_float) (t : tileset) : tileset :=
  mk_ts (r (ts_error t)) (ts_refinement t) (map_volume r (ts_volume t)) (option_map (map_volume r) (ts_request_volume t))
        (option_map (map_content r) (ts_content t)) (option_map (map r) (ts_transform t)) (map (map_tileset r) (ts_children t)).
Definition map_property (r : spec_float -> spec_float) (p : property) : property := mk_property (r (p_minimum p)) (r (p_maximum p)).

Definition finite_point (p : p3 spec_float) : Prop := finite (px p) /\ finite (py p) /\ finite (pz p).
Definition volume_ok (v : volume) : Prop :=
  match v with
  | Region l => List.length l = 6 /\ Forall finite l
  | Box l => List.length l = 12 /\ Forall finite l
  | Sphere l => List.length l = 4 /\ Forall finite l
  end.
Definition for_option {A : Type} (P : A -> Prop) (o : option A) : Prop := match o with Some a => P a | None => True end.
(* the arrays of a tileset and of its children have the lengths their types prescribe *)
Definition volume_shaped (v : volume) : Prop :=
  match v with Region l => List.length l = 6 | Box l => List.length l = 12 | Sphere l => List.length l = 4 end.
Inductive tileset_shaped : tileset -> Prop :=
| TsShaped t : volume_shaped (ts_volume t) -> for_option volume_shaped (ts_request_volume t) ->
    for_option (fun c => for_option volume_shaped (ct_volume c)) (ts_content t) ->
    for_option (fun m => List.length m = 16) (ts_transform t) -> Forall tileset_shaped (ts_children t) -> tileset_shaped t.
(* all numbers of the tileset and of its children are finite, its arrays have the lengths their types prescribe *)
Inductive tileset_ok : tileset -> Prop :=
| TsOk t : finite (ts_error t) -> volume_ok (ts_volume t) -> for_option volume_ok (ts_request_volume t) ->
    for_option (fun c => for_option volume_ok (ct_volume c)) (ts_content t) ->
    for_option (fun m => List.length m = 16 /\ Forall finite m) (ts_transform t) ->
    Forall tileset_ok (ts_children t) -> tileset_ok t.
Definition root_ok (r : root_tileset) : Prop :=
  for_option (fun ps => NoDup (map fst ps) /\ Forall (fun e => finite (p_minimum (snd e)) /\ finite (p_maximum (snd e))) ps) (rt_properties r)
  /\ finite (rt_error r) /\ tileset_ok (rt_root r).
(* levels of children below the tileset *)
Fixpoint height (t : tileset) : nat := list_max (map (fun c => S (height c)) (ts_children t)).
(* the same root tileset with all numbers replaced; the properties are maps, so that only what is found under each name matters *)
Definition root_as (r : spec_float -> spec_float) (a b : root_tileset) : Prop :=
  rt_asset b = rt_asset a /\ rt_error b = r (rt_error a) /\ rt_root b = map_tileset r (rt_root a)
  /\ match rt_properties a, rt_properties b with
     | None, None => True
     | Some ps, Some qs => NoDup (map fst qs) /\ forall k, assoc k qs = option_map (map_property r) (assoc k ps)
     | _, _ => False
     end.
(* a chain of n+1 tilesets, each the only child of the one before *)
Fixpoint chain (n : nat) : tileset :=
  match n with
  | O => ts_default
  | S n => add_child ts_default (chain n)
  end.

(* ---- the builder ---- *)

Inductive tile_call : Type :=
| CError (e : spec_float) | CRefine (r : refinement) | CVolume (v : volume) | CRequest (v : volume)
| CContent (uri : string) (v : option volume) | CTransform (m : list spec_float) | CChild (t : tileset) | CChildren (ts : list tileset).
Definition tile_step (t : tileset) (c : tile_call) : res tileset :=
  match c with
  | CError e => set_geometric_error t e
  | CRefine r => Ok (set_refinement t r)
  | CVolume v => Ok (set_bounding_volume t v)
  | CRequest v => Ok (set_viewer_request_volume t v)
  | CContent u v => Ok (set_content t u v)
  | CTransform m => Ok (set_transform t m)
  | CChild c => Ok (add_child t c)
  | CChildren cs => Ok (add_children t cs)
  end.
Definition build (calls : list tile_call) : res tileset := foldM tile_step calls ts_default.
(* the argument of the last of the calls that the function picks *)
Definition last_of {A : Type} (pick : tile_call -> option A) (calls : list tile_call) : option A :=
  fold_left (fun acc c => match pick c with Some a => Some a | None => acc end) calls None.
Definition finish {A : Type} (d : A) (o : option A) : A := match o with Some a => a | None => d end.
Definition errors (c : tile_call) : option spec_float := match c with CError e => Some e | _ => None end.
Definition refinements (c : tile_call) : option refinement := match c with CRefine r => Some r | _ => None end.
Definition volumes (c : tile_call) : option volume := match c with CVolume v => Some v | _ => None end.
Definition requests (c : tile_call) : option volume := match c with CRequest v => Some v | _ => None end.
Definition contents (c : tile_call) : option content := match c with CContent u v => Some (mk_content v u) | _ => None end.
Definition transforms_set (c : tile_call) : option (list spec_float) := match c with CTransform m => Some m | _ => None end.
Definition children_added (c : tile_call) : list tileset := match c with CChild t => [t] | CChildren ts => ts | _ => [] end.

(* ---- tables ---- *)

Definition map_entry (r : json -> json -> Prop) (a b : bt_entry) : Prop :=
  match a, b with
  | BatchArray l, BatchArray l' => Forall2 r l l'
  | BatchReference o c t, BatchReference o' c' t' => o' = o /\ c' = c /\ t' = t
  | _, _ => False
  end.
Definition map_ft_entry (r : json -> json -> Prop) (a b : ft_value) : Prop :=
  match a, b with
  | SingleValue v, SingleValue v' => r v v'
  | ArrayValue l, ArrayValue l' => Forall2 r l l'
  | DataReference o t, DataReference o' t' => o' = o /\ t' = t
  | _, _ => False
  end.
(* the two maps have the same keys and related values *)
Definition same_keys {A : Type} (R : A -> A -> Prop) (h h' : list (string * A)) : Prop :=
  NoDup (map fst h')
  /\ forall k, match assoc k h, assoc k h' with
               | Some a, Some b => R a b
               | None, None => True
               | _, _ => False
               end.
Definition bt_values (e : bt_entry) : list json := match e with BatchArray l => l | BatchReference _ _ _ => [] end.
Definition ft_values (e : ft_value) : list json := match e with SingleValue v => [v] | ArrayValue l => l | DataReference _ _ => [] end.
(* headers that can be printed: distinct names, values within the recursion limit, offsets that fit a usize *)
Definition bt_printable (limit : nat) (h : bt_header) : Prop :=
  NoDup (map fst h)
  /\ Forall (fun e => Forall (fun v => keys_unique v /\ S (S (depth v)) <= limit) (bt_values (snd e))
                      /\ match snd e with BatchReference o _ _ => (Z.of_nat o < 2 ^ 64)%Z | _ => True end) h.
Definition ft_printable (limit : nat) (h : ft_header) : Prop :=
  NoDup (map fst h)
  /\ Forall (fun e => Forall (fun v => keys_unique v /\ S (S (depth v)) <= limit) (ft_values (snd e))
                      /\ match snd e with DataReference o _ => (Z.of_nat o < 2 ^ 64)%Z | _ => True end) h.
(* the single values of a feature table that are recognised as such: not an array and not an object with a byteOffset *)
Definition ft_plain (e : ft_value) : Prop :=
  match e with
  | SingleValue (JArr _) => False
  | SingleValue (JObj fields) => assoc "byteOffset"%string fields = None
  | _ => True
  end.

(* ---- metadata ---- *)

(* the value the entry of a feature table states for a global semantic, by the table in the 3D Tiles specification *)
Definition three_numbers (e : option ft_value) : option (p3 spec_float) :=
  match e with
  | Some (ArrayValue [a; b; c]) =>
      match as_f64 a, as_f64 b, as_f64 c with Some x, Some y, Some z => Some (mk_p3 x y z) | _, _, _ => None end
  | _ => None
  end.
Definition to_f32 (x : spec_float) : spec_float := match as_cast PF32 (NFlt x) with NFlt y => y | NInt _ => x end.
Definition byte_number (v : json) : option Z := match v with JInt z => if ((0 <=? z) && (z <? 256))%Z then Some z else None | _ => None end.
Definition four_bytes (e : option ft_value) : option (list Z) :=
  match e with
  | Some (ArrayValue [a; b; c; d]) =>
      match byte_number a, byte_number b, byte_number c, byte_number d with Some r, Some g, Some b, Some a => Some [r; g; b; a] | _, _, _, _ => None end
  | _ => None
  end.
Definition unsigned (e : option ft_value) : option nat :=
  match e with
  | Some (SingleValue (JInt z)) => if ((0 <=? z) && (z <? 2 ^ 64))%Z then Some (Z.to_nat z) else None
  | _ => None
  end.
Definition map_point {A B : Type} (f : A -> B) (p : p3 A) : p3 B := mk_p3 (f (px p)) (f (py p)) (f (pz p)).
(* what a feature table states under a name, other than the batch length *)
Definition stated_field (h : ft_header) (name : string) : option any :=
  if String.eqb name "RTC_CENTER" then option_map AnyVec3f64 (three_numbers (assoc name h))
  else if String.eqb name "QUANTIZED_VOLUME_OFFSET" || String.eqb name "QUANTIZED_VOLUME_SCALE"
  then option_map (fun p => AnyVec3f32 (map_point to_f32 p)) (three_numbers (assoc name h))
  else if String.eqb name "CONSTANT_RGBA" then option_map AnyVec4u8 (four_bytes (assoc name h))
  else None.
Definition absent_or {A : Type} (f : option ft_value -> option A) (h : ft_header) (name : string) : Prop := assoc name h = None \/ f (assoc name h) <> None.
(* the global semantics have the types the 3D Tiles specification gives them, and the number of points is stated *)
Definition table_ok (h : ft_header) : Prop :=
  unsigned (assoc "POINTS_LENGTH" h) <> None
  /\ absent_or three_numbers h "RTC_CENTER" /\ absent_or three_numbers h "QUANTIZED_VOLUME_OFFSET" /\ absent_or three_numbers h "QUANTIZED_VOLUME_SCALE"
  /\ absent_or four_bytes h "CONSTANT_RGBA" /\ absent_or unsigned h "BATCH_LENGTH".
