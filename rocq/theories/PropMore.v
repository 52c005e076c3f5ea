(* Property theorems C64 (comparing layouts without offsets) and C65 (attribute pusher). *)
From Coq Require Import String List ZArith Lia Bool Arith Permutation.
From Verif Require Import Base LayoutModel LayoutSpec LayoutProofs BufferModel BufferSpec ListLemmas BufferProofs
  BufferSteps BufferSteps2 BufferSteps3 BufferSteps4 TraitModel TraitSpec BufferFacts BufferExamples MoreFacts.
Import ListNotations.

(* ---- C64 ---- *)
Theorem C64_compare_without_offsets_compares_attributes :
  forall l o, api_layout l -> api_layout o ->
  (compare_without_offsets l o = true
   <-> Permutation (map (fun m => (m_name m, m_type m)) (l_attrs l)) (map (fun m => (m_name m, m_type m)) (l_attrs o))).
Proof. exact compare_without_offsets_api. Qed.
Print Assumptions C64_compare_without_offsets_compares_attributes.

Theorem C64_compare_without_offsets_is_an_equivalence :
  (forall l, api_layout l -> compare_without_offsets l l = true)
  /\ (forall l o, api_layout l -> api_layout o -> compare_without_offsets l o = compare_without_offsets o l)
  /\ (forall l o p, api_layout l -> api_layout o -> api_layout p ->
        compare_without_offsets l o = true -> compare_without_offsets o p = true -> compare_without_offsets l p = true).
Proof. exact compare_without_offsets_equiv. Qed.
Print Assumptions C64_compare_without_offsets_is_an_equivalence.

(* the same attributes in another order and packed; one attribute less *)
Example C64_nonvacuous :
  exists l o p, from_attributes [INTENSITY; GPS_TIME; CLASSIFICATION] = Ok l
  /\ from_attributes_packed [CLASSIFICATION; INTENSITY; GPS_TIME] 1 = Ok o
  /\ from_attributes [INTENSITY; GPS_TIME] = Ok p
  /\ compare_without_offsets l o = true /\ layout_eqb l o = false
  /\ compare_without_offsets p l = false /\ compare_without_offsets l p = false.
Proof. do 3 eexists. split; [vm_compute; reflexivity|]. split; [vm_compute; reflexivity|].
  split; [vm_compute; reflexivity|]. vm_compute. auto. Qed.

(* ---- C65 ---- *)
(* One range of n values for each attribute of the layout, in any order, then done: n points with these values are
   appended and the earlier points are unchanged. Partial: pushing an attribute twice is not covered, see below. *)
Theorem C65_pusher_appends_points_partial :
  forall (b : hbuf) (n : nat) (vals : member -> list (list Z)) (order : list member),
  hb_inv b -> 0 < n ->
  (forall m, In m (l_attrs (hb_layout b)) -> length (vals m) = n /\ Forall (fun v => length v = m_size m) (vals m)) ->
  Permutation order (l_attrs (hb_layout b)) ->
  exists p b' news,
    foldM (fun p m => pusher_push p (m_type m) (m_def m) (vals m)) order (pusher_new b) = Ok p
    /\ pusher_done p b = Ok b' /\ hb_inv b' /\ hb_layout b' = hb_layout b
    /\ points_of (BH b') = points_of (BH b) ++ news /\ length news = n
    /\ forall m i, In m (l_attrs (hb_layout b)) -> i < n -> attr_value m (nth i news []) = nth i (vals m) [].
Proof. exact pusher_points. Qed.
Print Assumptions C65_pusher_appends_points_partial.

Example C65_nonvacuous :
  hb_inv ex_map /\ 0 < 2
  /\ (forall m, In m (l_attrs (hb_layout ex_map)) ->
        length (repeat (repeat 7%Z (m_size m)) 2) = 2 /\ Forall (fun v => length v = m_size m) (repeat (repeat 7%Z (m_size m)) 2))
  /\ Permutation (rev (l_attrs (hb_layout ex_map))) (l_attrs (hb_layout ex_map)).
Proof.
  split; [exact ex_map_inv|]. split; [lia|]. split; [|apply Permutation_sym, Permutation_rev].
  intros m _. split; [reflexivity|]. simpl. auto using repeat_length.
Qed.

(* done panics if values were pushed but some attribute of the layout got none *)
Theorem C65_pusher_rejects_missing_attributes :
  forall (b : hbuf) (pushes : list (datatype * attr_def * list (list Z))) (p : pusher) (missing : attr_def),
  hb_inv b ->
  foldM (fun p x => pusher_push p (fst (fst x)) (snd (fst x)) (snd x)) pushes (pusher_new b) = Ok p ->
  In missing (map m_def (l_attrs (hb_layout b))) -> ~ In missing (map (fun x => snd (fst x)) pushes) ->
  (exists x, In x pushes /\ snd x <> []) -> pusher_done p b = Panic.
Proof. exact pusher_missing. Qed.
Print Assumptions C65_pusher_rejects_missing_attributes.

Example C65_missing_nonvacuous :
  exists p, foldM (fun p x => pusher_push p (fst (fst x)) (snd (fst x)) (snd x))
    [(U16, INTENSITY, [[1; 2]%Z]); (F64, GPS_TIME, [repeat 0%Z 8])] (pusher_new ex_map) = Ok p
  /\ In CLASSIFICATION (map m_def (l_attrs (hb_layout ex_map)))
  /\ ~ In CLASSIFICATION (map (fun x : datatype * attr_def * list (list Z) => snd (fst x)) [(U16, INTENSITY, [[1; 2]%Z]); (F64, GPS_TIME, [repeat 0%Z 8])]).
Proof.
  eexists. split; [vm_compute; reflexivity|]. split; [vm_compute; auto|].
  intros [H|[H|[]]]; vm_compute in H; discriminate H.
Qed.

(* Although done documents that it checks the amount of data of every attribute, pushing one attribute twice is accepted
   and corrupts the buffer: a point pushed afterwards is not read back. *)
Theorem C65_pusher_accepts_a_repeated_attribute_refuted :
  exists (b b' b'' : hbuf) (p : pusher) (pt : list Z), hb_inv b
  /\ foldM (fun p x => pusher_push p (fst (fst x)) (snd (fst x)) (snd x))
       [(U16, INTENSITY, [[1; 0]%Z]); (U16, INTENSITY, [[2; 0]%Z]); (F64, GPS_TIME, [repeat 0%Z 8]); (U8, CLASSIFICATION, [[0%Z]])]
       (pusher_new b) = Ok p
  /\ pusher_done p b = Ok b' /\ hb_push_points b' pt = Ok b'' /\ length pt = l_size (hb_layout b)
  /\ hb_len b'' = hb_len b + 2
  /\ (exists q, hb_get_point b'' (hb_len b + 1) (repeat 0%Z (l_size (hb_layout b))) = Ok q
        /\ attr_value m_intensity q <> attr_value m_intensity pt).
Proof. exact pusher_twice. Qed.
Print Assumptions C65_pusher_accepts_a_repeated_attribute_refuted.
