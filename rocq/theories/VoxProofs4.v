From Coq Require Import String List ZArith Lia Bool Arith SpecFloat Permutation Sorted.
From Verif Require Import Base LayoutModel LayoutProofs BufferModel BufferSpec ListLemmas BufferProofs BufferSteps BufferSteps2 BufferSteps3 BufferSteps4 BufferFacts TraitModel TraitSpec TraitProofs TraitProofs2
  NumModel NumSpec NumProofs NumProofs2 ConvModel MathModel MathSpec MathProofs MathProofs2 UntypedModel SegModel SegSpec SegProofs VoxModel VoxSpec F64Real VoxProofs VoxProofs2 VoxProofs3.
Import ListNotations.
Open Scope nat_scope.

(* ---- one attribute of an untyped point ---- *)
Lemma up_member_ok u m : good_layout (up_layout u) -> length (up_bytes u) = l_size (up_layout u) -> In m (l_attrs (up_layout u)) -> up_member u (m_def m) = Ok m.
Proof.
  intros G L H. unfold up_member. change (get_attribute (up_layout u) (m_def m)) with (member_of (up_layout u) (m_def m)). rewrite (member_of_In _ _ G H).
  destruct (good_member _ _ G H) as (_ & S & B). change (ad_type (m_def m)) with (m_type m) in S. rewrite <- S, L. destruct (Nat.ltb_spec (l_size (up_layout u)) (m_offset m + m_size m)); [lia|reflexivity].
Qed.
Lemma set_raw_ok u m v : good_layout (up_layout u) -> length (up_bytes u) = l_size (up_layout u) -> In m (l_attrs (up_layout u)) -> length v = dt_size (m_type m) ->
  exists u', set_raw_attribute u (m_def m) v = Ok u' /\ up_layout u' = up_layout u /\ up_bytes u' = with_attr m v (up_bytes u).
Proof.
  intros G L H V. unfold set_raw_attribute. rewrite (up_member_ok u m G L H). cbn [bind]. rewrite V, Nat.eqb_refl. cbn [assert bind].
  eexists. split; [reflexivity|]. split; [reflexivity|]. cbn [up_bytes]. unfold with_attr. destruct (good_member _ _ G H) as (_ & S & B). change (ad_type (m_def m)) with (m_type m) in S.
  apply blit_set_range. lia.
Qed.

(* ---- the pooled values ---- *)
Definition pooled_all (b : buffer) (v : voxel) (m : member) (bytes : list Z) : Prop :=
  pooled_common b v m bytes /\ pooled_flag b v m bytes /\ pooled_max_int b v m bytes /\ pooled_max_float b v m bytes /\ pooled_mean b v m bytes.

Lemma attr_neq a b : attr_def_eqb a b = false -> a <> b.
Proof. intros H ->. rewrite attr_def_eqb_refl in H. discriminate. Qed.
Lemma not_listed a l : existsb (attr_def_eqb a) l = false -> ~ In a l.
Proof.
  intros H I. assert (T : existsb (attr_def_eqb a) l = true) by (apply existsb_exists; exists a; split; [exact I|apply attr_def_eqb_refl]). congruence.
Qed.

Section Pool.
Variable order : order_fn.
Variable b : buffer.
Variable m : member.
Variable v : voxel.
Hypothesis Ho : forall l, Permutation (order l) l.
Hypothesis W : bf_wf b.
Hypothesis Hm : In m (l_attrs (bf_layout b)).
Hypothesis Hv : forall i, In i (v_points v) -> i < bf_len b.
Hypothesis Hne : v_points v <> [].

Let a := m_def m.
Lemma type_is d : m_def m = d -> m_type m = ad_type d.
Proof. intros <-. reflexivity. Qed.

(* a value of each of the kinds *)
Lemma is_common p s bytes : existsb (attr_def_eqb (m_def m)) (flag_attrs ++ max_attrs ++ mean_attrs ++ mean_vec_attrs) = false ->
  scalar_prim (m_type m) = Some p -> kind p = KInt s -> (bits p <= 32)%Z -> prim_size p = dt_size (m_type m) ->
  bytes = (let* z := centroid_most_common order v b (m_def m) (m_type m) in Ok (int_bytes p z)) ->
  exists r, bytes = Ok r /\ length r = dt_size (m_type m) /\ pooled_all b v m r.
Proof.
  intros NL P K BT SZ ->. destruct (common_ok b m v W Hm Hv Hne order p s Ho P K BT) as (z & E & MC). rewrite E. cbn [bind].
  pose proof (ints_range b m v p s z K (proj1 MC)) as R. destruct (int_bytes_back p s z K R) as (D & L). exists (int_bytes p z). split; auto. split; [lia|].
  apply not_listed in NL. rewrite !in_app_iff in NL. unfold max_attrs in NL. cbn [In] in NL. split; [|split; [|split; [|split]]].
  - intros _ p' P'. rewrite P in P'. injection P' as <-. exists z. auto.
  - intros I. tauto.
  - intros I. cbn [In] in I. tauto.
  - intros I. symmetry in I. tauto.
  - split; intros I; tauto.
Qed.
Lemma is_flag bytes : existsb (attr_def_eqb (m_def m)) (most_common_attrs ++ max_attrs ++ mean_attrs ++ mean_vec_attrs) = false -> m_type m = U8 ->
  bytes = (let* z := centroid_most_common order v b (m_def m) (m_type m) in Ok (flag_bytes z)) ->
  exists r, bytes = Ok r /\ length r = dt_size (m_type m) /\ pooled_all b v m r.
Proof.
  intros NL T ->. destruct (common_ok b m v W Hm Hv Hne order PU8 false Ho) as (z & E & MC); [now rewrite T|reflexivity|vm_compute; discriminate|]. rewrite E. cbn [bind].
  exists (flag_bytes z). split; auto. split; [now rewrite T|].
  apply not_listed in NL. rewrite !in_app_iff in NL. unfold max_attrs in NL. cbn [In] in NL. split; [|split; [|split; [|split]]].
  - intros I. tauto.
  - intros _ F. exists z. split; [|exact MC]. rewrite Forall_forall in F. destruct (F z (proj1 MC)) as [-> | ->]; reflexivity.
  - intros I. cbn [In] in I. tauto.
  - intros I. symmetry in I. tauto.
  - split; intros I; tauto.
Qed.
Lemma is_max_int p bytes : existsb (attr_def_eqb (m_def m)) (most_common_attrs ++ flag_attrs ++ [GPS_TIME] ++ mean_attrs ++ mean_vec_attrs) = false ->
  scalar_prim (m_type m) = Some p -> kind p = KInt false -> (bits p = 8 \/ bits p = 64)%Z -> prim_size p = dt_size (m_type m) ->
  bytes = (let* x := centroid_max_pool v b (m_def m) (m_type m) in Ok (cast_bytes p x)) ->
  exists r, bytes = Ok r /\ length r = dt_size (m_type m) /\ pooled_all b v m r.
Proof.
  intros NL P K BT SZ ->. rewrite (max_pool_ok b m v W Hm Hv p P). cbn [bind]. eexists. split; [reflexivity|]. split; [rewrite cast_length; exact SZ|].
  apply not_listed in NL. rewrite !in_app_iff in NL. cbn [In] in NL. split; [|split; [|split; [|split]]].
  - intros I. tauto.
  - intros I. tauto.
  - intros _ p' P' SM. rewrite P in P'. injection P' as <-. destruct (max_int_ok b m v p K BT Hne SM) as (z & E & G). exists z. split; [|exact G]. rewrite E.
    apply (dec_enc_int p false); auto. apply (ints_range b m v p false z K (proj1 G)).
  - intros I. symmetry in I. tauto.
  - split; intros I; tauto.
Qed.
Lemma is_max_float bytes : m_def m = GPS_TIME ->
  bytes = (let* x := centroid_max_pool v b (m_def m) (m_type m) in Ok (cast_bytes PF64 x)) ->
  exists r, bytes = Ok r /\ length r = dt_size (m_type m) /\ pooled_all b v m r.
Proof.
  intros D ->. assert (T : m_type m = F64) by (unfold m_type; now rewrite D). rewrite (max_pool_ok b m v W Hm Hv PF64); [|now rewrite T]. cbn [bind]. eexists. split; [reflexivity|].
  split; [rewrite cast_length, T; reflexivity|].
  assert (NL : ~ In (m_def m) (most_common_attrs ++ flag_attrs ++ [CLASSIFICATION_FLAGS; POINT_ID] ++ mean_attrs ++ mean_vec_attrs)) by (rewrite D; apply not_listed; vm_compute; reflexivity).
  rewrite !in_app_iff in NL. split; [|split; [|split; [|split]]].
  - intros I. tauto.
  - intros I. tauto.
  - intros I. tauto.
  - intros _ EX. apply (max_float_ok b m v EX).
  - split; intros I; tauto.
Qed.
Lemma is_mean p bytes : existsb (attr_def_eqb (m_def m)) (most_common_attrs ++ flag_attrs ++ max_attrs ++ mean_vec_attrs) = false ->
  scalar_prim (m_type m) = Some p -> prim_size p = dt_size (m_type m) ->
  bytes = (let* x := centroid_average_num v b (m_def m) (m_type m) in Ok (cast_bytes p x)) ->
  exists r, bytes = Ok r /\ length r = dt_size (m_type m) /\ pooled_all b v m r.
Proof.
  intros NL P SZ ->. rewrite (average_num_ok b m v W Hm Hv p P). cbn [bind]. eexists. split; [reflexivity|]. split; [rewrite cast_length; exact SZ|].
  apply not_listed in NL. rewrite !in_app_iff in NL. unfold max_attrs in NL. cbn [In] in NL. split; [|split; [|split; [|split]]].
  - intros I. tauto.
  - intros I. tauto.
  - intros I. cbn [In] in I. tauto.
  - intros I. symmetry in I. tauto.
  - split; intros I; [|tauto]. intros p' P'. rewrite P in P'. injection P' as <-. reflexivity.
Qed.
Lemma is_mean_vec p bytes : existsb (attr_def_eqb (m_def m)) (most_common_attrs ++ flag_attrs ++ max_attrs ++ mean_attrs) = false ->
  vector_prim (m_type m) = Some p -> 3 * prim_size p = dt_size (m_type m) ->
  bytes = (let* x := centroid_average_vec v b (m_def m) (m_type m) in Ok (cast_bytes3 p x)) ->
  exists r, bytes = Ok r /\ length r = dt_size (m_type m) /\ pooled_all b v m r.
Proof.
  intros NL P SZ ->. rewrite (average_vec_ok b m v W Hm Hv p P). cbn [bind]. eexists. split; [reflexivity|].
  split; [unfold cast_bytes3; rewrite !app_length, !cast_length; lia|].
  apply not_listed in NL. rewrite !in_app_iff in NL. unfold max_attrs in NL. cbn [In] in NL. split; [|split; [|split; [|split]]].
  - intros I. tauto.
  - intros I. tauto.
  - intros I. cbn [In] in I. tauto.
  - intros I. symmetry in I. tauto.
  - split; intros I; [tauto|]. intros p' P'. rewrite P in P'. injection P' as <-. reflexivity.
Qed.

Lemma pooled_ok : In (m_def m) pooled_attrs -> exists r, pooled_value order v b (m_def m) = Ok r /\ length r = dt_size (m_type m) /\ pooled_all b v m r.
Proof.
  intros I.
  assert (CASES : forall d, d = m_def m -> exists r, pooled_value order v b d = Ok r /\ length r = dt_size (m_type m) /\ pooled_all b v m r); [|now apply CASES].
  intros d D. rewrite <- D in I. pose proof (type_is d (eq_sym D)) as T.
  unfold pooled_attrs, most_common_attrs, flag_attrs, max_attrs, mean_attrs, mean_vec_attrs in I. cbn [app In] in I.
  repeat match type of I with _ \/ _ => destruct I as [I|I] | False => contradiction end; symmetry in I; subst d; pose proof (eq_sym D) as D'.
  1-4, 7: apply (is_common PU8 false); [rewrite D'; vm_compute; reflexivity|now rewrite T|reflexivity|vm_compute; discriminate|now rewrite T|rewrite T, D'; reflexivity].
  1: apply (is_common PI8 true); [rewrite D'; vm_compute; reflexivity|now rewrite T|reflexivity|vm_compute; discriminate|now rewrite T|rewrite T, D'; reflexivity].
  1: apply (is_common PI16 true); [rewrite D'; vm_compute; reflexivity|now rewrite T|reflexivity|vm_compute; discriminate|now rewrite T|rewrite T, D'; reflexivity].
  1: apply (is_common PU16 false); [rewrite D'; vm_compute; reflexivity|now rewrite T|reflexivity|vm_compute; discriminate|now rewrite T|rewrite T, D'; reflexivity].
  1-2: apply is_flag; [rewrite D'; vm_compute; reflexivity|now rewrite T|rewrite T, D'; reflexivity].
  1: apply (is_max_int PU8); [rewrite D'; vm_compute; reflexivity|now rewrite T|reflexivity|now left|now rewrite T|rewrite T, D'; reflexivity].
  1: apply is_max_float; [exact D'|rewrite T, D'; reflexivity].
  1: apply (is_max_int PU64); [rewrite D'; vm_compute; reflexivity|now rewrite T|reflexivity|now right|now rewrite T|rewrite T, D'; reflexivity].
  1-2: apply (is_mean PU16); [rewrite D'; vm_compute; reflexivity|now rewrite T|now rewrite T|rewrite T, D'; reflexivity].
  1: apply (is_mean_vec PF64); [rewrite D'; vm_compute; reflexivity|now rewrite T|now rewrite T|rewrite T, D'; reflexivity].
  1: apply (is_mean_vec PU16); [rewrite D'; vm_compute; reflexivity|now rewrite T|now rewrite T|rewrite T, D'; reflexivity].
  1: apply (is_mean_vec PF32); [rewrite D'; vm_compute; reflexivity|now rewrite T|now rewrite T|rewrite T, D'; reflexivity].
Qed.
End Pool.
