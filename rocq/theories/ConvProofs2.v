(* The converter table, and one mapping applied on each combination of memory layouts. *)
From Coq Require Import String List ZArith Lia Bool Arith.
From Verif Require Import Base LayoutModel LayoutSpec LayoutProofs BufferModel BufferSpec ListLemmas BufferProofs
  BufferSteps BufferSteps2 BufferSteps3 BufferSteps4 TraitModel TraitSpec TraitProofs TraitProofs2 TraitProofs3 NumModel NumSpec
  NumProofs NumProofs2 NumProofs3 ConvModel ConvSpec ConvProofs.
Import ListNotations.
Open Scope nat_scope.

(* ------------------------------------------------------------------ table *)

Definition the_table : conv_table := Eval vm_compute in match generic_converters with Ok t => t | _ => [] end.
Lemma generic_converters_eq : generic_converters = Ok the_table.
Proof. vm_compute. reflexivity. Qed.

Definition simple_types : list datatype :=
  [U8; I8; U16; I16; U32; I32; U64; I64; F32; F64; Vec3u8; Vec3u16; Vec3f32; Vec3i32; Vec3f64; Vec4u8].

(* what the table should contain *)
Definition table_spec (from to : datatype) : option conv_fn :=
  if datatype_eqb from to then None
  else match scalar_type from, scalar_type to, vector_type from, vector_type to with
       | Some f, Some t, _, _ => Some (ConvScalar f t)
       | _, _, Some f, Some t => Some (ConvVec3 f t)
       | _, _, _, _ => None
       end.

Definition conv_fn_eq_dec (x y : conv_fn) : {x = y} + {x <> y}.
Proof. decide equality; decide equality. Defined.
Definition conv_eqb (a b : option conv_fn) : bool :=
  match a, b with
  | Some x, Some y => if conv_fn_eq_dec x y then true else false
  | None, None => true
  | _, _ => false
  end.
Lemma conv_eqb_eq a b : conv_eqb a b = true -> a = b.
Proof. unfold conv_eqb. destruct a as [x|], b as [y|]; try discriminate; auto. destruct (conv_fn_eq_dec x y); congruence. Qed.

Lemma table_simple : forallb (fun a => forallb (fun b => conv_eqb (table_get the_table a b) (table_spec a b)) simple_types) simple_types = true.
Proof. vm_compute. reflexivity. Qed.

Lemma table_get_spec from to : table_get the_table from to = table_spec from to.
Proof.
  assert (S : In from simple_types /\ In to simple_types \/ table_get the_table from to = None /\ table_spec from to = None).
  { assert (D : forall d, In d simple_types \/ (exists n, d = ByteArray n) \/ exists a b c, d = Custom a b c).
    { destruct d; try (left; simpl; tauto); right; [left|right]; eauto. }
    destruct (D from) as [A|[(n & ->)|(a & b & c & ->)]].
    - destruct (D to) as [B|[(n & ->)|(a & b & c & ->)]]; [auto|right; simpl in A; intuition subst; reflexivity..].
    - right. destruct to; (split; [reflexivity|]); unfold table_spec; simpl; try destruct (datatype_eqb _ _); reflexivity.
    - right. destruct to; (split; [reflexivity|]); unfold table_spec; simpl; try destruct (datatype_eqb _ _); reflexivity. }
  destruct S as [[A B]|[-> ->]]; auto.
  pose proof table_simple as T. rewrite forallb_forall in T. specialize (T _ A). rewrite forallb_forall in T.
  apply conv_eqb_eq, T, B.
Qed.

Lemma generic_spec from to : get_generic_converter from to = match table_spec from to with Some c => Ok (Some c) | None => Panic end.
Proof.
  unfold get_generic_converter. rewrite generic_converters_eq. cbn [bind]. rewrite table_get_spec.
  destruct (table_spec from to); reflexivity.
Qed.

Lemma table_spec_value from to c v : table_spec from to = Some c -> value_as from to v = Some (conv_apply c v).
Proof.
  unfold table_spec, value_as. destruct (datatype_eqb from to); [discriminate|].
  destruct (scalar_type from), (scalar_type to), (vector_type from), (vector_type to); intros [= <-]; reflexivity.
Qed.

Lemma table_spec_supported from to : from <> to -> (supported from to <-> table_spec from to <> None).
Proof.
  intros N. unfold supported, table_spec. destruct (datatype_eqb from to) eqn:E; [apply datatype_eqb_eq in E; contradiction|].
  assert (X : forall d, scalar_type d <> None -> vector_type d = None) by (destruct d; simpl; congruence).
  pose proof (X from). pose proof (X to).
  destruct (scalar_type from), (scalar_type to), (vector_type from), (vector_type to); split; intros; try congruence;
    try tauto; try (left; split; congruence); try (right; split; congruence);
    destruct H1 as [[? ?]|[? ?]]; congruence.
Qed.

Lemma convert_scalar_length f t v : length (convert_scalar_using_as f t v) = prim_size t.
Proof. apply convert_length. Qed.

Lemma table_spec_length from to c v : table_spec from to = Some c -> length (conv_apply c v) = dt_size to.
Proof.
  unfold table_spec. destruct (datatype_eqb from to); [discriminate|].
  destruct (scalar_type from) as [f|] eqn:F, (scalar_type to) as [t|] eqn:T, (vector_type from) as [f'|] eqn:F', (vector_type to) as [t'|] eqn:T';
    try discriminate; intros [= <-]; cbn [conv_apply]; unfold convert_vec3_using_as; rewrite ?app_length, ?convert_scalar_length;
    destruct to; try discriminate; ((injection T as <-; reflexivity) || (injection T' as <-; reflexivity)).
Qed.

(* ------------------------------------------------------------------ one mapping *)

(* the value a mapping produces *)
Definition mp_value (mp : mapping) (v : list Z) : list Z :=
  match mp_conv mp, mp_tf mp with
  | None, None => v
  | Some c, None => conv_apply c v
  | None, Some tf => tf_func tf v
  | Some c, Some tf => if tf_source tf then conv_apply c (tf_func tf v) else tf_func tf (conv_apply c v)
  end.

(* a mapping as the builder makes them *)
Definition mp_ok (from to : layout) (mp : mapping) : Prop :=
  In (mp_src mp) (l_attrs from) /\ In (mp_tgt mp) (l_attrs to)
  /\ match mp_conv mp with
     | None => m_type (mp_src mp) = m_type (mp_tgt mp)
     | Some c => table_spec (m_type (mp_src mp)) (m_type (mp_tgt mp)) = Some c
     end
  /\ match mp_tf mp with
     | None => True
     | Some tf => forall v, length v = dt_size (if tf_source tf then m_type (mp_src mp) else m_type (mp_tgt mp)) ->
                            length (tf_func tf v) = length v
     end.

Section Step.
Variables (from to : layout) (mp : mapping).
Hypotheses (GF : good_layout from) (GT : good_layout to) (MO : mp_ok from to mp).
Let sm := mp_src mp.
Let tm := mp_tgt mp.

Lemma sm_in : In sm (l_attrs from). Proof. apply MO. Qed.
Lemma tm_in : In tm (l_attrs to). Proof. apply MO. Qed.
Lemma sm_size : m_size sm = dt_size (m_type sm). Proof. now destruct (good_member _ _ GF sm_in) as (_ & ? & _). Qed.
Lemma tm_size : m_size tm = dt_size (m_type tm). Proof. now destruct (good_member _ _ GT tm_in) as (_ & ? & _). Qed.
Lemma sm_pos : 0 < m_size sm. Proof. now destruct (good_member _ _ GF sm_in) as (? & _ & _). Qed.
Lemma tm_pos : 0 < m_size tm. Proof. now destruct (good_member _ _ GT tm_in) as (? & _ & _). Qed.

Lemma conv_len c v : mp_conv mp = Some c -> length (conv_apply c v) = m_size tm.
Proof. intros E. destruct MO as (_ & _ & C & _). rewrite E in C. rewrite tm_size. eapply table_spec_length; eauto. Qed.

Lemma same_size : mp_conv mp = None -> m_size sm = m_size tm.
Proof. intros E. destruct MO as (_ & _ & C & _). rewrite E in C. rewrite sm_size, tm_size. unfold sm, tm. now rewrite C. Qed.

Lemma tf_len tf v : mp_tf mp = Some tf -> length v = m_size (if tf_source tf then sm else tm) -> length (tf_func tf v) = length v.
Proof.
  intros E L. destruct MO as (_ & _ & _ & T). rewrite E in T. apply T. rewrite L. destruct (tf_source tf); [apply sm_size|apply tm_size].
Qed.

Lemma mp_value_len v : length v = m_size sm -> length (mp_value mp v) = m_size tm.
Proof.
  intros L. unfold mp_value. destruct (mp_conv mp) as [c|] eqn:C, (mp_tf mp) as [tf|] eqn:T.
  - destruct (tf_source tf) eqn:S; [now apply conv_len|]. rewrite (tf_len tf) by (auto; rewrite S; now apply conv_len). now apply conv_len.
  - now apply conv_len.
  - pose proof (same_size C). rewrite (tf_len tf) by (auto; destruct (tf_source tf); congruence). congruence.
  - rewrite <- same_size; auto.
Qed.

Lemma conv_into_len c v d : mp_conv mp = Some c -> length d = m_size tm -> conv_into c v d = conv_apply c v.
Proof.
  intros E L. unfold conv_into, blit. simpl. rewrite (conv_len c v E), <- L, skipn_all. apply app_nil_r.
Qed.

(* the value computed for a chunk, in each of the ways the code does it *)
Lemma chunk_columnar c v d : mp_conv mp = Some c -> length v = m_size sm -> length d = m_size tm ->
  (match mp_tf mp with
   | Some tf => if tf_source tf
                then let* tmp := copy_from_slice (repeat 0%Z (m_size sm)) v in Ok (conv_into c (tf_func tf tmp) d)
                else Ok (tf_func tf (conv_into c v d))
   | None => Ok (conv_into c v d)
   end) = Ok (mp_value mp v).
Proof.
  intros E LV LD. unfold mp_value. rewrite E. destruct (mp_tf mp) as [tf|] eqn:T; [|now rewrite conv_into_len].
  destruct (tf_source tf); [|now rewrite conv_into_len]. rewrite copy_ok by now rewrite repeat_length.
  cbn [bind]. now rewrite conv_into_len.
Qed.

Lemma scratch_ok max v n : n = length v -> length v <= max -> scratch max n v = Ok v.
Proof.
  intros -> L. unfold scratch. rewrite slice_get_ok by (rewrite ?repeat_length; lia). cbn [bind].
  apply copy_ok. rewrite length_sub; [lia|]. rewrite repeat_length. lia.
Qed.

Lemma chunk_interleaved max n v d : length v = m_size sm -> n = length v -> length d = m_size tm -> m_size sm <= max ->
  (match mp_conv mp with
   | Some c =>
       match mp_tf mp with
       | Some tf =>
           if tf_source tf
           then let* buf := scratch max n v in Ok (conv_into c (tf_func tf buf) d)
           else Ok (tf_func tf (conv_into c v d))
       | None => Ok (conv_into c v d)
       end
   | None =>
       match mp_tf mp with
       | Some tf => let* buf := scratch max n v in copy_from_slice d (tf_func tf buf)
       | None => copy_from_slice d v
       end
   end) = Ok (mp_value mp v).
Proof.
  intros LV -> LD LM. pose proof (mp_value_len v LV) as ML. unfold mp_value in *.
  destruct (mp_conv mp) as [c|] eqn:E.
  - destruct (mp_tf mp) as [tf|] eqn:T; [|now rewrite conv_into_len].
    destruct (tf_source tf); [|now rewrite conv_into_len]. rewrite scratch_ok by lia. cbn [bind]. now rewrite conv_into_len.
  - destruct (mp_tf mp) as [tf|] eqn:T.
    + rewrite scratch_ok by lia. cbn [bind]. apply copy_ok. congruence.
    + apply copy_ok. congruence.
Qed.

(* ------------------------------------------------------------------ effect on the target buffer *)

(* tb' is tb with the values of tm given by val written at the points ts .. te *)
Definition effect (tb tb' : mbuf) (ts te : nat) (val : nat -> list Z) : Prop :=
  mb_wf tb' /\ same_shape tb tb' /\ mb_layout tb' = mb_layout tb /\ mb_len tb' = mb_len tb
  /\ mb_points tb' = mapi (fun k r => if Nat.leb ts k && Nat.ltb k te then with_attr tm (val k) r else r) (mb_points tb)
  /\ mb_off tb' = mb_off tb /\ mb_len (mb_root tb') = mb_len (mb_root tb) /\ mb_columnar tb' = mb_columnar tb
  /\ (forall q, q < mb_off tb \/ mb_off tb + mb_len tb <= q ->
        nth_error (mb_points (mb_root tb')) q = nth_error (mb_points (mb_root tb)) q).

Lemma set_range_effect tb ts te data (val : nat -> list Z) : mb_wf tb -> mb_layout tb = to -> ts <= te -> te <= mb_len tb ->
  data = concat (map val (range ts te)) -> (forall k, ts <= k < te -> length (val k) = m_size tm) ->
  exists tb', mb_set_attribute_range tb (m_def tm) ts te data = Ok tb' /\ effect tb tb' ts te val.
Proof.
  intros W L L1 L2 -> LV. pose proof tm_in as Hm. rewrite <- L in Hm. pose proof (wf_good _ W) as G.
  assert (U : uniform (m_size tm) (map val (range ts te))).
  { apply uniform_map. intros k Hk. apply in_seq in Hk. apply LV. lia. }
  assert (LD : length (concat (map val (range ts te))) = (te - ts) * m_size tm).
  { rewrite (length_concat (m_size tm)) by auto. now rewrite map_length, length_range. }
  destruct (mb_write tb (OSetAttributeRange (m_def tm) ts te (concat (map val (range ts te)))) W)
    as (b' & pts' & E & W' & S & EL & EN & EO & ES & EP & RW & LL & OUT).
  { simpl. split; [eauto|]. split; [exact L1|]. split; [exact L2|]. rewrite LD. f_equal. apply tm_size. }
  exists b'. split; [exact E|]. unfold effect. repeat split; auto.
  2: now destruct (same_shape_facts tb b' S LL) as (_ & _ & ? & _).
  rewrite EP. cbn [spec_step] in ES. rewrite (member_of_In _ _ G Hm) in ES.
  destruct (Nat.leb te (length (mb_points tb))); [|discriminate]. injection ES as <-. rewrite map_mapi.
  rewrite <- (stored_points tb W) at 2. rewrite mapi_map. apply mapi_ext. intros k r Hr.
  destruct (Nat.leb_spec ts k), (Nat.ltb_spec k te); simpl; auto.
  assert (V : sub (concat (map val (range ts te))) ((k - ts) * m_size tm) (m_size tm) = val k).
  { rewrite (sub_concat_one (m_size tm) _ (k - ts) (val k)); auto. rewrite nth_error_map. unfold range. rewrite nth_error_seq.
    destruct (Nat.ltb_spec (k - ts) (te - ts)); [|lia]. simpl. do 2 f_equal. lia. }
  rewrite V. apply stored_with_attr; auto.
  destruct (wf_uniform tb W) as (UU & _). exact (uniform_nth _ _ _ _ UU Hr).
Qed.

(* writing all points of an interleaved buffer *)
Lemma set_points_effect tb ts te (val : nat -> list Z) : mb_wf tb -> mb_layout tb = to -> mb_columnar tb = false ->
  (forall k, ts <= k < te -> length (val k) = m_size tm) -> te <= mb_len tb ->
  exists tb', mb_set_point_range tb 0 (mb_len tb)
                (concat (mapi (fun k r => if Nat.leb ts k && Nat.ltb k te then blit r (m_offset tm) (val k) else r) (mb_points tb))) = Ok tb'
              /\ effect tb tb' ts te val.
Proof.
  intros W L C LV L2. pose proof tm_in as Hm. rewrite <- L in Hm. pose proof (wf_good _ W) as G.
  destruct (wf_uniform tb W) as (U & UL). destruct (good_member _ _ G Hm) as (_ & _ & B).
  set (P := mapi (fun k r => if Nat.leb ts k && Nat.ltb k te then with_attr tm (val k) r else r) (mb_points tb)).
  assert (EQ : mapi (fun k r => if Nat.leb ts k && Nat.ltb k te then blit r (m_offset tm) (val k) else r) (mb_points tb) = P).
  { apply mapi_ext. intros k r Hr. pose proof (uniform_nth _ _ _ _ U Hr).
    destruct (Nat.leb_spec ts k), (Nat.ltb_spec k te); simpl; auto. unfold with_attr. apply blit_set_range. rewrite LV by lia. lia. }
  rewrite EQ. assert (UP : uniform (l_size (mb_layout tb)) P).
  { apply uniform_mapi. intros k r Hr. pose proof (uniform_nth _ _ _ _ U Hr). destruct (_ && _); auto. now rewrite length_with_attr. }
  assert (LP : length P = mb_len tb) by (unfold P; now rewrite length_mapi).
  destruct (mb_write tb (OSetPointRange 0 (mb_len tb) (concat P)) W)
    as (b' & pts' & E & W' & S & EL & EN & EO & ES & EP & RW & LL & OUT).
  { simpl. split; [lia|]. split; [lia|]. rewrite (length_concat (l_size (mb_layout tb))) by auto. rewrite LP. f_equal. lia. }
  exists b'. split; [exact E|]. unfold effect. repeat split; auto.
  2: now destruct (same_shape_facts tb b' S LL) as (_ & _ & ? & _).
  rewrite EP. cbn [spec_step] in ES. rewrite UL in ES. rewrite Nat.leb_refl in ES. injection ES as <-.
  rewrite Nat.sub_0_r, <- LP, pieces_concat by auto.
  rewrite <- (map_id P) at 1. fold P.
  assert (SR : set_range 0 P (mb_points tb) = P).
  { apply nth_error_ext. intros k. unfold set_range. rewrite nth_error_mapi. simpl.
    destruct (nth_error (mb_points tb) k) as [r|] eqn:Hr; simpl.
    - pose proof (nth_error_lt _ _ _ Hr). destruct (Nat.ltb_spec k (length P)); [|lia].
      destruct (nth_error_get P k) as [x Hx]; [lia|]. rewrite Hx. f_equal. rewrite Nat.sub_0_r. now apply nth_nth_error.
    - symmetry. apply nth_error_None. rewrite LP. apply nth_error_None in Hr. lia. }
  rewrite map_id, SR. rewrite (map_ext _ (fun r => r)); [apply map_id|]. intros r. unfold stored. now rewrite C.
Qed.

End Step.
