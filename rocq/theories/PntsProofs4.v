(* The bytes a PNTS writer writes when it is flushed. *)
From Coq Require Import String List ZArith Lia Bool Arith Permutation SpecFloat.
From Verif Require Import Base LayoutModel LayoutSpec LayoutProofs BufferModel BufferSpec ListLemmas BufferProofs BufferSteps BufferSteps2 BufferSteps3 BufferSteps4
  TraitModel TraitSpec TraitProofs2 NumModel NumSpec NumProofs ConvModel ConvSpec ConvProofs2 ConvProofs5 MathModel LasIoModel LasIoProofs AsciiProofs6 PntsModel PntsSpec PntsProofs PntsProofs2 PntsProofs3.
Import ListNotations.
Open Scope nat_scope.

(* ---- multiples of 8 ---- *)
Lemma align8 x : align_to x 8 mod 8 = 0 /\ x <= align_to x 8 < x + 8.
Proof.
  unfold align_to. cbn [Nat.eqb]. split; [apply Nat.mod_mul; lia|].
  pose proof (Nat.div_mod (x + 8 - 1) 8 ltac:(lia)). pose proof (Nat.mod_upper_bound (x + 8 - 1) 8 ltac:(lia)). lia.
Qed.
Lemma align8_id x : x mod 8 = 0 -> align_to x 8 = x.
Proof.
  intros H. destruct (align8 x) as (A & B). pose proof (Nat.div_mod x 8 ltac:(lia)). pose proof (Nat.div_mod (align_to x 8) 8 ltac:(lia)). lia.
Qed.
Lemma mod8_add x y : x mod 8 = 0 -> y mod 8 = 0 -> (x + y) mod 8 = 0.
Proof. intros A B. rewrite Nat.add_mod, A, B by lia. reflexivity. Qed.

(* ---- offsets ---- *)
Section FILE.
Variables (n : nat).
Definition padded (m : member) : nat := align_to (m_size m * n) 8.
Fixpoint total (ms : list member) : nat := match ms with [] => 0 | m :: ms' => padded m + total ms' end.
Lemma total_app a b : total (a ++ b) = total a + total b.
Proof. induction a as [|m a IH]; cbn [app total]; [reflexivity|]. rewrite IH. lia. Qed.
Lemma total_mod ms : total ms mod 8 = 0.
Proof. induction ms as [|m ms IH]; cbn [total]; [reflexivity|]. apply mod8_add; [apply align8|exact IH]. Qed.
Lemma body_length_total ms : forall s, fold_left (fun s m => s + align_to (n * m_size m) 8) ms s = s + total ms.
Proof. induction ms as [|m ms IH]; intros s; cbn [fold_left total]; [lia|]. rewrite IH. unfold padded. rewrite (Nat.mul_comm n). lia. Qed.

Definition key_of (m : member) : string := match semantics_name (m_def m) with Some k => k | None => EmptyString end.
Fixpoint table_of (off : nat) (ms : list member) : ft_header :=
  match ms with [] => [] | m :: ms' => (key_of m, DataReference off None) :: table_of (off + padded m) ms' end.
Lemma point_semantics_table ms : (forall m, In m ms -> semantics_name (m_def m) <> None) -> forall off, point_semantics n off ms = Ok (table_of off ms).
Proof.
  induction ms as [|m ms IH]; intros H off; cbn [point_semantics table_of]; [reflexivity|].
  unfold key_of. destruct (semantics_name (m_def m)) as [k|] eqn:E; [|destruct (H m (or_introl eq_refl) E)]. cbn [unwrap bind].
  unfold padded in *. rewrite IH by (intros x Hx; apply H; now right). reflexivity.
Qed.
Lemma table_keys ms : forall off, map fst (table_of off ms) = map key_of ms.
Proof. induction ms as [|m ms IH]; intros off; cbn [table_of map fst]; [reflexivity|]. now rewrite IH. Qed.
Lemma table_at pre m post : forall off, In (key_of m, DataReference (off + total pre) None) (table_of off (pre ++ m :: post)).
Proof.
  induction pre as [|x pre IH]; intros off; cbn [app table_of total].
  - left. now rewrite Nat.add_0_r.
  - right. rewrite Nat.add_assoc. apply IH.
Qed.
Lemma table_entries ms : forall off e, In e (table_of off ms) -> exists pre m post, ms = pre ++ m :: post /\ e = (key_of m, DataReference (off + total pre) None).
Proof.
  induction ms as [|x ms IH]; intros off e H; [destruct H|]. cbn [table_of] in H. destruct H as [<-|H].
  - exists [], x, ms. cbn [app total]. rewrite Nat.add_0_r. auto.
  - destruct (IH _ _ H) as (pre & m & post & -> & ->). exists (x :: pre), m, post. cbn [app total]. split; [reflexivity|]. do 2 f_equal. lia.
Qed.

(* ---- the body ---- *)
Variables (l : layout) (recs : list (list Z)).
Hypotheses (G : good_layout l) (U : uniform (l_size l) recs) (LR : length recs = n).
Definition col (m : member) : list Z := concat (map (attr_value m) recs).
Definition body (ms : list member) : list Z := flat_map (fun m => col m ++ repeat 0%Z (padded m - m_size m * n)) ms.
Lemma col_length m : In m (l_attrs l) -> length (col m) = m_size m * n.
Proof. intros H. unfold col. rewrite (length_concat (m_size m)); [|now apply (uniform_values l)]. rewrite map_length, LR. apply Nat.mul_comm. Qed.
Lemma body_length ms : incl ms (l_attrs l) -> length (body ms) = total ms.
Proof.
  induction ms as [|m ms IH]; intros I; [reflexivity|]. unfold body. cbn [flat_map total]. fold (body ms). rewrite !app_length, repeat_length, col_length by (apply I; now left).
  rewrite IH by (intros x Hx; apply I; now right). pose proof (align8 (m_size m * n)). unfold padded. lia.
Qed.
Lemma body_app a b : body (a ++ b) = body a ++ body b.
Proof. unfold body. apply flat_map_app. Qed.
Lemma body_value pre m post i r : incl (pre ++ m :: post) (l_attrs l) -> nth_error recs i = Some r ->
  sub (body (pre ++ m :: post)) (total pre + i * m_size m) (m_size m) = attr_value m r.
Proof.
  intros I R. assert (Hm : In m (l_attrs l)) by (apply I, in_app_iff; right; now left). assert (Ip : incl pre (l_attrs l)) by (intros x Hx; apply I, in_app_iff; now left).
  rewrite body_app. change (body (m :: post)) with ((col m ++ repeat 0%Z (padded m - m_size m * n)) ++ body post). rewrite <- app_assoc.
  pose proof (body_length pre Ip) as LB. pose proof (col_length m Hm) as LC. pose proof (nth_error_lt _ _ _ R) as Li. rewrite LR in Li.
  unfold sub. rewrite skipn_app. rewrite LB. replace (total pre + i * m_size m - total pre) with (i * m_size m) by lia. rewrite (skipn_all2 (body pre)) by lia. cbn [app].
  rewrite skipn_app, LC. replace (i * m_size m - m_size m * n) with 0 by nia. cbn [skipn]. rewrite firstn_app, skipn_length, LC.
  replace (m_size m - (m_size m * n - i * m_size m)) with 0 by nia. cbn [firstn]. rewrite app_nil_r.
  change (firstn (m_size m) (skipn (i * m_size m) (col m))) with (sub (col m) (i * m_size m) (m_size m)). unfold col.
  rewrite (sub_concat_one (m_size m) _ i (attr_value m r)); [reflexivity|now apply (uniform_values l)|]. rewrite nth_error_map, R. reflexivity.
Qed.
End FILE.

Lemma cache_column l recs h m : good_layout l -> hb_rep l recs h -> In m (l_attrs l) -> hb_get_attribute_range_ref h (m_def m) 0 (length recs) = Ok (col recs m).
Proof.
  intros G R Hm. pose proof R as (_ & _ & _ & _ & CO). unfold hb_get_attribute_range_ref, hb_column. rewrite CO by assumption. cbn [unwrap bind].
  destruct (col_facts l G _ h R m Hm) as (UV & LC & AS & P & B). rewrite AS. rewrite slice_get_ok by nia. f_equal. unfold sub. simpl. apply firstn_all_ge. unfold col in *. nia.
Qed.

Lemma body_written w recs out : good_layout (pw_default w) -> hb_rep (pw_default w) recs (pw_cache w) -> length out mod 8 = 0 ->
  write_feature_table_body w out = Ok (out ++ body (length recs) recs (l_attrs (pw_default w))).
Proof.
  intros G R M. pose proof R as (_ & HN & U & _). unfold write_feature_table_body. rewrite HN. set (n := length recs). set (dl := pw_default w) in *.
  assert (X : forall ms out, incl ms (l_attrs dl) -> foldM (fun out m => let* data := hb_get_attribute_range_ref (pw_cache w) (m_def m) 0 n in
      let size := m_size m * n in Ok (out ++ data ++ repeat 0%Z (align_to size 8 - size))) ms out = Ok (out ++ body n recs ms)).
  { clear out M. induction ms as [|m ms IH]; intros out I; cbn [foldM].
    - unfold body. cbn [flat_map]. now rewrite app_nil_r.
    - rewrite (cache_column dl recs) by (auto; apply I; now left). cbn [bind]. rewrite IH by (intros x Hx; apply I; now right).
      unfold body. cbn [flat_map]. unfold padded. now rewrite <- !app_assoc. }
  rewrite X by apply incl_refl. cbn [bind].
  assert (LM : length (out ++ body n recs (l_attrs dl)) mod 8 = 0).
  { rewrite app_length. apply mod8_add; [exact M|]. rewrite (body_length n dl recs G U eq_refl) by apply incl_refl. apply total_mod. }
  rewrite (align8_id _ LM), Nat.sub_diag. cbn [repeat]. now rewrite app_nil_r.
Qed.

(* ---- the whole file ---- *)
Definition center_entry (c : p3 spec_float) : string * ft_value := ("RTC_CENTER"%string, ArrayValue [json_f64 (px c); json_f64 (py c); json_f64 (pz c)]).
Definition the_table (ms : list member) (n : nat) (rtc : option (p3 spec_float)) : ft_header :=
  table_of n 0 ms ++ [("POINTS_LENGTH"%string, SingleValue (JInt (Z.of_nat n)))] ++ match rtc with Some c => [center_entry c] | None => [] end.
Definition ft_text (c : json_codec) (ms : list member) (n : nat) (rtc : option (p3 spec_float)) : list Z :=
  ser_feature_table_header c (the_table ms n rtc) 28.
Definition file_size (c : json_codec) (ms : list member) (n : nat) (rtc : option (p3 spec_float)) : nat :=
  28 + length (ft_text c ms n rtc) + total n ms + length (ser_empty_batch_table_header c (28 + length (ft_text c ms n rtc) + total n ms)).

Lemma json_header_mod c v p : (p + length (write_json_header c v p)) mod 8 = 0.
Proof.
  unfold write_json_header. rewrite app_length, repeat_length. destruct (align8 (p + length (json_text c v))) as (A & B).
  replace (p + (length (json_text c v) + (align_to (p + length (json_text c v)) 8 - (p + length (json_text c v))))) with (align_to (p + length (json_text c v)) 8) by lia. exact A.
Qed.
Lemma header_bytes_length h : length (header_bytes h) = 28.
Proof. unfold header_bytes. rewrite !app_length, !le_enc_length. reflexivity. Qed.

Lemma flush_bytes c w recs : good_layout (pw_default w) -> hb_rep (pw_default w) recs (pw_cache w) ->
  (forall m, In m (l_attrs (pw_default w)) -> semantics_name (m_def m) <> None) -> pw_out w = [] ->
  let ms := l_attrs (pw_default w) in let n := length recs in let ft := ft_text c ms n (pw_rtc w) in
  let bt := ser_empty_batch_table_header c (28 + length ft + total n ms) in
  let size := file_size c ms n (pw_rtc w) in
  write_cached_points c w =
  if (Z.of_nat size <? 2 ^ 32)%Z then
    Ok (mk_pw (header_bytes (mk_ph 1 (Z.of_nat size) (Z.of_nat (length ft)) (Z.of_nat (total n ms)) (Z.of_nat (length bt)) 0) ++ ft ++ body n recs ms ++ bt)
              (pw_expected w) (pw_default w) (pw_cache w) (pw_converters w) (pw_rtc w) false)
  else Panic.
Proof.
  intros G R S O ms n ft bt size. pose proof R as (_ & HN & U & _). unfold write_cached_points, create_feature_table. rewrite HN. fold n.
  rewrite point_semantics_table by exact S. cbn [bind]. change (table_of n 0 (l_attrs (pw_default w)) ++ [("POINTS_LENGTH"%string, SingleValue (JInt (Z.of_nat n)))] ++ match pw_rtc w with
         | Some c => [("RTC_CENTER"%string, ArrayValue [json_f64 (px c); json_f64 (py c); json_f64 (pz c)])] | None => [] end) with (the_table ms n (pw_rtc w)).
  change (ser_feature_table_header c (the_table ms n (pw_rtc w)) HEADER_LENGTH) with ft.
  assert (BL : feature_table_body_length w = total n ms) by (unfold feature_table_body_length; rewrite HN; fold n; rewrite body_length_total; reflexivity). rewrite BL.
  assert (FM : (28 + length ft) mod 8 = 0) by apply json_header_mod. change HEADER_LENGTH with 28.
  assert (AL : align_to (28 + length ft + total n ms) 8 - (28 + length ft) = total n ms).
  { rewrite align8_id by (apply mod8_add; [exact FM|apply total_mod]). lia. }
  rewrite AL. fold bt. rewrite Nat.add_0_r. change (28 + length ft + total n ms + length bt) with size. unfold to_u32 at 1.
  destruct (Z.ltb_spec (Z.of_nat size) (2 ^ 32)) as [LT|GE]; cbn [bind]; [|reflexivity].
  assert (SZ : size = 28 + length ft + total n ms + length bt) by reflexivity.
  assert (T : forall k, k <= size -> to_u32 k = Ok (Z.of_nat k)) by (intros k Hk; unfold to_u32; destruct (Z.ltb_spec (Z.of_nat k) (2 ^ 32)); [reflexivity|lia]).
  rewrite (T (length ft)), (T (total n ms)), (T (length bt)), (T 0) by lia. cbn [bind]. rewrite O. cbn [app].
  rewrite (body_written w recs).
  - cbn [bind]. unfold ms. now rewrite <- !app_assoc.
  - exact G.
  - exact R.
  - rewrite app_length, header_bytes_length. exact FM.
Qed.
