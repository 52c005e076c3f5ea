(* Histories of a PNTS writer. *)
From Coq Require Import String List ZArith Lia Bool Arith Permutation SpecFloat.
From Verif Require Import Base LayoutModel LayoutSpec LayoutProofs BufferModel BufferSpec ListLemmas BufferProofs BufferSteps
  TraitModel TraitSpec NumModel NumSpec NumProofs ConvModel ConvSpec MathModel LasIoModel LasIoProofs7 AsciiProofs6 PntsModel PntsSpec PntsProofs PntsProofs2 PntsProofs3 PntsProofs4 PntsProofs5 PntsProofs6 PntsProofs7.
Import ListNotations.
Open Scope nat_scope.

Definition last_centre (r : option (p3 spec_float)) (calls : list writer_call) : option (p3 spec_float) :=
  fold_left (fun r k => match k with SetCenter v => Some v | _ => r end) calls r.

(* before the first flush *)
Lemma run_before c l calls : Forall (call_ok l) calls -> ~ In Flush calls -> forall w ps, winv l w ps -> pw_out w = [] -> finite_center (pw_rtc w) ->
  exists w', foldM (writer_step c) calls w = Ok w' /\ winv l w' (ps ++ written calls) /\ pw_out w' = [] /\ finite_center (pw_rtc w')
    /\ pw_rtc w' = last_centre (pw_rtc w) calls /\ pw_requires_flush w' = pw_requires_flush w.
Proof.
  induction calls as [|k calls IH]; intros OK NF w ps W O FC.
  - exists w. cbn [foldM]. unfold written. cbn [map concat]. rewrite app_nil_r. repeat (split; [solve [auto]|]). reflexivity.
  - inversion OK as [|? ? K OK']; subst. assert (NF' : ~ In Flush calls) by (intros X; apply NF; now right). cbn [foldM]. destruct k as [p|v|].
    + destruct K as (WP & LP). destruct (write_ok_gen l w ps p W WP LP) as (w1 & E & W1 & O1 & R1 & F1). cbn [writer_step]. rewrite E. cbn [bind].
      destruct (IH OK' NF' w1 _ W1) as (w2 & E2 & W2 & O2 & C2 & R2 & F2); [now rewrite O1|now rewrite R1|]. exists w2. split; [exact E2|].
      unfold written. cbn [map concat]. rewrite app_assoc. split; [exact W2|]. split; [exact O2|]. split; [exact C2|]. split; [now rewrite R2, R1|]. now rewrite F2, F1.
    + cbn [writer_step bind]. destruct (IH OK' NF' (set_rtc_center w v) ps) as (w2 & E2 & W2 & O2 & C2 & R2 & F2); [exact W|exact O|exact K|]. exists w2. split; [exact E2|].
      split; [exact W2|]. split; [exact O2|]. split; [exact C2|]. split; [exact R2|exact F2].
    + destruct NF. now left.
Qed.
(* after it *)
Lemma run_after c l calls : Forall (call_ok l) calls -> forall w ps, winv l w ps -> pw_requires_flush w = false ->
  exists w' ps', foldM (writer_step c) calls w = Ok w' /\ winv l w' ps' /\ pw_out w' = pw_out w /\ pw_requires_flush w' = false.
Proof.
  induction calls as [|k calls IH]; intros OK w ps W F; [exists w, ps; auto|]. inversion OK as [|? ? K OK']; subst. cbn [foldM]. destruct k as [p|v|].
  - destruct K as (WP & LP). destruct (write_ok_gen l w ps p W WP LP) as (w1 & E & W1 & O1 & R1 & F1). cbn [writer_step]. rewrite E. cbn [bind].
    destruct (IH OK' w1 _ W1) as (w2 & ps2 & E2 & W2 & O2 & F2); [now rewrite F1|]. exists w2, ps2. rewrite O2, O1. auto.
  - cbn [writer_step bind]. destruct (IH OK' (set_rtc_center w v) ps W F) as (w2 & ps2 & E2 & W2 & O2 & F2). exists w2, ps2. auto.
  - cbn [writer_step]. unfold flush. rewrite F. cbn [bind]. exact (IH OK' w ps W F).
Qed.

Lemma split_flush calls : calls = before_flush calls /\ ~ In Flush calls
  \/ exists rest, calls = before_flush calls ++ Flush :: rest /\ ~ In Flush (before_flush calls).
Proof.
  induction calls as [|k calls IH]; [left; split; [reflexivity|intros []]|]. destruct k as [p|v|].
  - cbn [before_flush]. destruct IH as [(E & N)|(rest & E & N)]; [left|right].
    + split; [now rewrite <- E|]. intros [X|X]; [discriminate X|contradiction].
    + exists rest. split; [cbn [app]; now rewrite <- E|]. intros [X|X]; [discriminate X|contradiction].
  - cbn [before_flush]. destruct IH as [(E & N)|(rest & E & N)]; [left|right].
    + split; [now rewrite <- E|]. intros [X|X]; [discriminate X|contradiction].
    + exists rest. split; [cbn [app]; now rewrite <- E|]. intros [X|X]; [discriminate X|contradiction].
  - right. exists calls. split; [reflexivity|intros []].
Qed.

(* the whole history comes down to one flush *)
Lemma run_one_flush c l calls w0 : Forall (call_ok l) calls -> winv l w0 [] -> pw_out w0 = [] -> pw_rtc w0 = None -> pw_requires_flush w0 = true ->
  exists w1, winv l w1 (written (before_flush calls)) /\ pw_out w1 = [] /\ finite_center (pw_rtc w1) /\ pw_rtc w1 = centre_set (before_flush calls)
    /\ match write_cached_points c w1 with
       | Ok w2 => forall ps', winv l w2 ps' -> pw_requires_flush w2 = false -> exists w, run_and_drop c w0 calls = Ok w /\ pw_out w = pw_out w2
       | Err => run_and_drop c w0 calls = Err
       | Panic => run_and_drop c w0 calls = Panic
       end.
Proof.
  intros OK W O R F. unfold run_and_drop. assert (FC : finite_center (pw_rtc w0)) by now rewrite R.
  destruct (split_flush calls) as [(E & N)|(rest & E & N)].
  - destruct (run_before c l calls OK N w0 [] W O FC) as (w1 & E1 & W1 & O1 & C1 & R1 & F1). rewrite <- E. exists w1. cbn [app] in W1. split; [exact W1|]. split; [exact O1|]. split; [exact C1|].
    split; [rewrite R1, R; reflexivity|]. rewrite E1. cbn [bind]. unfold flush. rewrite F1, F. destruct (write_cached_points c w1) as [w2| |]; auto. intros ps' _ _. exists w2. auto.
  - assert (OKb : Forall (call_ok l) (before_flush calls) /\ Forall (call_ok l) rest).
    { rewrite E in OK. apply Forall_app in OK. destruct OK as (A & B). inversion B; subst. auto. }
    destruct OKb as (OKb & OKr). destruct (run_before c l _ OKb N w0 [] W O FC) as (w1 & E1 & W1 & O1 & C1 & R1 & F1). exists w1. cbn [app] in W1. split; [exact W1|]. split; [exact O1|]. split; [exact C1|].
    split; [rewrite R1, R; reflexivity|].
    assert (SP : foldM (writer_step c) calls w0 = let* w2 := write_cached_points c w1 in foldM (writer_step c) rest w2).
    { rewrite E at 1. rewrite LasIoProofs7.foldM_app', E1. cbn [bind foldM writer_step]. unfold flush. rewrite F1, F. reflexivity. }
    rewrite SP. destruct (write_cached_points c w1) as [w2| |]; cbn [bind]; auto. intros ps' W2 F2. destruct (run_after c l rest OKr w2 ps' W2 F2) as (w3 & ps3 & E3 & _ & O3 & F3).
    exists w3. rewrite E3. cbn [bind]. unfold flush. rewrite F3. auto.
Qed.

Lemma file_written c reread l order calls : json_ok c reread -> (forall x, Permutation (order x) x) -> good_layout l -> pnts_ready l -> Forall (call_ok l) calls ->
  exists w0, writer_new order l = Ok w0
    /\ (forall w, run_and_drop c w0 calls = Ok w ->
          pnts_file c l (option_map (map_p3 reread) (centre_set (before_flush calls))) (written (before_flush calls)) (pw_out w)).
Proof.
  intros J P G RD OK. destruct (writer_new_ok order l P G RD) as (w0 & E & W & O & R & F). exists w0. split; [exact E|].
  destruct (run_one_flush c l calls w0 OK W O R F) as (w1 & W1 & O1 & C1 & R1 & M). intros w RW. destruct (write_cached_points c w1) as [w2| |] eqn:E2; [|congruence|congruence].
  destruct (written_file c reread l w1 _ w2 J W1 O1 C1 E2) as (PFI & W2 & R2 & F2). destruct (M _ W2 F2) as (w' & E' & O'). rewrite E' in RW. injection RW as <-. now rewrite O', <- R1.
Qed.

(* ---- room ---- *)
Lemma align8_le x : align_to x 8 <= x + 7.
Proof. unfold align_to. cbn [Nat.eqb]. pose proof (Nat.div_mod (x + 8 - 1) 8). pose proof (Nat.mod_upper_bound (x + 8 - 1) 8). lia. Qed.
Lemma total_bound n ms : (forall m, In m ms -> m_size m <= 12) -> total n ms <= length ms * (12 * n + 7).
Proof.
  induction ms as [|m ms IH]; intros H; cbn [total length]; [lia|]. assert (m_size m <= 12) by (apply H; now left). specialize (IH (fun x Hx => H x (or_intror Hx))).
  unfold padded. pose proof (align8_le (m_size m * n)). nia.
Qed.
Lemma json_header_length c v p k : length (json_text c v) <= k -> length (write_json_header c v p) <= k + 7.
Proof.
  intros H. unfold write_json_header. rewrite app_length, repeat_length. pose proof (align8_le (p + length (json_text c v))). lia.
Qed.

Lemma flush_fits c l w ps k : winv l w ps -> pw_out w = [] -> finite_center (pw_rtc w) -> tables_within c k ->
  (28 + 2 * (Z.of_nat k + 7) + 4 * (12 * Z.of_nat (length ps) + 7) < 2 ^ 32)%Z -> exists w', write_cached_points c w = Ok w'.
Proof.
  intros W O FC TW B. pose proof W as (EX & FL & CV & recs & R & F). pose proof FL as (GL & GD & D).
  rewrite (flush_bytes c w recs GD R (dl_named l _ FL) O). assert (LN : length ps = length recs) by exact (Forall2_len _ _ _ F). rewrite LN in B. set (n := length recs) in *. set (ms := l_attrs (pw_default w)) in *.
  assert (M4 : length ms <= 4).
  { rewrite <- (map_length key_of). change 4 with (length ["POSITION"; "RGB"; "RGBA"; "NORMAL"]%string). apply NoDup_incl_length; [exact (keys_distinct l _ FL)|].
    intros x Hx. apply in_map_iff in Hx. destruct Hx as (m & <- & Hm). exact (key_values l _ FL m Hm). }
  assert (S12 : forall m, In m ms -> m_size m <= 12).
  { intros m Hm. destruct (dl_member l _ FL m Hm) as (t & _ & S & SZ & _). rewrite SZ. destruct S as [E|[E|[E|[E|[]]]]]; injection E as _ _ <-; cbn; lia. }
  pose proof (total_bound n ms S12) as T. assert (T' : total n ms <= 4 * (12 * n + 7)) by nia.
  assert (TB : (Z.of_nat (total n ms) < 2 ^ 64)%Z) by lia.
  assert (FT : length (ft_text c ms n (pw_rtc w)) <= k + 7).
  { unfold ft_text, ser_feature_table_header. apply json_header_length. apply TW.
    - exact (fields_nodup l _ FL n (pw_rtc w)).
    - exact (fields_entries l _ FL n (pw_rtc w) TB FC).
    - intros key v He. apply in_map_iff in He. destruct He as (e & Q & He). unfold the_table in He. apply in_app_iff in He. destruct He as [He|He].
      + apply table_entries in He. destruct He as (pre & m & post & E & ->). discriminate Q.
      + apply in_app_iff in He. destruct He as [[<-|[]]|He]; [discriminate Q|]. destruct (pw_rtc w); [|destruct He]. destruct He as [<-|[]]. injection Q as _ <-. reflexivity.
    - rewrite map_map. cbn [fst]. intros x Hx. apply in_map_iff in Hx. destruct Hx as (e & <- & He). unfold the_table in He. apply in_app_iff in He. destruct He as [He|He].
      + apply table_entries in He. destruct He as (pre & m & post & E & ->). cbn [fst]. assert (Hm : In m ms) by (rewrite E; apply in_elt). pose proof (key_values l _ FL m Hm) as V. cbn [In] in V |- *. tauto.
      + apply in_app_iff in He. destruct He as [[<-|[]]|He]; [cbn; tauto|]. destruct (pw_rtc w); [|destruct He]. destruct He as [<-|[]]. cbn. tauto. }
  assert (BT : forall p, length (ser_empty_batch_table_header c p) <= k + 7) by (intros p; apply json_header_length; apply TW; [constructor|constructor|intros key v []|intros x []]).
  assert (SZ : file_size c ms n (pw_rtc w) <= 28 + 2 * (k + 7) + 4 * (12 * n + 7)).
  { unfold file_size. specialize (BT (28 + length (ft_text c ms n (pw_rtc w)) + total n ms)). lia. }
  cbv zeta. fold ms n. destruct (Z.ltb_spec (Z.of_nat (file_size c ms n (pw_rtc w))) (2 ^ 32)) as [LT|GE]; [eexists; reflexivity|lia].
Qed.

Lemma history_fits c l order calls k w0 : (forall x, Permutation (order x) x) -> good_layout l -> pnts_ready l -> Forall (call_ok l) calls -> tables_within c k ->
  (28 + 2 * (Z.of_nat k + 7) + 4 * (12 * Z.of_nat (length (written (before_flush calls))) + 7) < 2 ^ 32)%Z -> writer_new order l = Ok w0 ->
  exists w, run_and_drop c w0 calls = Ok w.
Proof.
  intros P G RD OK TW B E0. destruct (writer_new_ok order l P G RD) as (w0' & E & W & O & R & F). rewrite E in E0. injection E0 as <-.
  destruct (run_one_flush c l calls w0' OK W O R F) as (w1 & W1 & O1 & C1 & R1 & M). destruct (flush_fits c l w1 _ k W1 O1 C1 TW B) as (w2 & E2).
  rewrite E2 in M. assert (X : winv l w2 (written (before_flush calls)) /\ pw_requires_flush w2 = false).
  { pose proof W1 as (EX & FL & CV & recs & RR & FF). pose proof FL as (GL & GD & D). rewrite (flush_bytes c w1 recs GD RR (dl_named l _ FL) O1) in E2. cbv zeta in E2.
    destruct (_ <? _)%Z; [|discriminate E2]. apply Ok_inj in E2. subst w2. split; [exact W1|reflexivity]. }
  destruct X as (W2 & F2). destruct (M _ W2 F2) as (w & E' & _). exists w. exact E'.
Qed.
