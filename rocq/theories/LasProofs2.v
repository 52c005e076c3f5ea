(* Lemmas about LAS strings, extra bytes descriptions and file names. *)
From Coq Require Import String List ZArith Lia Bool Arith Ascii ZifyBool ZifyNat ZifyN.
From Verif Require Import Base LayoutModel LayoutSpec LayoutProofs NumModel NumProofs ListLemmas LasModel LasSpec LasProofs.
Import ListNotations.
Open Scope nat_scope.

(* ---------- UTF-8 ---------- *)
Definition continuation (b : Z) : Prop := (128 <= b <= 191)%Z.
Lemma in_range_iff lo hi b : in_range lo hi b = true <-> (lo <= b <= hi)%Z.
Proof. unfold in_range. lia. Qed.

(* the first character of a valid string *)
Lemma utf8_first s : utf8_valid s = true -> s <> [] ->
  exists b ch t, s = (b :: ch) ++ t /\ utf8_valid t = true /\ ~ continuation b /\ Forall continuation ch
  /\ (b = 0%Z -> ch = []) /\ (forall u, utf8_valid ((b :: ch) ++ u) = utf8_valid u)
  /\ (forall k, k < length ch -> utf8_valid (b :: firstn k ch) = false).
Proof.
  intros V N. destruct s as [|b s]; [contradiction|]. cbn [utf8_valid] in V. unfold continuation.
  destruct (in_range 0 127 b) eqn:R1.
  { exists b, [], s. repeat split; auto; [apply in_range_iff in R1; lia| |simpl; lia].
    intros u. simpl. rewrite R1. reflexivity. }
  destruct (in_range 194 223 b) eqn:R2.
  { destruct s as [|c s]; [discriminate|]. apply andb_true_iff in V. destruct V as [C V].
    exists b, [c], s. pose proof R2 as B. apply in_range_iff in B. pose proof C as D. apply in_range_iff in D. repeat split; auto; try lia.
    - intros u. simpl. rewrite R1, R2, C. reflexivity.
    - intros [|k] K; [|simpl in K; lia]. simpl. rewrite R1, R2. reflexivity. }
  destruct (in_range 224 239 b) eqn:R3.
  { destruct s as [|c [|d s]]; try discriminate. apply andb_true_iff in V. destruct V as [V W]. apply andb_true_iff in V. destruct V as [C D].
    exists b, [c; d], s. pose proof R3 as B. apply in_range_iff in B. pose proof C as C'. apply in_range_iff in C'.
    pose proof D as D'. apply in_range_iff in D'.
    assert (C2 : (128 <= c <= 191)%Z) by (destruct (Z.eqb b 224), (Z.eqb b 237); lia). clear C'.
    split; [reflexivity|]. split; [exact W|]. split; [lia|]. split; [repeat (constructor; [assumption|]); constructor|].
    split; [intros; lia|]. split.
    - intros u. simpl. rewrite R1, R2, R3, C, D. reflexivity.
    - intros k K. simpl in K. destruct k as [|[|k]]; [| |lia]; simpl; rewrite R1, R2, R3; reflexivity. }
  destruct (in_range 240 244 b) eqn:R4; [|discriminate].
  destruct s as [|c [|d [|e s]]]; try discriminate.
  apply andb_true_iff in V. destruct V as [V W]. apply andb_true_iff in V. destruct V as [V E]. apply andb_true_iff in V. destruct V as [C D].
  exists b, [c; d; e], s. pose proof R4 as B. apply in_range_iff in B. pose proof C as C'. apply in_range_iff in C'.
  pose proof D as D'. apply in_range_iff in D'. pose proof E as E'. apply in_range_iff in E'.
  assert (C2 : (128 <= c <= 191)%Z) by (destruct (Z.eqb b 240), (Z.eqb b 244); lia). clear C'.
  split; [reflexivity|]. split; [exact W|]. split; [lia|]. split; [repeat (constructor; [assumption|]); constructor|].
  split; [intros; lia|]. split.
  - intros u. simpl. rewrite R1, R2, R3, R4, C, D, E. reflexivity.
  - intros k K. simpl in K. destruct k as [|[|[|k]]]; [| | |lia]; simpl; rewrite R1, R2, R3, R4; reflexivity.
Qed.

Lemma length_ind {A} (P : list A -> Prop) : (forall s, (forall t, length t < length s -> P t) -> P s) -> forall s, P s.
Proof. intros H s. remember (length s) as n eqn:E. assert (L : length s <= n) by lia. clear E. revert s L.
  induction n as [|n IH]; intros s L; apply H; intros t T; [lia|]. apply IH. lia. Qed.

Lemma before_nul_app a b : ~ In 0%Z a -> before_nul (a ++ b) = a ++ before_nul b.
Proof.
  induction a as [|c a IH]; intros H; simpl; [reflexivity|].
  destruct (Z.eqb_spec c 0) as [E|E]; [exfalso; apply H; left; auto|]. rewrite IH; [reflexivity|]. intros I. apply H. right. exact I.
Qed.

Lemma valid_before_nul s : utf8_valid s = true -> utf8_valid (before_nul s) = true.
Proof.
  revert s. apply (length_ind (fun s => utf8_valid s = true -> utf8_valid (before_nul s) = true)). intros s IH V.
  destruct s as [|b0 s0]; [reflexivity|].
  destruct (utf8_first (b0 :: s0) V ltac:(discriminate)) as (b & ch & t & E & VT & NB & CH & Z0 & APP & _). rewrite E.
  destruct (Z.eq_dec b 0) as [B|B].
  - subst b. reflexivity.
  - rewrite before_nul_app.
    + rewrite APP. apply IH; auto. rewrite E, app_length. simpl. lia.
    + intros [I|I]; [auto|]. rewrite Forall_forall in CH. specialize (CH _ I). unfold continuation in CH. lia.
Qed.

Lemma valid_firstn s : forall i, utf8_valid s = true -> i <= length s -> (utf8_valid (firstn i s) = true <-> char_boundary s i).
Proof.
  revert s. apply (length_ind (fun s => forall i, utf8_valid s = true -> i <= length s -> (utf8_valid (firstn i s) = true <-> char_boundary s i))).
  intros s IH i V L. destruct s as [|b0 s0].
  { simpl in L. assert (i = 0) by lia. subst. simpl. unfold char_boundary. simpl. tauto. }
  destruct (utf8_first (b0 :: s0) V ltac:(discriminate)) as (b & ch & t & E & VT & NB & CH & Z0 & APP & PART). rewrite E in *. clear E.
  destruct (Nat.lt_ge_cases i (length (b :: ch))) as [I|I].
  - destruct i as [|i].
    + simpl. unfold char_boundary. simpl. unfold continuation in NB. tauto.
    + simpl in I. rewrite firstn_app. replace (S i - length (b :: ch)) with 0 by (simpl; lia). rewrite firstn_O, app_nil_r.
      cbn [firstn]. rewrite (PART i ltac:(lia)). unfold char_boundary. rewrite nth_error_app1 by (simpl; lia). cbn [nth_error].
      destruct (nth_error ch i) eqn:NE.
      * apply nth_error_In in NE. rewrite Forall_forall in CH. specialize (CH _ NE). unfold continuation in CH. split; [discriminate|tauto].
      * apply nth_error_None in NE. lia.
  - rewrite firstn_app. rewrite firstn_all2 by exact I. rewrite APP.
    rewrite (IH t); auto.
    + unfold char_boundary. rewrite nth_error_app2 by exact I. rewrite app_length.
      destruct (nth_error t (i - length (b :: ch))) eqn:NE; [tauto|]. simpl in *. lia.
    + rewrite app_length. simpl. lia.
    + rewrite app_length in L. simpl in *. lia.
Qed.

(* ---------- LAS strings ---------- *)
Lemma las_string_spec arr : las_string_to_rust_string arr = from_utf8 (before_nul arr).
Proof.
  unfold las_string_to_rust_string.
  assert (H : match position (fun c => Z.eqb c 0) arr with Some i => firstn i arr | None => arr end = before_nul arr).
  { induction arr as [|c arr IH]; simpl; [reflexivity|]. destruct (Z.eqb c 0); [reflexivity|].
    destruct (position (fun c => Z.eqb c 0) arr); simpl in *; rewrite <- IH; reflexivity. }
  destruct (position (fun c => Z.eqb c 0) arr); rewrite <- H; reflexivity.
Qed.
Lemma skipn_repeat {A} (x : A) n k : skipn k (repeat x n) = repeat x (n - k).
Proof. revert k. induction n; intros [|k]; simpl; auto. Qed.
Lemma write_string_spec s N : write_rust_string s (repeat 0%Z N) = firstn N s ++ repeat 0%Z (N - length s).
Proof.
  unfold write_rust_string. rewrite repeat_length. destruct (Nat.leb_spec N (length s)).
  - replace (N - length s) with 0 by lia. simpl. rewrite app_nil_r. reflexivity.
  - rewrite firstn_all2 by lia. rewrite skipn_repeat. reflexivity.
Qed.
Lemma before_nul_zeros s k : before_nul (s ++ repeat 0%Z k) = before_nul s.
Proof.
  induction s as [|c s IH]; simpl.
  - destruct k; reflexivity.
  - destruct (Z.eqb c 0); [reflexivity|]. rewrite IH. reflexivity.
Qed.
Lemma before_nul_id s : ~ In 0%Z s -> before_nul s = s.
Proof. intros H. rewrite <- (app_nil_r s) at 1. rewrite before_nul_app by exact H. simpl. apply app_nil_r. Qed.

Lemma stored_string_spec s N : stored_string s N = from_utf8 (before_nul (firstn N s)).
Proof. unfold stored_string. rewrite las_string_spec, write_string_spec, before_nul_zeros. reflexivity. Qed.

Lemma string_fits s N : utf8_valid s = true -> length s <= N -> stored_string s N = Ok (before_nul s).
Proof. intros V L. rewrite stored_string_spec, firstn_all2 by exact L. unfold from_utf8. rewrite (valid_before_nul s V). reflexivity. Qed.


Lemma before_nul_prefix s : exists r, s = before_nul s ++ r.
Proof.
  induction s as [|c s [r IH]]; simpl; [exists []; reflexivity|].
  destruct (Z.eqb_spec c 0); [exists (c :: s); reflexivity|]. exists r. simpl. rewrite <- IH. reflexivity.
Qed.
Lemma before_nul_In s : In 0%Z s -> exists r, s = before_nul s ++ 0%Z :: r.
Proof.
  induction s as [|c s IH]; simpl; [tauto|]. destruct (Z.eqb_spec c 0) as [->|E]; [exists s; reflexivity|].
  intros [H|H]; [subst; contradiction|]. destruct (IH H) as [r R]. exists r. simpl. rewrite <- R. reflexivity.
Qed.

(* a NUL is a character of its own, so the text before one is valid *)
Lemma valid_prefix_at_nul s : forall N, utf8_valid s = true -> In 0%Z (firstn N s) -> utf8_valid (before_nul (firstn N s)) = true.
Proof.
  intros N V I. assert (before_nul (firstn N s) = before_nul s) as ->.
  { rewrite <- (firstn_skipn N s) at 2. generalize (skipn N s). intros u. revert I. generalize (firstn N s). intros v.
    induction v as [|c v IH]; simpl; [tauto|]. destruct (Z.eqb_spec c 0); [reflexivity|].
    intros [H|H]; [subst; contradiction|]. rewrite <- IH by exact H. reflexivity. }
  apply valid_before_nul, V.
Qed.

Lemma string_cut_ok s N : utf8_valid s = true -> N <= length s -> (char_boundary s N \/ In 0%Z (firstn N s)) ->
  stored_string s N = Ok (before_nul (firstn N s)).
Proof.
  intros V L H. rewrite stored_string_spec. unfold from_utf8. destruct H as [H|H].
  - apply valid_firstn in H; auto. rewrite (valid_before_nul _ H). reflexivity.
  - rewrite (valid_prefix_at_nul _ _ V H). reflexivity.
Qed.
Lemma string_cut_err s N : utf8_valid s = true -> N <= length s -> ~ char_boundary s N -> ~ In 0%Z (firstn N s) ->
  stored_string s N = Err.
Proof.
  intros V L H I. rewrite stored_string_spec, before_nul_id by exact I. unfold from_utf8.
  destruct (utf8_valid (firstn N s)) eqn:E; [|reflexivity]. apply valid_firstn in E; auto. contradiction.
Qed.

(* ---------- extra bytes ---------- *)
Lemma eb_code_decode v : is_byte v -> eb_to_u8 (eb_of_u8 v) = v.
Proof.
  intros B. unfold is_byte in B.
  assert (H : forallb (fun v => Z.eqb (eb_to_u8 (eb_of_u8 v)) v) (zrange 256) = true) by (vm_compute; reflexivity).
  apply (for_all_range _ _ H v) in B. lia.
Qed.
Lemma eb_decode_code t :
  match t with EbDeprecated v => (11 <= v <= 30)%Z | EbReserved v => (31 <= v <= 255)%Z | _ => True end -> eb_of_u8 (eb_to_u8 t) = t.
Proof.
  destruct t; intros H; try reflexivity; unfold eb_of_u8; simpl.
  - repeat match goal with |- context [Z.eqb ?a ?b] => destruct (Z.eqb_spec a b); [lia|] end. destruct (Z.leb_spec v 30); [reflexivity|lia].
  - repeat match goal with |- context [Z.eqb ?a ?b] => destruct (Z.eqb_spec a b); [lia|] end. destruct (Z.leb_spec v 30); [lia|reflexivity].
Qed.

Lemma sub_skip (a b : list Z) k off n : length a = k -> k <= off -> sub (a ++ b) off n = sub b (off - k) n.
Proof. intros L H. unfold sub. rewrite skipn_app, skipn_all2 by lia. rewrite L. reflexivity. Qed.
Lemma sub_here (x b : list Z) n : length x = n -> sub (x ++ b) 0 n = x.
Proof. intros L. unfold sub. simpl. rewrite firstn_app, L, Nat.sub_diag, firstn_O, app_nil_r. apply firstn_all2. lia. Qed.
Lemma sub_last (x : list Z) n : length x = n -> sub x 0 n = x.
Proof. intros L. unfold sub. simpl. apply firstn_all2. lia. Qed.
Ltac find_field :=
  match goal with
  | |- sub (?a ++ ?b) 0 ?n = ?a => apply sub_here; assumption
  | |- sub ?a 0 ?n = ?a => apply sub_last; assumption
  | L : length ?a = ?k |- sub (?a ++ ?b) ?off ?n = _ => rewrite (sub_skip a b k off n L) by (apply Nat.leb_le; reflexivity); cbn [Nat.sub]; find_field
  end.

Lemma length_field s N : length (write_rust_string s (repeat 0%Z N)) = N.
Proof. rewrite write_string_spec, app_length, firstn_length, repeat_length. lia. Qed.

Lemma length_raw e : entry_ok e -> length (eb_to_raw e) = 192.
Proof.
  intros (_ & _ & _ & _ & _ & _ & S & O & MN & MX & ND). unfold eb_to_raw.
  rewrite !app_length, !length_field, S, O, MN, MX, ND, !repeat_length. reflexivity.
Qed.

Lemma raw_round_trip e : entry_ok e -> storable e -> eb_of_raw (eb_to_raw e) = Ok e.
Proof.
  intros (_ & _ & _ & VN & _ & VD & S & O & MN & MX & ND) (LN & ZN & LD & ZD & T).
  destruct e as [t o n s f d mn mx nd]. cbn [eb_dt eb_options eb_name eb_scale eb_offset eb_description eb_min eb_max eb_no_data] in *.
  pose proof (string_fits n 32 VN LN) as RN. pose proof (string_fits d 32 VD LD) as RD.
  rewrite before_nul_id in RN, RD by assumption. unfold stored_string in RN, RD.
  unfold eb_of_raw, eb_to_raw. cbn [eb_dt eb_options eb_name eb_scale eb_offset eb_description eb_min eb_max eb_no_data].
  pose proof (length_field n 32) as LFN. pose proof (length_field d 32) as LFD.
  set (fn := write_rust_string n (repeat 0%Z 32)) in *. set (fd := write_rust_string d (repeat 0%Z 32)) in *. clearbody fn fd.
  remember (repeat 0%Z 2) as z2 eqn:Q2. remember (repeat 0%Z 4) as z4 eqn:Q4. remember (repeat 0%Z 16) as z16 eqn:Q16.
  remember [eb_to_u8 t] as lt eqn:QT. remember [o] as lo eqn:QO.
  assert (L2 : length z2 = 2) by (subst; reflexivity). assert (L4 : length z4 = 4) by (subst; reflexivity).
  assert (L16 : length z16 = 16) by (subst; reflexivity). assert (LT : length lt = 1) by (subst; reflexivity).
  assert (LO : length lo = 1) by (subst; reflexivity).
  set (r := z2 ++ _).
  assert (E1 : sub r 160 32 = fd) by (unfold r; find_field).
  assert (E2 : sub r 4 32 = fn) by (unfold r; find_field).
  assert (E3 : nth 2 r 0%Z = eb_to_u8 t /\ nth 3 r 0%Z = o /\ sub r 112 8 = s /\ sub r 136 8 = f /\ sub r 64 8 = mn /\ sub r 88 8 = mx /\ sub r 40 8 = nd).
  { split; [unfold r; rewrite Q2, QT; reflexivity|]. split; [unfold r; rewrite Q2, QT, QO; reflexivity|].
    unfold r. repeat split; find_field. }
  destruct E3 as (-> & -> & -> & -> & -> & -> & ->). rewrite E1, E2, RD, RN. cbn [bind]. rewrite eb_decode_code by exact T. reflexivity.
Qed.

Lemma sub_concat {A} (f : A -> list Z) k es : (forall e, In e es -> length (f e) = k) ->
  forall i e, nth_error es i = Some e -> sub (concat (map f es)) (i * k) k = f e.
Proof.
  induction es as [|x es IH]; intros H i e N; [destruct i; discriminate|].
  assert (L : length (f x) = k) by (apply H; left; reflexivity).
  destruct i as [|i]; simpl in N.
  - injection N as <-. simpl. unfold sub. simpl. rewrite firstn_app, L, Nat.sub_diag, firstn_O, app_nil_r. apply firstn_all2. lia.
  - rewrite <- (IH (fun e I => H e (or_intror I)) i e N). unfold sub. simpl. rewrite skipn_app.
    rewrite skipn_all2 by (rewrite L; lia). simpl. f_equal. f_equal. rewrite L. lia.
Qed.

Lemma mapM_nth {A B} (g : nat -> res B) (h : A -> B) es : forall o, (forall i e, nth_error es i = Some e -> g (o + i) = Ok (h e)) ->
  mapM g (seq o (length es)) = Ok (map h es).
Proof.
  induction es as [|e es IH]; intros o H; simpl; [reflexivity|].
  pose proof (H 0 e eq_refl) as H0. rewrite Nat.add_0_r in H0. rewrite H0. cbn [bind].
  rewrite IH; [reflexivity|]. intros i e' N. replace (S o + i) with (o + S i) by lia. apply H. exact N.
Qed.

Lemma length_concat_const {A} (f : A -> list Z) k es : (forall e, In e es -> length (f e) = k) -> length (concat (map f es)) = length es * k.
Proof.
  induction es as [|x es IH]; intros H; simpl; [reflexivity|]. rewrite app_length, IH, H; auto. left. reflexivity. intros e I. apply H. right. exact I.
Qed.

Lemma vlr_round_trip es :
  es <> [] -> length es <= 341 -> (forall e, In e es -> entry_ok e /\ storable e) ->
  exists v, eb_to_vlr es = Ok v /\ v_user v = "LASF_Spec"%string /\ v_record v = 4%Z /\ length (v_data v) = 192 * length es
  /\ eb_of_vlr v = Ok es.
Proof.
  intros NE LE H.
  assert (L : length (concat (map eb_to_raw es)) = length es * 192).
  { apply length_concat_const. intros e I. apply length_raw, H, I. }
  unfold eb_to_vlr. rewrite L. rewrite Nat.mod_mul by discriminate. cbn [Nat.eqb assert bind].
  destruct (Z.leb_spec (Z.of_nat (length es * 192)) 65535); [|lia].
  eexists. split; [reflexivity|]. cbn [v_user v_record v_data]. split; [reflexivity|]. split; [reflexivity|]. split; [lia|].
  unfold eb_of_vlr. cbn [v_user v_record v_data]. rewrite String.eqb_refl. cbn [negb Z.eqb]. rewrite L, Nat.mod_mul by discriminate.
  cbn [Nat.eqb negb]. destruct es as [|e0 es0] eqn:ES; [contradiction|]. rewrite <- ES in *.
  replace (Nat.eqb (length es * 192) 0) with false by (rewrite ES; reflexivity). cbn [negb assert bind].
  rewrite Nat.div_mul by discriminate.
  rewrite (mapM_nth _ (fun e => e) es 0).
  - rewrite map_id. reflexivity.
  - intros i e N. simpl. rewrite (sub_concat eb_to_raw 192 es) with (e := e); [| |exact N].
    + apply raw_round_trip; apply (H e), (nth_error_In _ _ N).
    + intros x I. apply length_raw, H, I.
Qed.

(* ---------- the builder ---------- *)
Lemma opt_get_set o b c : (0 <= b)%Z -> (0 <= c)%Z -> opt_get (opt_set o b) c = (Z.eqb b c || opt_get o c)%bool.
Proof.
  intros B C. unfold opt_get, opt_set. rewrite Z.lor_spec, Z.pow2_bits_eqb by lia. apply orb_comm.
Qed.

Lemma opt_bits o b : In b [0; 1; 2; 3; 4]%Z -> forall c, In c [0; 1; 2; 3; 4]%Z -> opt_get (opt_set o b) c = (Z.eqb b c || opt_get o c)%bool.
Proof. intros B c C. apply opt_get_set; simpl in B, C; lia. Qed.
Lemma bit_no_data : In BIT_NO_DATA [0; 1; 2; 3; 4]%Z. Proof. left. reflexivity. Qed.
Lemma bit_min : In BIT_MIN [0; 1; 2; 3; 4]%Z. Proof. right. left. reflexivity. Qed.
Lemma bit_max : In BIT_MAX [0; 1; 2; 3; 4]%Z. Proof. do 2 right. left. reflexivity. Qed.
Lemma bit_scale : In BIT_SCALE [0; 1; 2; 3; 4]%Z. Proof. do 3 right. left. reflexivity. Qed.
Lemma bit_offset : In BIT_OFFSET [0; 1; 2; 3; 4]%Z. Proof. do 4 right. left. reflexivity. Qed.
Definition is_set (which : eb_call -> option (list Z)) (c : eb_call) : bool := is_some (which c).
Lemma step_scale_bit e c : opt_get (eb_options (eb_apply e c)) BIT_SCALE = (is_set scale_arg c || opt_get (eb_options e) BIT_SCALE)%bool.
Proof.
  destruct c; [exact (opt_bits _ _ bit_offset _ bit_scale)|exact (opt_bits _ _ bit_scale _ bit_scale)|exact (opt_bits _ _ bit_min _ bit_scale)|
               exact (opt_bits _ _ bit_max _ bit_scale)|exact (opt_bits _ _ bit_no_data _ bit_scale)].
Qed.
Lemma step_offset_bit e c : opt_get (eb_options (eb_apply e c)) BIT_OFFSET = (is_set offset_arg c || opt_get (eb_options e) BIT_OFFSET)%bool.
Proof.
  destruct c; [exact (opt_bits _ _ bit_offset _ bit_offset)|exact (opt_bits _ _ bit_scale _ bit_offset)|exact (opt_bits _ _ bit_min _ bit_offset)|
               exact (opt_bits _ _ bit_max _ bit_offset)|exact (opt_bits _ _ bit_no_data _ bit_offset)].
Qed.
Lemma step_min_bit e c : opt_get (eb_options (eb_apply e c)) BIT_MIN = (is_set min_arg c || opt_get (eb_options e) BIT_MIN)%bool.
Proof.
  destruct c; [exact (opt_bits _ _ bit_offset _ bit_min)|exact (opt_bits _ _ bit_scale _ bit_min)|exact (opt_bits _ _ bit_min _ bit_min)|
               exact (opt_bits _ _ bit_max _ bit_min)|exact (opt_bits _ _ bit_no_data _ bit_min)].
Qed.
Lemma step_max_bit e c : opt_get (eb_options (eb_apply e c)) BIT_MAX = (is_set max_arg c || opt_get (eb_options e) BIT_MAX)%bool.
Proof.
  destruct c; [exact (opt_bits _ _ bit_offset _ bit_max)|exact (opt_bits _ _ bit_scale _ bit_max)|exact (opt_bits _ _ bit_min _ bit_max)|
               exact (opt_bits _ _ bit_max _ bit_max)|exact (opt_bits _ _ bit_no_data _ bit_max)].
Qed.
Lemma step_no_data_bit e c : opt_get (eb_options (eb_apply e c)) BIT_NO_DATA = (is_set no_data_arg c || opt_get (eb_options e) BIT_NO_DATA)%bool.
Proof.
  destruct c; [exact (opt_bits _ _ bit_offset _ bit_no_data)|exact (opt_bits _ _ bit_scale _ bit_no_data)|exact (opt_bits _ _ bit_min _ bit_no_data)|
               exact (opt_bits _ _ bit_max _ bit_no_data)|exact (opt_bits _ _ bit_no_data _ bit_no_data)].
Qed.

Lemma last_set_snoc which calls c : last_set which (calls ++ [c]) = match which c with Some v => Some v | None => last_set which calls end.
Proof. unfold last_set. rewrite fold_left_app. reflexivity. Qed.
Lemma eb_build_snoc t n d calls c : eb_build t n d (calls ++ [c]) = eb_apply (eb_build t n d calls) c.
Proof. unfold eb_build. rewrite fold_left_app. reflexivity. Qed.

Lemma built_entry t name description calls :
  let e := eb_build t name description calls in
  eb_dt e = t /\ eb_name e = name /\ eb_description e = description
  /\ eb_scale e = or_zeros (last_set scale_arg calls) /\ eb_offset e = or_zeros (last_set offset_arg calls)
  /\ eb_min e = or_zeros (last_set min_arg calls) /\ eb_max e = or_zeros (last_set max_arg calls)
  /\ eb_no_data e = or_zeros (last_set no_data_arg calls)
  /\ opt_get (eb_options e) BIT_SCALE = is_some (last_set scale_arg calls)
  /\ opt_get (eb_options e) BIT_OFFSET = is_some (last_set offset_arg calls)
  /\ opt_get (eb_options e) BIT_MIN = is_some (last_set min_arg calls)
  /\ opt_get (eb_options e) BIT_MAX = is_some (last_set max_arg calls)
  /\ opt_get (eb_options e) BIT_NO_DATA = is_some (last_set no_data_arg calls).
Proof.
  cbv zeta. induction calls as [|c calls IH] using rev_ind.
  - repeat split.
  - rewrite eb_build_snoc. rewrite step_scale_bit, step_offset_bit, step_min_bit, step_max_bit, step_no_data_bit, !last_set_snoc.
    set (e := eb_build t name description calls) in *. clearbody e.
    destruct IH as (A1 & A2 & A3 & A4 & A5 & A6 & A7 & A8 & B1 & B2 & B3 & B4 & B5).
    set (b1 := opt_get (eb_options e) BIT_SCALE) in *. set (b2 := opt_get (eb_options e) BIT_OFFSET) in *.
    set (b3 := opt_get (eb_options e) BIT_MIN) in *. set (b4 := opt_get (eb_options e) BIT_MAX) in *.
    set (b5 := opt_get (eb_options e) BIT_NO_DATA) in *. clearbody b1 b2 b3 b4 b5.
    destruct c; cbn [is_set is_some scale_arg offset_arg min_arg max_arg no_data_arg orb or_zeros]; tauto.
Qed.

Lemma float_accessors_fail e v : eb_is_floating_point (eb_dt e) = true -> as_float e v = Err.
Proof. unfold as_float. destruct (eb_dt e); simpl; intros H; try discriminate; reflexivity. Qed.
Lemma display_panics e :
  eb_is_floating_point (eb_dt e) = true ->
  (opt_get (eb_options e) BIT_MIN || opt_get (eb_options e) BIT_MAX || opt_get (eb_options e) BIT_NO_DATA = true)%bool ->
  eb_display e = Panic.
Proof.
  intros F R. unfold eb_display, show_value. rewrite F, !float_accessors_fail by exact F.
  destruct (opt_get (eb_options e) BIT_MIN), (opt_get (eb_options e) BIT_MAX), (opt_get (eb_options e) BIT_NO_DATA);
  cbn in *; try reflexivity; discriminate.
Qed.
Lemma display_total e : eb_is_floating_point (eb_dt e) = false -> exists s, eb_display e = Ok s.
Proof.
  intros F. unfold eb_display, show_value, as_signed, as_unsigned. rewrite F.
  destruct (eb_is_signed (eb_dt e)) eqn:S, (eb_is_unsigned (eb_dt e)) eqn:U; cbn [negb expect bind];
  destruct (opt_get (eb_options e) BIT_MIN), (opt_get (eb_options e) BIT_MAX), (opt_get (eb_options e) BIT_NO_DATA);
  cbn [negb expect bind]; eexists; reflexivity.
Qed.

(* ---------- file names ---------- *)
Lemma lower_char_iff c d : lower_char c = lower_char d <-> same_letter c d.
Proof.
  split.
  - intros H. unfold same_letter. cbv zeta.
    assert (E : nat_of_ascii (lower_char c) = nat_of_ascii (lower_char d)) by (rewrite H; reflexivity).
    assert (V : forall x, nat_of_ascii (lower_char x) = if Nat.leb 65 (nat_of_ascii x) && Nat.leb (nat_of_ascii x) 90 then nat_of_ascii x + 32 else nat_of_ascii x).
    { intros x. unfold lower_char. destruct (Nat.leb 65 (nat_of_ascii x) && Nat.leb (nat_of_ascii x) 90) eqn:B; [|reflexivity].
      apply nat_ascii_embedding. lia. }
    rewrite !V in E.
    assert (INJ : nat_of_ascii c = nat_of_ascii d -> c = d).
    { intros Q. rewrite <- (ascii_nat_embedding c), <- (ascii_nat_embedding d), Q. reflexivity. }
    destruct (Nat.leb 65 (nat_of_ascii c) && Nat.leb (nat_of_ascii c) 90) eqn:B1,
             (Nat.leb 65 (nat_of_ascii d) && Nat.leb (nat_of_ascii d) 90) eqn:B2; try (left; apply INJ; lia); right; lia.
  - intros [->|[[U E]|[U E]]]; [reflexivity| |]; unfold lower_char; rewrite E;
    repeat match goal with |- context [Nat.leb ?a ?b] => destruct (Nat.leb_spec a b); try lia end; cbn [andb];
    rewrite <- E, ascii_nat_embedding; reflexivity.
Qed.
Lemma to_lowercase_iff s : forall t, to_lowercase s = to_lowercase t <-> same_up_to_case s t.
Proof.
  induction s as [|c s IH]; intros [|d t]; simpl; split; intros H; try discriminate; try tauto.
  - injection H as H1 H2. split; [apply lower_char_iff, H1|apply IH, H2].
  - destruct H as [H1 H2]. f_equal; [apply lower_char_iff, H1|apply IH, H2].
Qed.

Lemma after_last_dot_none s : no_dot s -> after_last_dot s = None.
Proof.
  unfold no_dot. induction s as [|c s IH]; simpl; intros H; [reflexivity|].
  rewrite IH by (intros I; apply H; right; exact I). destruct (Ascii.eqb_spec c "."%char); [exfalso; apply H; left; auto|reflexivity].
Qed.
Lemma after_last_dot_app s e : no_dot e -> after_last_dot (s ++ String "." e) = Some e.
Proof. intros H. induction s as [|c s IH]; simpl; [rewrite (after_last_dot_none e H); reflexivity|]. rewrite IH. reflexivity. Qed.

Lemma extension_named stem ext : stem <> EmptyString -> ext <> EmptyString -> no_dot ext -> extension (named stem ext) = Some ext.
Proof.
  intros S E D. destruct stem as [|c stem]; [contradiction|]. unfold named, extension. cbn [append].
  destruct (String.eqb_spec (String c (stem ++ String "." ext)) "..") as [Q|Q].
  - exfalso. injection Q as _ Q. destruct stem as [|c2 stem]; cbn in Q.
    + injection Q as Q. apply E. exact Q.
    + injection Q as _ Q. destruct stem; discriminate Q.
  - apply after_last_dot_app. exact D.
Qed.

Lemma same_case_refl s : same_up_to_case s s.
Proof. apply to_lowercase_iff. reflexivity. Qed.
Lemma kind_of_named stem ext : stem <> EmptyString -> ext <> EmptyString -> no_dot ext ->
  (same_up_to_case ext "las" \/ same_up_to_case ext "laz" -> get_extension_lookup (named stem ext) = Ok KindLas)
  /\ (same_up_to_case ext "pnts" -> get_extension_lookup (named stem ext) = Ok KindTiles3D)
  /\ (~ same_up_to_case ext "las" -> ~ same_up_to_case ext "laz" -> ~ same_up_to_case ext "pnts" -> get_extension_lookup (named stem ext) = Err).
Proof.
  intros S E D. unfold get_extension_lookup. rewrite (extension_named stem ext S E D). rewrite <- !to_lowercase_iff.
  change (to_lowercase "las") with "las"%string. change (to_lowercase "laz") with "laz"%string. change (to_lowercase "pnts") with "pnts"%string.
  destruct (String.eqb_spec (to_lowercase ext) "las") as [H|H], (String.eqb_spec (to_lowercase ext) "laz") as [H2|H2],
           (String.eqb_spec (to_lowercase ext) "pnts") as [H3|H3]; cbn [orb]; repeat split; intros; try tauto; try congruence;
  destruct H0; congruence.
Qed.
Lemma compressed_of_named stem ext : stem <> EmptyString -> ext <> EmptyString -> no_dot ext ->
  path_is_compressed_las_file (named stem ext) = Ok (String.eqb ext "laz").
Proof. intros S E D. unfold path_is_compressed_las_file. rewrite (extension_named stem ext S E D). reflexivity. Qed.

Lemma built_scale_offset t name description calls :
  let e := eb_build t name description calls in
  eb_get_scale e = last_set scale_arg calls /\ eb_get_offset e = last_set offset_arg calls.
Proof.
  cbv zeta. destruct (built_entry t name description calls) as (_ & _ & _ & A4 & A5 & _ & _ & _ & B1 & B2 & _).
  unfold eb_get_scale, eb_get_offset. rewrite A4, A5, B1, B2.
  destruct (last_set scale_arg calls), (last_set offset_arg calls); split; reflexivity.
Qed.

Lemma integer_accessors e v :
  (eb_is_unsigned (eb_dt e) = true -> as_unsigned e (le_enc 8 v) = Ok (v mod 2 ^ 64)%Z)
  /\ (eb_is_signed (eb_dt e) = true -> (- 2 ^ 63 <= v < 2 ^ 63)%Z -> as_signed e (le_enc 8 v) = Ok v).
Proof.
  unfold as_unsigned, as_signed. change (2 ^ 64)%Z with (256 ^ Z.of_nat 8)%Z. split.
  - intros ->. cbn [negb]. rewrite le_dec_enc. reflexivity.
  - intros -> R. cbn [negb]. rewrite le_dec_enc. f_equal. unfold wrap. change (256 ^ Z.of_nat 8)%Z with (2 ^ 64)%Z.
    rewrite Z.mod_mod by lia. change (64 - 1)%Z with 63%Z. cbv zeta. cbn [andb].
    destruct (Z_lt_dec v 0).
    + replace (v mod 2 ^ 64)%Z with (v + 2 ^ 64)%Z by (rewrite <- (Z.mod_add v 1) by lia; rewrite Z.mod_small by lia; lia).
      destruct (Z.leb_spec (2 ^ 63) (v + 2 ^ 64)); lia.
    + rewrite Z.mod_small by lia. destruct (Z.leb_spec (2 ^ 63) v); lia.
Qed.

Lemma float_entry_ok : entry_ok (eb_new EbF64 (bytes_of "h") []) /\ storable (eb_new EbF64 (bytes_of "h") []).
Proof.
  split; unfold entry_ok, storable, is_byte; cbn.
  - repeat split; try lia; repeat constructor; lia.
  - repeat split; try lia; intros [H|[]]; lia.
Qed.

Lemma no_extension name : no_dot name -> get_extension_lookup name = Err /\ path_is_compressed_las_file name = Err.
Proof.
  intros H. assert (E : extension name = None).
  { destruct name as [|c name]; [reflexivity|]. unfold extension. destruct (String.eqb (String c name) ".."); [reflexivity|].
    apply after_last_dot_none. intros I. apply H. right. exact I. }
  unfold get_extension_lookup, path_is_compressed_las_file. rewrite E. auto.
Qed.
Lemma type_table code : is_byte code -> let t := eb_of_u8 code in
  match extra_bytes_type code with
  | Some (d, n, k) => eb_datatype t = Ok d /\ eb_size t = Some n /\ dt_size d = n
      /\ (eb_is_unsigned t = true <-> k = Unsigned) /\ (eb_is_signed t = true <-> k = Signed) /\ (eb_is_floating_point t = true <-> k = Floating)
  | None => eb_datatype t = Err /\ eb_size t = None /\ eb_is_unsigned t = false /\ eb_is_signed t = false /\ eb_is_floating_point t = false
  end.
Proof.
  intros B t. unfold is_byte in B. destruct (Z_le_gt_dec 11 code) as [H|H].
  - replace (extra_bytes_type code) with (@None (datatype * nat * number_kind)) by (symmetry; apply nth_overflow; cbn; lia).
    assert (T : t = EbDeprecated code \/ t = EbReserved code).
    { unfold t, eb_of_u8. repeat match goal with |- context [(code =? ?k)%Z] => destruct (Z.eqb_spec code k); [lia|] end. destruct (code <=? 30)%Z; auto. }
    destruct T as [-> | ->]; repeat split.
  - assert (C : In code (map Z.of_nat (seq 0 11))) by (apply in_map_iff; exists (Z.to_nat code); split; [lia|apply in_seq; lia]).
    cbn in C. repeat (destruct C as [<-|C]; [cbn; repeat split; congruence|]). contradiction.
Qed.
