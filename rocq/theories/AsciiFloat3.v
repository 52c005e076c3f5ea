(* The round trip of files with floating point columns. *)
From Coq Require Import String Ascii List ZArith QArith Bool Arith Lia SpecFloat Permutation.
From Verif Require Import Base LayoutModel LayoutSpec LayoutProofs BufferModel BufferSpec TraitModel TraitSpec NumModel NumSpec NumProofs NumProofs2 NumProofs3 ConvModel ConvProofs ListLemmas BufferProofs BufferSteps TraitProofs TraitProofs2 LasIoProofs6 AsciiModel AsciiSpec AsciiProofs AsciiProofs2 AsciiProofs3 AsciiProofs4 AsciiProofs5 AsciiProofs6 AsciiProofs7 AsciiFloatSpec AsciiFloat2.
Import ListNotations.
Open Scope nat_scope.

(* ---- splitting, for any set of characters that excludes a character of the delimiter ---- *)

Section Chars.
Variable chars : text.
Notation within := (fun c => In c chars).

Lemma first_other' (d1 e1 u v : text) x y : Forall within d1 -> Forall within e1 -> ~ In x chars -> ~ In y chars -> d1 ++ x :: u = e1 ++ y :: v -> d1 = e1.
Proof.
  intros F1. revert e1. induction F1 as [|c d1 N F1 IH]; intros e1 F2 X Y E.
  - destruct F2 as [|c e1 N F2]; [reflexivity|]. cbn [app] in E. injection E as -> _. tauto.
  - destruct F2 as [|c' e1 N' F2]; cbn [app] in E; injection E as -> E; [tauto|]. f_equal. apply IH; assumption.
Qed.
Lemma first_other_of' d : (exists c, In c d /\ ~ In c chars) -> exists d1 x d2, d = d1 ++ x :: d2 /\ Forall within d1 /\ ~ In x chars.
Proof.
  induction d as [|c d IH]; intros (x & I & N); [destruct I|]. destruct (in_dec Z.eq_dec c chars) as [C|C].
  - destruct I as [->|I]; [tauto|]. destruct (IH (ex_intro _ x (conj I N))) as (d1 & y & d2 & -> & F & Y). exists (c :: d1), y, d2. auto.
  - exists [], c, d. auto.
Qed.
Lemma no_match' d t rest : (exists c, In c d /\ ~ In c chars) -> Forall within t -> t <> [] -> (rest = [] \/ exists r, rest = d ++ r) -> starts_with d (t ++ rest) = false.
Proof.
  intros D F NE R. destruct (starts_with d (t ++ rest)) eqn:S; [|reflexivity]. exfalso. apply starts_with_iff in S. destruct S as [r' E].
  destruct (first_other_of' d D) as (d1 & x & d2 & ED & FD & X). destruct R as [->|[r ->]].
  - rewrite app_nil_r in E. rewrite E, ED in F. rewrite <- app_assoc in F. apply Forall_app in F. destruct F as [_ F]. cbn [app] in F. inversion F. tauto.
  - rewrite ED, <- !app_assoc, <- !app_comm_cons in E. rewrite app_assoc in E.
    assert (Q : t ++ d1 = d1) by (apply (first_other' _ _ _ _ x x) in E; auto; apply Forall_app; auto).
    apply NE. apply length_zero_iff_nil. apply (f_equal (@length Z)) in Q. rewrite app_length in Q. lia.
Qed.
Lemma split_go_field' d rest : (exists c, In c d /\ ~ In c chars) -> (rest = [] \/ exists r, rest = d ++ r) -> forall t cur, Forall within t ->
  split_go d 0 cur (t ++ rest) = split_go d 0 (rev t ++ cur) rest.
Proof.
  intros D R t. induction t as [|c t IH]; intros cur F; [reflexivity|]. inversion F as [|? ? N F']; subst.
  pose proof (no_match' d (c :: t) rest D F ltac:(discriminate) R) as S. cbn [app] in *. cbn [split_go]. rewrite S. rewrite IH by exact F'. cbn [rev]. now rewrite <- app_assoc.
Qed.
Lemma split_join' d ts : (exists c, In c d /\ ~ In c chars) -> ts <> [] -> Forall (Forall within) ts -> split d (join d ts) = ts.
Proof.
  intros D NE F. assert (DN : d <> []) by (destruct D as (c & I & _); destruct d; [destruct I|discriminate]).
  assert (X : split d (join d ts) = split_go d 0 [] (join d ts)) by (unfold split; destruct d; [congruence|reflexivity]). rewrite X. clear X.
  induction F as [|t ts N F IH]; [congruence|]. destruct F as [|t2 ts N2 F].
  - cbn [join]. rewrite <- (app_nil_r t) at 1. rewrite (split_go_field' d [] D (or_introl eq_refl) t [] N). rewrite app_nil_r. cbn [split_go]. now rewrite rev_involutive.
  - change (join d (t :: t2 :: ts)) with (t ++ d ++ join d (t2 :: ts)).
    rewrite (split_go_field' d _ D (or_intror (ex_intro _ _ eq_refl)) t [] N), app_nil_r, (split_go_match d _ _ DN), rev_involutive. f_equal. apply IH. discriminate.
Qed.
End Chars.

Definition float_chars : text := txt "-0123456789.NaNinf".
Notation fchar := (fun c => In c float_chars).
Lemma number_fchar c : number_char c -> In c float_chars.
Proof.
  intros H. assert (X : forallb (fun c => existsb (Z.eqb c) float_chars) (txt "-0123456789") = true) by (vm_compute; reflexivity).
  rewrite forallb_forall in X. specialize (X c H). apply existsb_exists in X. destruct X as (y & Y & E). apply Z.eqb_eq in E. now subst.
Qed.
Lemma number_fchar' c : existsb (Z.eqb c) float_chars = true -> In c float_chars.
Proof. intros H. apply existsb_exists in H. destruct H as (y & Y & E). apply Z.eqb_eq in E. now subst. Qed.
Lemma fchar_check t : forallb (fun c => existsb (Z.eqb c) float_chars) t = true -> Forall fchar t.
Proof.
  intros H. apply Forall_forall. intros c I. rewrite forallb_forall in H. specialize (H c I). apply existsb_exists in H. destruct H as (y & Y & E). apply Z.eqb_eq in E. now subst.
Qed.
Lemma digits_fchar t : Forall is_digit t -> Forall fchar t.
Proof. apply Forall_impl. intros c D. apply number_fchar, digit_number, D. Qed.
Lemma shows_chars prec x t : shows prec false (NFlt x) t -> Forall fchar t.
Proof.
  assert (FQ : (exists q v, decimal_value t = Some q /\ float_Q x = Some v /\ (Qabs.Qabs (q - v) <= (1 # 2) * (1 # Z.to_pos (10 ^ Z.of_nat prec)))%Q
      /\ exists j, (q == inject_Z j * (1 # Z.to_pos (10 ^ Z.of_nat prec)))%Q) -> Forall fchar t).
  { intros (q & v & D & _). destruct (decimal_shape t q D) as (s & i & f & a & -> & _ & FI & FF & _). apply Forall_app. split; [apply fchar_check; destruct s; vm_compute; reflexivity|].
    apply Forall_app. split; [exact (digits_fchar i FI)|]. destruct f as [|d f]; [constructor|]. cbn [fraction_text]. constructor; [exact (number_fchar' (ch ".") eq_refl)|exact (digits_fchar _ FF)]. }
  intros S. destruct x as [s|s| |s m e]; cbn [shows] in S; try exact (FQ S).
  - subst t. apply fchar_check. destruct s; vm_compute; reflexivity.
  - subst t. apply fchar_check. vm_compute. reflexivity.
Qed.

Lemma float_letter format c a o pr flag : only "sxyzirntpRGBedaI" format -> In c format -> meaning_of c = Some (Field a o pr flag) -> (integer_prim pr /\ (flag = true -> pr = PU8)) \/ (pr = PF64 /\ flag = false).
Proof.
  intros O I M. assert (H : forallb (fun c => match meaning_of c with Some (Field _ _ pr flag) => ((match pr with PU8 | PU16 | PI8 => true | _ => false end) && (negb flag || match pr with PU8 => true | _ => false end))
      || ((match pr with PF64 => true | _ => false end) && negb flag) | _ => true end) (txt "sxyzirntpRGBedaI") = true) by (vm_compute; reflexivity).
  rewrite forallb_forall in H. specialize (H c (O c I)). rewrite M in H. apply orb_true_iff in H. destruct H as [H|H]; apply andb_true_iff in H; destruct H as [H1 H2].
  - left. split; [destruct pr; try discriminate H1; unfold integer_prim; cbn [In]; tauto|]. intros ->. destruct pr; try discriminate H2; reflexivity.
  - right. destruct pr; try discriminate H1. destruct flag; [discriminate H2|auto].
Qed.

Lemma f64_bytes_valid bs : memory_of PF64 bs -> exists x, dec_num PF64 bs = NFlt x /\ valid_binary 53 1024 x = true.
Proof.
  intros M. pose proof (memory_range _ _ M) as R. eexists. split; [reflexivity|]. apply (float_of_bits_valid 53 1024 11); [lia|lia|reflexivity|exact R].
Qed.
Lemma f64_stored y : valid_binary 53 1024 y = true -> dec_num PF64 (enc_num PF64 (NFlt y)) = NFlt y.
Proof.
  intros V. destruct y as [s|s| |s m e]; [| |vm_compute; reflexivity|]; apply (proj1 (dec_enc_float PF64 53 1024 _ eq_refl V ltac:(discriminate))).
Qed.

Lemma column_back_f format l p prec c t : good_layout l -> length p = l_size l -> is_bytes p -> only "sxyzirntpRGBedaI" format -> In c format -> flags_ok format l p -> column_shows prec l p c t ->
  Forall fchar t /\ forall a o pr flag, meaning_of c = Some (Field a o pr flag) -> exists v bs, field_number pr flag t = Some v /\ field_bytes l p a o pr = Some bs /\ read_back prec (dec_num pr bs) (dec_num pr (enc_num pr v)).
Proof.
  intros G L B O I FL S. unfold column_shows in S. destruct (meaning_of c) as [[|a o pr flag]|] eqn:M; [subst t; split; [constructor|discriminate]| |destruct S].
  destruct S as (bs & FB & S).
  assert (MEM : memory_of pr bs).
  { unfold field_bytes in FB. destruct (member_of l a) as [m|] eqn:MO; [|discriminate FB]. injection FB as <-. destruct (member_size l a m G MO) as (S1 & _ & S2). destruct (meaning_ok _ _ _ _ _ M) as [FO _].
    assert (LV : length (attr_value m p) = m_size m) by (unfold attr_value; apply length_sub; lia).
    split; [|apply length_sub; lia]. apply bytes_sub, bytes_sub. exact B. }
  destruct (float_letter _ _ _ _ _ _ O I M) as [[IP FP]|[-> ->]].
  - assert (KI : exists s, kind pr = KInt s) by (destruct IP as [<-|[<-|[<-|[]]]]; eexists; reflexivity). destruct KI as [s KI].
    assert (ED : enc_num pr (dec_num pr bs) = bs).
    { apply enc_dec; [exact MEM|]. unfold is_nan. rewrite KI. tauto. }
    rewrite (int_of_dec pr s bs KI) in S, ED.
    assert (X : Forall number_char t /\ field_number pr flag t = Some (NInt (int_of pr bs))).
    { cbn [shows] in S. destruct flag.
      - specialize (FP eq_refl). subst pr. specialize (FL c a o PU8 bs I M FB). destruct FL as [->| ->]; vm_compute in S; subst t; (split; [repeat constructor; vm_compute; tauto|vm_compute; reflexivity]).
      - split; [exact (integer_number _ _ S)|]. apply field_of_text; [exact IP| |exact S]. unfold prim_range. rewrite KI. apply (int_of_range pr s bs KI). }
    destruct X as [X1 X2]. split; [exact (Forall_impl _ number_fchar X1)|]. intros a' o' pr' flag' E. injection E as <- <- <- <-. exists (NInt (int_of pr bs)), bs. split; [exact X2|]. split; [exact FB|].
    rewrite ED, (int_of_dec pr s bs KI). reflexivity.
  - destruct (f64_bytes_valid bs MEM) as (x & DX & VX). rewrite DX in S. split; [exact (shows_chars _ _ _ S)|]. intros a' o' pr' flag' E. injection E as <- <- <- <-.
    destruct (read_float prec x t VX S) as (y & P & VY & R). exists (NFlt y), bs. split; [cbn [field_number]; rewrite P; reflexivity|]. split; [exact FB|]. rewrite DX, (f64_stored y VY). exact R.
Qed.

Lemma line_back_f format l p prec d line : good_layout l -> length p = l_size l -> is_bytes p -> only "sxyzirntpRGBedaI" format -> flags_ok format l p -> float_delimiter d -> point_line prec l format d p line ->
  (~ In 10%Z line /\ ~ In 13%Z line) /\ good_line format d line
  /\ forall l2 q, line_point l2 format d line q -> columns_read_back prec format l p l2 q.
Proof.
  intros G L B O FL GD (ts & -> & F).
  assert (N : Forall (Forall fchar) ts).
  { clear GD. assert (X : forall f us, (forall c, In c f -> In c format) -> Forall2 (column_shows prec l p) f us -> Forall (Forall fchar) us).
    { intros f us IN F'. induction F' as [|c t f ts' S F' IH]; constructor.
      - exact (proj1 (column_back_f format l p prec c t G L B O (IN c (or_introl eq_refl)) FL S)).
      - apply IH. intros x X. apply IN. now right. }
    apply (X format); auto. }
  assert (NN : forall x, In x float_chars -> x <> 10%Z /\ x <> 13%Z).
  { intros x X. assert (H : forallb (fun x => negb (Z.eqb x 10) && negb (Z.eqb x 13)) float_chars = true) by (vm_compute; reflexivity). rewrite forallb_forall in H. specialize (H x X).
    apply andb_true_iff in H. destruct H as [H1 H2]. split; intros ->; discriminate. }
  rewrite Forall_forall in N. assert (NF : forall t, In t ts -> Forall fchar t) by exact N.
  split.
  { destruct GD as (_ & D1 & D2). split; intros I; apply in_join in I; (destruct I as [I|(t & T & I)]; [contradiction|]); specialize (N t T); rewrite Forall_forall in N; destruct (NN _ (N _ I)); congruence. }
  assert (LT : length format = length ts) by exact (Forall2_len _ _ _ F).
  assert (SJ : ts <> [] -> split d (join d ts) = ts) by (intros NE; apply (split_join' float_chars); [exact (proj1 GD)|exact NE|apply Forall_forall; exact NF]).
  assert (SP : forall k t, nth_error (split d (join d ts)) k = Some t -> k < length format -> nth_error ts k = Some t).
  { intros k t E K. rewrite SJ in E; [exact E|]. intros ->. cbn [length] in LT. lia. }
  split.
  - split.
    + destruct ts as [|t0 ts0] eqn:T; [rewrite LT; cbn [length]; lia|]. rewrite SJ; [lia|discriminate].
    + intros k c a o pr flag t E M ET. pose proof (SP k t ET (nth_error_lt _ _ _ E)) as ET'. pose proof (Forall2_nth2 _ _ _ F _ _ _ E ET') as S.
      destruct (column_back_f format l p prec c t G L B O (nth_error_In _ _ E) FL S) as [_ X]. destruct (X _ _ _ _ M) as (v & bs & -> & _). discriminate.
  - intros l2 q (Lq & A & _) c a o pr flag bs I M FB. destruct (last_occurrence c format I) as (k & E & NL). destruct (A k c a o pr flag bs E NL M FB) as (t & v & ET & V & ->).
    pose proof (SP k t ET (nth_error_lt _ _ _ E)) as ET'. pose proof (Forall2_nth2 _ _ _ F _ _ _ E ET') as S.
    destruct (column_back_f format l p prec c t G L B O (nth_error_In _ _ E) FL S) as [_ X]. destruct (X _ _ _ _ M) as (v' & bs' & V' & FB' & R). rewrite V in V'. injection V' as <-. exists bs'. auto.
Qed.

Lemma round_trip_f chunk order format prec d w0 pts b : 0 < chunk -> (forall l, Permutation (order l) l) -> ascii_writer_new format = Ok w0 -> only "sxyzirntpRGBedaI" format -> 0 < prec -> float_delimiter d ->
  bf_wf pts -> has_fields (bf_layout pts) format -> (forall p, In p (bf_points pts) -> is_bytes p /\ flags_ok format (bf_layout pts) p) ->
  mb_wf b -> bf_len pts <= mb_len b ->
  exists w r b' r' read, ascii_write chunk (set_precision (set_delimiter w0 d) prec) pts = Ok w /\ length (lines_of (aw_out w)) = bf_len pts
   /\ ascii_reader_new order (aw_out w) format d = Ok r
   /\ ascii_read_into r b (bf_len pts) = Ok (b', r', bf_len pts) /\ mb_layout b' = mb_layout b
   /\ mb_points b' = read ++ skipn (bf_len pts) (mb_points b)
   /\ Forall2 (fun p q => columns_read_back prec format (bf_layout pts) p (mb_layout b) q) (bf_points pts) read.
Proof.
  intros C PO WN O PP GD W HF PB WB LB. destruct (writer_new _ _ WN) as (F & OUT & _ & PR).
  assert (R : reachable chunk format (set_precision (set_delimiter w0 d) prec)) by (exists w0, [SetDelimiter d; SetPrecision prec]; split; [exact WN|reflexivity]).
  destruct (write_ok_lines chunk format (set_precision (set_delimiter w0 d) prec) pts C R W O) as (w & lines & E & OW & _ & _ & _ & FL).
  { cbn [set_precision aw_precision]. lia. }
  { exact HF. }
  cbn [set_precision set_delimiter aw_out aw_precision aw_delimiter] in *. rewrite OUT in OW. cbn [app] in OW. destruct (bf_points_uniform pts W) as [U LU].
  assert (G : good_layout (bf_layout pts)) by (destruct (bf_wf_root pts W) as (_ & _ & _ & G); exact G).
  assert (LL : Forall2 (fun p line => (~ In 10%Z line /\ ~ In 13%Z line) /\ good_line format d line /\ forall l2 q, line_point l2 format d line q -> columns_read_back prec format (bf_layout pts) p l2 q) (bf_points pts) lines).
  { unfold uniform in U. rewrite Forall_forall in U. clear LU E OW. revert U PB. induction FL as [|p line ps lines PL FL IH]; intros U PB; constructor.
    - destruct (PB p (or_introl eq_refl)) as [P1 P2]. apply (line_back_f format _ p _ d line G (U p (or_introl eq_refl)) P1 O P2 GD PL).
    - apply IH; [intros x X; apply U; right; exact X|intros x X; apply PB; right; exact X]. }
  assert (LO : lines_of (aw_out w) = lines).
  { rewrite OW. rewrite <- (app_nil_r (concat _)). rewrite lines_terminated; [apply app_nil_r|]. clear - LL. induction LL as [|p line ps lines H F IH]; constructor; [exact (proj1 H)|exact IH]. }
  assert (LE : length lines = bf_len pts) by (rewrite <- LU; symmetry; exact (Forall2_len _ _ _ LL)).
  destruct (proj2 (reader_created order (aw_out w) format d PO) (proj1 (writer_created format) (ex_intro _ _ WN))) as [r RN].
  destruct (read_into_ok order (aw_out w) format d r b (bf_len pts) RN WB) as (b' & r' & rest & ps & E2 & _ & _ & W' & L' & P' & LP).
  { rewrite firstn_length. lia. }
  { rewrite LO, firstn_all2 by lia. clear - LL. induction LL as [|p line ps lines H F IH]; constructor; [exact (proj1 (proj2 H))|exact IH]. }
  exists w, r, b', r', ps. split; [exact E|]. split; [rewrite LO; exact LE|]. split; [exact RN|]. split; [exact E2|]. split; [exact L'|]. rewrite LO, firstn_all2 in LP by lia. pose proof (Forall2_len _ _ _ LP) as LE2. split; [rewrite P'; f_equal; f_equal; lia|].
  clear - LL LP. revert ps LP. induction LL as [|p line ps0 lines H F IH]; intros ps LP; inversion LP as [|? q ? qs Q1 Q2]; subst; constructor; [|apply IH; exact Q2].
  destruct H as (_ & _ & H). apply H. exact Q1.
Qed.
