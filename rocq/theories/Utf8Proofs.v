(* UTF-8: the decoding functions of the model and the definition by encoding. *)
From Coq Require Import List ZArith Lia Bool Arith ZifyBool.
From Verif Require Import Base ListLemmas LasModel LasProofs2 Utf8Spec.
Import ListNotations.
Open Scope Z_scope.

Lemma valid_char c rest : scalar c -> utf8_valid (utf8_char c ++ rest) = utf8_valid rest.
Proof.
  intros (R & S). unfold utf8_char.
  pose proof (Z.div_mod c 64 ltac:(lia)). pose proof (Z.mod_pos_bound c 64 ltac:(lia)).
  pose proof (Z.div_mod (c / 64) 64 ltac:(lia)). pose proof (Z.mod_pos_bound (c / 64) 64 ltac:(lia)).
  assert (E1 : c / 4096 = c / 64 / 64) by (rewrite Z.div_div by lia; reflexivity).
  pose proof (Z.div_mod (c / 4096) 64 ltac:(lia)). pose proof (Z.mod_pos_bound (c / 4096) 64 ltac:(lia)).
  assert (E2 : c / 262144 = c / 4096 / 64) by (rewrite Z.div_div by lia; reflexivity).
  set (q1 := c / 64) in *. set (q2 := c / 4096) in *. set (q3 := c / 262144) in *. set (r0 := c mod 64) in *. set (r1 := q1 mod 64) in *. set (r2 := q2 mod 64) in *.
  destruct (Z.ltb_spec c 0x80); [cbn [app utf8_valid]; unfold in_range; replace ((0 <=? c) && (c <=? 127)) with true by lia; reflexivity|].
  destruct (Z.ltb_spec c 0x800).
  { cbn [app utf8_valid]; unfold in_range. replace ((0 <=? 0xC0 + q1) && (0xC0 + q1 <=? 127)) with false by lia. replace ((194 <=? 0xC0 + q1) && (0xC0 + q1 <=? 223)) with true by lia.
    replace ((128 <=? 0x80 + r0) && (0x80 + r0 <=? 191)) with true by lia. reflexivity. }
  destruct (Z.ltb_spec c 0x10000).
  { cbn [app utf8_valid]; unfold in_range. replace ((0 <=? 0xE0 + q2) && (0xE0 + q2 <=? 127)) with false by lia. replace ((194 <=? 0xE0 + q2) && (0xE0 + q2 <=? 223)) with false by lia.
    replace ((224 <=? 0xE0 + q2) && (0xE0 + q2 <=? 239)) with true by lia. replace ((128 <=? 0x80 + r0) && (0x80 + r0 <=? 191)) with true by lia.
    destruct (Z.eqb_spec (0xE0 + q2) 224), (Z.eqb_spec (0xE0 + q2) 237); match goal with |- (?b && true && ?x)%bool = ?y => replace b with true by lia; reflexivity end. }
  cbn [app utf8_valid]; unfold in_range. replace ((0 <=? 0xF0 + q3) && (0xF0 + q3 <=? 127)) with false by lia. replace ((194 <=? 0xF0 + q3) && (0xF0 + q3 <=? 223)) with false by lia.
  replace ((224 <=? 0xF0 + q3) && (0xF0 + q3 <=? 239)) with false by lia. replace ((240 <=? 0xF0 + q3) && (0xF0 + q3 <=? 244)) with true by lia.
  replace ((128 <=? 0x80 + r0) && (0x80 + r0 <=? 191)) with true by lia. replace ((128 <=? 0x80 + r1) && (0x80 + r1 <=? 191)) with true by lia.
  destruct (Z.eqb_spec (0xF0 + q3) 240), (Z.eqb_spec (0xF0 + q3) 244); match goal with |- (?b && true && true && ?x)%bool = ?y => replace b with true by lia; reflexivity end.
Qed.

Lemma text_cons c bs : scalar c -> utf8_text bs -> utf8_text (utf8_char c ++ bs).
Proof. intros S (cs & F & ->). exists (c :: cs). split; [now constructor|reflexivity]. Qed.
Lemma valid_text bs : utf8_valid bs = true -> utf8_text bs.
Proof.
  revert bs. apply (length_ind (fun bs => utf8_valid bs = true -> utf8_text bs)). intros bs IH V. destruct bs as [|b s]; [exists []; split; [constructor|reflexivity]|].
  cbn [utf8_valid] in V. unfold in_range in V. destruct ((0 <=? b) && (b <=? 127)) eqn:R1.
  { replace (b :: s) with (utf8_char b ++ s) by (unfold utf8_char; destruct (Z.ltb_spec b 0x80); [reflexivity|lia]). apply text_cons; [unfold scalar; lia|]. apply IH; [cbn; lia|exact V]. }
  destruct ((194 <=? b) && (b <=? 223)) eqn:R2.
  { destruct s as [|c s]; [discriminate|]. apply andb_true_iff in V. destruct V as (C & V). set (u := (b - 0xC0) * 64 + (c - 0x80)).
    assert (D : u / 64 = b - 0xC0 /\ u mod 64 = c - 0x80) by (split; [symmetry; apply (Z.div_unique u 64 _ (c - 0x80))|symmetry; apply (Z.mod_unique u 64 (b - 0xC0))]; unfold u; lia).
    replace (b :: c :: s) with (utf8_char u ++ s).
    - apply text_cons; [unfold scalar, u; lia|]. apply IH; [cbn; lia|exact V].
    - unfold utf8_char. destruct (Z.ltb_spec u 0x80); [unfold u in *; lia|]. destruct (Z.ltb_spec u 0x800); [|unfold u in *; lia]. destruct D as (-> & ->). cbn [app]. repeat f_equal; lia. }
  destruct ((224 <=? b) && (b <=? 239)) eqn:R3.
  { destruct s as [|c [|d s]]; try discriminate. apply andb_true_iff in V. destruct V as (V & W). apply andb_true_iff in V. destruct V as (C & D).
    set (u := (b - 0xE0) * 4096 + (c - 0x80) * 64 + (d - 0x80)).
    assert (C2 : 128 <= c <= 191) by (destruct (Z.eqb b 224), (Z.eqb b 237); lia).
    assert (Q : u / 64 = (b - 0xE0) * 64 + (c - 0x80) /\ u mod 64 = d - 0x80) by (split; [symmetry; apply (Z.div_unique u 64 _ (d - 0x80))|symmetry; apply (Z.mod_unique u 64 ((b - 0xE0) * 64 + (c - 0x80)))]; unfold u; lia).
    assert (Q2 : u / 4096 = b - 0xE0 /\ u / 64 mod 64 = c - 0x80).
    { rewrite (proj1 Q). split; [symmetry; apply (Z.div_unique u 4096 _ ((c - 0x80) * 64 + (d - 0x80))); unfold u; lia|symmetry; apply (Z.mod_unique _ 64 (b - 0xE0)); lia]. }
    assert (U : 0x800 <= u < 0x10000 /\ ~ (0xD800 <= u <= 0xDFFF)) by (unfold u; destruct (Z.eqb_spec b 224), (Z.eqb_spec b 237); lia).
    replace (b :: c :: d :: s) with (utf8_char u ++ s).
    - apply text_cons; [unfold scalar; lia|]. apply IH; [cbn; lia|exact W].
    - unfold utf8_char. destruct (Z.ltb_spec u 0x80); [lia|]. destruct (Z.ltb_spec u 0x800); [lia|]. destruct (Z.ltb_spec u 0x10000); [|lia].
      rewrite (proj1 Q2), (proj2 Q2), (proj2 Q). cbn [app]. repeat f_equal; lia. }
  destruct ((240 <=? b) && (b <=? 244)) eqn:R4; [|discriminate]. destruct s as [|c [|d [|e s]]]; try discriminate.
  apply andb_true_iff in V. destruct V as (V & W). apply andb_true_iff in V. destruct V as (V & E). apply andb_true_iff in V. destruct V as (C & D).
  set (u := (b - 0xF0) * 262144 + (c - 0x80) * 4096 + (d - 0x80) * 64 + (e - 0x80)).
  assert (C2 : 128 <= c <= 191) by (destruct (Z.eqb b 240), (Z.eqb b 244); lia).
  assert (Q0 : u mod 64 = e - 0x80) by (symmetry; apply (Z.mod_unique u 64 ((b - 0xF0) * 4096 + (c - 0x80) * 64 + (d - 0x80))); unfold u; lia).
  assert (Q1 : u / 64 = (b - 0xF0) * 4096 + (c - 0x80) * 64 + (d - 0x80)) by (symmetry; apply (Z.div_unique u 64 _ (e - 0x80)); unfold u; lia).
  assert (Q2 : u / 4096 = (b - 0xF0) * 64 + (c - 0x80)) by (symmetry; apply (Z.div_unique u 4096 _ ((d - 0x80) * 64 + (e - 0x80))); unfold u; lia).
  assert (Q3 : u / 262144 = b - 0xF0) by (symmetry; apply (Z.div_unique u 262144 _ ((c - 0x80) * 4096 + (d - 0x80) * 64 + (e - 0x80))); unfold u; lia).
  assert (Q4 : u / 64 mod 64 = d - 0x80) by (rewrite Q1; symmetry; apply (Z.mod_unique _ 64 ((b - 0xF0) * 64 + (c - 0x80))); lia).
  assert (Q5 : u / 4096 mod 64 = c - 0x80) by (rewrite Q2; symmetry; apply (Z.mod_unique _ 64 (b - 0xF0)); lia).
  assert (U : 0x10000 <= u <= 0x10FFFF) by (unfold u; destruct (Z.eqb_spec b 240), (Z.eqb_spec b 244); lia).
  replace (b :: c :: d :: e :: s) with (utf8_char u ++ s).
  - apply text_cons; [unfold scalar; lia|]. apply IH; [cbn; lia|exact W].
  - unfold utf8_char. destruct (Z.ltb_spec u 0x80); [lia|]. destruct (Z.ltb_spec u 0x800); [lia|]. destruct (Z.ltb_spec u 0x10000); [lia|].
    rewrite Q3, Q5, Q4, Q0. cbn [app]. repeat f_equal; lia.
Qed.
Lemma text_valid bs : utf8_text bs -> utf8_valid bs = true.
Proof. intros (cs & F & ->). induction F as [|c cs S F IH]; [reflexivity|]. cbn [flat_map]. now rewrite valid_char. Qed.
Lemma utf8_iff bs : utf8_valid bs = true <-> utf8_text bs.
Proof. split; [apply valid_text|apply text_valid]. Qed.
Lemma from_utf8_iff bs : from_utf8 bs = Ok bs <-> utf8_text bs.
Proof. rewrite <- utf8_iff. unfold from_utf8. destruct (utf8_valid bs); split; congruence. Qed.


(* ---- bytes that need not be UTF-8 ---- *)
Definition second3 (b c : Z) : bool := in_range (if Z.eqb b 224 then 160 else 128) (if Z.eqb b 237 then 159 else 191) c.
Definition second4 (b c : Z) : bool := in_range (if Z.eqb b 240 then 144 else 128) (if Z.eqb b 244 then 143 else 191) c.
Definition cont (c : Z) : bool := in_range 128 191 c.
Inductive shape : list Z -> Prop :=
| shape1 b : in_range 0 127 b = true -> shape [b]
| shape2 b c : in_range 194 223 b = true -> cont c = true -> shape [b; c]
| shape3 b c d : in_range 224 239 b = true -> second3 b c = true -> cont d = true -> shape [b; c; d]
| shape4 b c d e : in_range 240 244 b = true -> second4 b c = true -> cont d = true -> cont e = true -> shape [b; c; d; e].
Lemma first_range b : in_range 0 127 b = true /\ in_range 194 223 b = false /\ in_range 224 239 b = false /\ in_range 240 244 b = false
  \/ in_range 0 127 b = false /\ in_range 194 223 b = true /\ in_range 224 239 b = false /\ in_range 240 244 b = false
  \/ in_range 0 127 b = false /\ in_range 194 223 b = false /\ in_range 224 239 b = true /\ in_range 240 244 b = false
  \/ in_range 0 127 b = false /\ in_range 194 223 b = false /\ in_range 224 239 b = false /\ in_range 240 244 b = true
  \/ in_range 0 127 b = false /\ in_range 194 223 b = false /\ in_range 224 239 b = false /\ in_range 240 244 b = false.
Proof. unfold in_range. lia. Qed.
Lemma char_shape c : scalar c -> shape (utf8_char c).
Proof.
  intros S. pose proof (valid_char c [] S) as V. rewrite app_nil_r in V. change (utf8_valid []) with true in V. revert V. unfold utf8_char. destruct S as (R & _).
  pose proof (Z.div_pos c 64). pose proof (Z.div_pos c 4096). pose proof (Z.div_pos c 262144).
  destruct (Z.ltb_spec c 0x80); [intros _; constructor; unfold in_range; lia|]. destruct (Z.ltb_spec c 0x800); [|destruct (Z.ltb_spec c 0x10000)].
  - assert (B : 0 < c / 64 < 32) by (split; [apply Z.div_str_pos; lia|apply Z.div_lt_upper_bound; lia]). cbn [utf8_valid].
    replace (in_range 0 127 (0xC0 + c / 64)) with false by (unfold in_range; lia). destruct (in_range 194 223 (0xC0 + c / 64)) eqn:Q; intros V.
    + rewrite andb_true_r in V. now constructor.
    + replace (in_range 224 239 (0xC0 + c / 64)) with false in V by (unfold in_range; lia). replace (in_range 240 244 (0xC0 + c / 64)) with false in V by (unfold in_range; lia). discriminate.
  - assert (B : c / 4096 < 16) by (apply Z.div_lt_upper_bound; lia). cbn [utf8_valid].
    replace (in_range 0 127 (0xE0 + c / 4096)) with false by (unfold in_range; lia). replace (in_range 194 223 (0xE0 + c / 4096)) with false by (unfold in_range; lia).
    destruct (in_range 224 239 (0xE0 + c / 4096)) eqn:Q; intros V; [|unfold in_range in Q; lia]. rewrite andb_true_r in V. apply andb_true_iff in V. now constructor.
  - assert (B : c / 262144 < 5) by (apply Z.div_lt_upper_bound; lia). cbn [utf8_valid].
    replace (in_range 0 127 (0xF0 + c / 262144)) with false by (unfold in_range; lia). replace (in_range 194 223 (0xF0 + c / 262144)) with false by (unfold in_range; lia).
    replace (in_range 224 239 (0xF0 + c / 262144)) with false by (unfold in_range; lia). destruct (in_range 240 244 (0xF0 + c / 262144)) eqn:Q; intros V; [|unfold in_range in Q; lia].
    rewrite andb_true_r in V. apply andb_true_iff in V. destruct V as (V & E). apply andb_true_iff in V. now constructor.
Qed.
Ltac first_byte b := destruct (first_range b) as [(?F1 & ?F2 & ?F3 & ?F4)|[(?F1 & ?F2 & ?F3 & ?F4)|[(?F1 & ?F2 & ?F3 & ?F4)|[(?F1 & ?F2 & ?F3 & ?F4)|(?F1 & ?F2 & ?F3 & ?F4)]]]].
(* two shapes of which one continues the other are the same *)
Lemma shape_unique a b s t : shape a -> shape b -> a ++ s = b ++ t -> a = b /\ s = t.
Proof.
  intros A B. destruct A as [x|x x1|x x1 x2|x x1 x2 x3]; destruct B as [y|y y1|y y1 y2|y y1 y2 y3]; cbn [app]; intros E; injection E; intros; subst; first_byte y; try congruence; auto.
Qed.
Lemma shape_valid a : shape a -> utf8_valid a = true.
Proof.
  intros A. destruct A as [x F|x c F C|x c d F C D|x c d e F C D E]; cbn [utf8_valid]; first_byte x; try congruence; rewrite ?F1, ?F2, ?F3, ?F4; try reflexivity.
  - unfold cont in C. now rewrite C.
  - unfold second3 in C. unfold cont in D. now rewrite C, D.
  - unfold second4 in C. unfold cont in D, E. now rewrite C, D, E.
Qed.
Lemma shape_char a : shape a -> exists c, scalar c /\ utf8_char c = a.
Proof.
  intros A. destruct (valid_text _ (shape_valid a A)) as (cs & F & E). destruct F as [|c cs S F]; [destruct A; discriminate|]. cbn [flat_map] in E.
  exists c. split; [exact S|]. rewrite <- (app_nil_r a) in E. destruct (shape_unique _ _ _ _ A (char_shape c S) E) as (Q & _). now symmetry.
Qed.
Lemma begins_shape bs : begins_char bs <-> exists rest, shape (bs ++ rest).
Proof.
  split.
  - intros (c & rest & S & E). exists rest. rewrite <- E. now apply char_shape.
  - intros (rest & A). destruct (shape_char _ A) as (c & S & E). now exists c, rest.
Qed.
Lemma lossy_shape a bs text : shape a -> lossy_text bs text -> lossy_text (a ++ bs) (a ++ text).
Proof. intros A L. destruct (shape_char a A) as (c & S & <-). now constructor. Qed.
Lemma lossy_part part bs text : part <> [] -> (length part = 1%nat \/ exists rest, shape (part ++ rest)) -> (forall a rest, shape a -> part ++ bs <> a ++ rest) ->
  (forall x rest r, bs = x :: rest -> ~ shape (part ++ x :: r)) -> lossy_text bs text -> lossy_text (part ++ bs) (replacement ++ text).
Proof.
  intros N P A M L. change replacement with (utf8_char 0xFFFD). apply lossy_bad; auto.
  - destruct P as [P|P]; [now left|]. right. now apply begins_shape.
  - intros c rest S. apply A. now apply char_shape.
  - intros x rest E B. apply begins_shape in B. destruct B as (r & B). rewrite <- app_assoc in B. exact (M x rest r E B).
Qed.
(* one byte that begins no character, or whose character is not continued *)
Lemma lossy_byte b bs text : (forall r, ~ shape (b :: r)) \/ (in_range 0 127 b = false /\ forall x rest r, bs = x :: rest -> ~ shape (b :: x :: r)) -> lossy_text bs text -> lossy_text (b :: bs) (replacement ++ text).
Proof.
  intros H L. apply (lossy_part [b] bs text); [discriminate|now left| | |exact L].
  - intros a rest A E. cbn [app] in E. destruct H as [H|(Z & H)].
    + pose proof A as A'. destruct A; injection E as <- E; exact (H _ A').
    + pose proof A as A'. destruct A as [x F|x c F C|x c d F C D|x c d e F C D E']; injection E as <- E; [congruence| | |]; exact (H _ _ _ E A').
  - intros x rest r -> A. cbn [app] in A. destruct H as [H|(Z & H)]; [exact (H _ A)|exact (H _ _ _ eq_refl A)].
Qed.
Ltac no_shape := intros; let A := fresh in intros A; inversion A; subst; unfold cont, second3, second4 in *; congruence.
Lemma lossy_ok bs : lossy_text bs (from_utf8_lossy bs).
Proof.
  revert bs. apply length_ind. intros bs IH. destruct bs as [|b t]; [constructor|]. cbn [from_utf8_lossy]. first_byte b; rewrite ?F1, ?F2, ?F3, ?F4.
  - apply (lossy_shape [b] t); [now constructor|]. apply IH. cbn. lia.
  - destruct t as [|c u].
    + rewrite <- (app_nil_r replacement). apply lossy_byte; [right; split; [exact F1|discriminate]|constructor].
    + destruct (in_range 128 191 c) eqn:C.
      * apply (lossy_shape [b; c] u); [now constructor|]. apply IH. cbn. lia.
      * apply lossy_byte; [|apply IH; cbn; lia]. right. split; [exact F1|]. intros x rest r Q. injection Q as <- <-. no_shape.
  - destruct t as [|c u].
    + rewrite <- (app_nil_r replacement). apply lossy_byte; [right; split; [exact F1|discriminate]|constructor].
    + fold (second3 b c). destruct (second3 b c) eqn:C.
      * assert (B : exists rest, shape ([b; c] ++ rest)) by (exists [128]; now constructor). destruct u as [|d w].
        { rewrite <- (app_nil_r replacement). apply (lossy_part [b; c] []); [discriminate|now right| |discriminate|constructor].
          intros a rest A E. cbn [app] in E. destruct A; injection E as <- E; try congruence; try discriminate. }
        destruct (in_range 128 191 d) eqn:D.
        { apply (lossy_shape [b; c; d] w); [now constructor|]. apply IH. cbn. lia. }
        apply (lossy_part [b; c] (d :: w)); [discriminate|now right| | |apply IH; cbn; lia].
        { intros a rest A E. cbn [app] in E. destruct A; injection E as <- E; unfold cont in *; congruence. }
        { intros x rest r Q. injection Q as <- <-. cbn [app]. no_shape. }
      * apply lossy_byte; [|apply IH; cbn; lia]. right. split; [exact F1|]. intros x rest r Q. injection Q as <- <-. no_shape.
  - destruct t as [|c u].
    + rewrite <- (app_nil_r replacement). apply lossy_byte; [right; split; [exact F1|discriminate]|constructor].
    + fold (second4 b c). destruct (second4 b c) eqn:C.
      * assert (B : exists rest, shape ([b; c] ++ rest)) by (exists [128; 128]; now constructor). destruct u as [|d w].
        { rewrite <- (app_nil_r replacement). apply (lossy_part [b; c] []); [discriminate|now right| |discriminate|constructor].
          intros a rest A E. cbn [app] in E. destruct A; injection E as <- E; try congruence; try discriminate. }
        destruct (in_range 128 191 d) eqn:D.
        { assert (B' : exists rest, shape ([b; c; d] ++ rest)) by (exists [128]; now constructor). destruct w as [|e y].
          { rewrite <- (app_nil_r replacement). apply (lossy_part [b; c; d] []); [discriminate|now right| |discriminate|constructor].
            intros a rest A E. cbn [app] in E. destruct A; injection E as <- E; try congruence; try discriminate. }
          destruct (in_range 128 191 e) eqn:G.
          { apply (lossy_shape [b; c; d; e] y); [now constructor|]. apply IH. cbn. lia. }
          apply (lossy_part [b; c; d] (e :: y)); [discriminate|now right| | |apply IH; cbn; lia].
          { intros a rest A E. cbn [app] in E. destruct A; injection E as <- E; unfold cont in *; congruence. }
          { intros x rest r Q. injection Q as <- <-. cbn [app]. no_shape. } }
        apply (lossy_part [b; c] (d :: w)); [discriminate|now right| | |apply IH; cbn; lia].
        { intros a rest A E. cbn [app] in E. destruct A; injection E as <- E; unfold cont in *; congruence. }
        { intros x rest r Q. injection Q as <- <-. cbn [app]. no_shape. }
      * apply lossy_byte; [|apply IH; cbn; lia]. right. split; [exact F1|]. intros x rest r Q. injection Q as <- <-. no_shape.
  - apply lossy_byte; [|apply IH; cbn; lia]. left. no_shape.
Qed.
(* the text is determined, UTF-8, and the bytes themselves if these are UTF-8 *)
Lemma lossy_fun bs t1 : lossy_text bs t1 -> forall t2, lossy_text bs t2 -> t1 = t2.
Proof.
  intros L. induction L as [|c bs text S L IH|part bs text N P A M L IH]; intros t2 L2.
  - remember (@nil Z) as w eqn:W. destruct L2 as [|c bs text S L2|part bs text N P A M L2]; [reflexivity| |]; exfalso; apply app_eq_nil in W; destruct W as (W & _); [|now apply N].
    pose proof (char_shape c S) as C. rewrite W in C. inversion C.
  - remember (utf8_char c ++ bs) as w eqn:W. destruct L2 as [|c2 bs2 text2 S2 L2|part bs2 text2 N P A M L2].
    + symmetry in W. apply app_eq_nil in W. pose proof (char_shape c S) as C. rewrite (proj1 W) in C. inversion C.
    + destruct (shape_unique _ _ _ _ (char_shape c2 S2) (char_shape c S) W) as (-> & ->). f_equal. now apply IH.
    + destruct (A c bs S W).
  - remember (part ++ bs) as w eqn:W. destruct L2 as [|c2 bs2 text2 S2 L2|part2 bs2 text2 N2 P2 A2 M2 L2].
    + symmetry in W. apply app_eq_nil in W. now destruct (N (proj1 W)).
    + destruct (A c2 bs2 S2 eq_refl).
    + assert (K : forall (p q r s : list Z), p <> [] -> p ++ r = q ++ s -> (length q = 1%nat \/ begins_char q) -> (forall x rest, r = x :: rest -> ~ begins_char (p ++ [x])) -> (length q <= length p)%nat).
      { intros p q r s NP E Q H. destruct (le_lt_dec (length q) (length p)) as [|LT]; [assumption|]. exfalso. destruct Q as [Q|(c & rest & S & Q)]; [destruct p; [now apply NP|cbn in LT; lia]|].
        assert (D : exists x y, q = p ++ x :: y).
        { pose proof (f_equal (firstn (length q)) E) as E2. rewrite !firstn_app in E2. rewrite Nat.sub_diag, firstn_all, (firstn_all2 p) in E2 by lia. cbn [firstn] in E2. rewrite app_nil_r in E2.
          destruct (firstn (length q - length p) r) as [|x y] eqn:Z; [rewrite app_nil_r in E2; subst q; lia|]. now exists x, y. }
        destruct D as (x & y & D). rewrite D, <- app_assoc in E. apply app_inv_head in E. cbn [app] in E. apply (H x (y ++ s) E). exists c, (y ++ rest). split; [exact S|]. rewrite Q, D, <- !app_assoc. reflexivity. }
      assert (LE : length part = length part2).
      { apply Nat.le_antisymm; [exact (K part2 part bs2 bs N2 W P M2)|exact (K part part2 bs bs2 N (eq_sym W) P2 M)]. }
      assert (Q : part = part2 /\ bs = bs2).
      { pose proof (f_equal (firstn (length part)) W) as E. rewrite LE in E at 1. rewrite !firstn_app, !Nat.sub_diag, !firstn_all in E. cbn [firstn] in E. rewrite !app_nil_r in E. subst part2.
        split; [reflexivity|]. now apply app_inv_head in W. }
      destruct Q as (<- & <-). f_equal. now apply IH.
Qed.
Lemma lossy_iff bs text : from_utf8_lossy bs = text <-> lossy_text bs text.
Proof. split; [intros <-; apply lossy_ok|intros L; exact (lossy_fun _ _ (lossy_ok bs) _ L)]. Qed.
Lemma lossy_utf8 bs text : lossy_text bs text -> utf8_text text.
Proof.
  intros L. induction L; [exists []; split; [constructor|reflexivity]| |]; apply text_cons; auto. unfold scalar. lia.
Qed.
Lemma lossy_same bs : utf8_text bs -> lossy_text bs bs.
Proof. intros (cs & F & ->). induction F; [constructor|]. cbn [flat_map]. now constructor. Qed.
Lemma lossy_is_text bs : utf8_text (from_utf8_lossy bs) /\ (utf8_text bs -> from_utf8_lossy bs = bs).
Proof. split; [exact (lossy_utf8 _ _ (lossy_ok bs))|]. intros T. apply lossy_iff. now apply lossy_same. Qed.
