(* Lemmas on sub, blit, mapi, foldM and concatenations of equally long pieces. *)
From Coq Require Import String List ZArith Lia Bool Arith.
From Verif Require Import Base LayoutModel BufferModel BufferSpec.
Import ListNotations.

Ltac leb_cases :=
  repeat match goal with
  | |- context [Nat.leb ?a ?b] => destruct (Nat.leb_spec a b)
  | |- context [Nat.ltb ?a ?b] => destruct (Nat.ltb_spec a b)
  | |- context [Nat.eqb ?a ?b] => destruct (Nat.eqb_spec a b)
  | H : context [Nat.leb ?a ?b] |- _ => destruct (Nat.leb_spec a b)
  | H : context [Nat.ltb ?a ?b] |- _ => destruct (Nat.ltb_spec a b)
  | H : context [Nat.eqb ?a ?b] |- _ => destruct (Nat.eqb_spec a b)
  end.

Lemma nth_error_ext : forall {A} (l l' : list A),
  (forall k, nth_error l k = nth_error l' k) -> l = l'.
Proof.
  induction l as [|a l IH]; intros [|b l'] H; auto.
  - specialize (H 0); discriminate.
  - specialize (H 0); discriminate.
  - pose proof (H 0) as H0. simpl in H0. injection H0 as ->. f_equal. apply IH.
    intros k. exact (H (S k)).
Qed.

Lemma nth_error_firstn : forall {A} (l : list A) n k,
  nth_error (firstn n l) k = if Nat.ltb k n then nth_error l k else None.
Proof.
  induction l as [|a l IH]; intros [|n] [|k]; simpl; auto.
  - destruct (Nat.ltb (S k) (S n)); auto.
  - rewrite IH. reflexivity.
Qed.

Lemma nth_error_skipn : forall {A} (l : list A) n k, nth_error (skipn n l) k = nth_error l (n + k).
Proof.
  induction l as [|a l IH]; intros [|n] k; simpl; auto; try (now destruct k).
Qed.

Lemma skipn_skipn : forall {A} (l : list A) a b, skipn a (skipn b l) = skipn (a + b) l.
Proof. intros. apply nth_error_ext. intros k. rewrite !nth_error_skipn. f_equal. lia. Qed.

Lemma nth_error_sub : forall {A} (l : list A) o n k,
  nth_error (sub l o n) k = if Nat.ltb k n then nth_error l (o + k) else None.
Proof. intros. unfold sub. rewrite nth_error_firstn, nth_error_skipn. reflexivity. Qed.

Lemma length_sub : forall {A} (l : list A) o n, o + n <= length l -> length (sub l o n) = n.
Proof. intros. unfold sub. rewrite firstn_length, skipn_length. lia. Qed.

Lemma length_blit : forall {A} (l : list A) o bs, o + length bs <= length l -> length (blit l o bs) = length l.
Proof. intros. unfold blit. rewrite !app_length, firstn_length, skipn_length. lia. Qed.

Lemma nth_error_blit : forall {A} (l : list A) o bs k, o + length bs <= length l ->
  nth_error (blit l o bs) k =
  if Nat.leb o k && Nat.ltb k (o + length bs) then nth_error bs (k - o) else nth_error l k.
Proof.
  intros A l o bs k H. unfold blit.
  destruct (Nat.ltb_spec k o).
  - rewrite nth_error_app1 by (rewrite firstn_length; lia). rewrite nth_error_firstn.
    destruct (Nat.ltb_spec k o); [|lia]. destruct (Nat.leb_spec o k); [lia|reflexivity].
  - rewrite nth_error_app2 by (rewrite firstn_length; lia). rewrite firstn_length.
    replace (Nat.min o (length l)) with o by lia.
    destruct (Nat.ltb_spec k (o + length bs)).
    + rewrite nth_error_app1 by lia. destruct (Nat.leb_spec o k); [reflexivity|lia].
    + rewrite nth_error_app2 by lia. rewrite nth_error_skipn, andb_false_r.
      f_equal. lia.
Qed.

Lemma nth_error_seq : forall n s k, nth_error (seq s n) k = if Nat.ltb k n then Some (s + k) else None.
Proof.
  induction n as [|n IH]; intros s [|k]; simpl; auto.
  rewrite IH. change (S k <? S n) with (k <? n). destruct (k <? n); auto.
  f_equal. lia.
Qed.

Lemma nth_error_combine2 : forall {A B} (l : list A) (l' : list B) k,
  nth_error (combine l l') k =
  match nth_error l k, nth_error l' k with Some a, Some b => Some (a, b) | _, _ => None end.
Proof.
  induction l as [|a l IH]; intros [|b l'] [|k]; simpl; auto.
  destruct (nth_error l k); auto.
Qed.

Lemma nth_error_mapi : forall {A B} (f : nat -> A -> B) l k,
  nth_error (mapi f l) k = option_map (f k) (nth_error l k).
Proof.
  intros. unfold mapi. rewrite nth_error_map, nth_error_combine2, nth_error_seq.
  destruct (nth_error l k) eqn:E.
  - assert (k < length l) by (apply nth_error_Some; congruence).
    destruct (Nat.ltb_spec k (length l)); [reflexivity|lia].
  - destruct (k <? length l); reflexivity.
Qed.

Lemma length_mapi : forall {A B} (f : nat -> A -> B) l, length (mapi f l) = length l.
Proof. intros. unfold mapi. rewrite map_length, combine_length, seq_length. lia. Qed.

Lemma nth_nth_error : forall {A} (l : list A) k d x, nth_error l k = Some x -> nth k l d = x.
Proof. intros. apply nth_error_nth. assumption. Qed.

Lemma nth_error_lt : forall {A} (l : list A) k x, nth_error l k = Some x -> k < length l.
Proof. intros. apply nth_error_Some. congruence. Qed.

Lemma nth_error_get : forall {A} (l : list A) k, k < length l -> exists x, nth_error l k = Some x.
Proof.
  intros. destruct (nth_error l k) eqn:E; eauto. apply nth_error_None in E. lia.
Qed.

Lemma nth_error_None_ge : forall {A} (l : list A) k, length l <= k -> nth_error l k = None.
Proof. intros. apply nth_error_None. assumption. Qed.

(* blit is set_range *)
Lemma blit_set_range : forall {A} (l : list A) o bs, o + length bs <= length l -> blit l o bs = set_range o bs l.
Proof.
  intros A l o bs H. apply nth_error_ext. intros k. rewrite nth_error_blit by assumption.
  unfold set_range. rewrite nth_error_mapi.
  destruct (Nat.leb o k && Nat.ltb k (o + length bs)) eqn:E.
  - apply andb_prop in E. destruct E as [E1 E2]. apply Nat.leb_le in E1. apply Nat.ltb_lt in E2.
    destruct (nth_error_get bs (k - o)) as [x Hx]; [lia|].
    destruct (nth_error_get l k) as [y Hy]; [lia|].
    rewrite Hx, Hy. simpl. f_equal. symmetry. now apply nth_nth_error.
  - destruct (nth_error l k); reflexivity.
Qed.

Lemma set_nth_blit : forall {A} (l : list A) i x, i < length l -> set_nth i x l = blit l i [x].
Proof.
  intros. rewrite blit_set_range by (simpl; lia). unfold set_nth, set_range. apply nth_error_ext.
  intros k. rewrite !nth_error_mapi. destruct (nth_error l k); auto. cbn [option_map length]. f_equal.
  leb_cases; simpl; try lia; auto. subst. now rewrite Nat.sub_diag.
Qed.

Lemma firstn_all_ge : forall {A} (l : list A) n, length l <= n -> firstn n l = l.
Proof. intros. now apply firstn_all2. Qed.

(* ------------------------------------------------------------------ uniform concatenations *)

Definition uniform (sz : nat) (recs : list (list Z)) : Prop := Forall (fun r => length r = sz) recs.

Lemma uniform_app : forall sz a b, uniform sz a -> uniform sz b -> uniform sz (a ++ b).
Proof. intros. apply Forall_app. auto. Qed.

Lemma uniform_nth : forall sz recs k r, uniform sz recs -> nth_error recs k = Some r -> length r = sz.
Proof.
  intros sz recs k r H E. apply nth_error_In in E. unfold uniform in H. rewrite Forall_forall in H. auto.
Qed.

Lemma uniform_intro : forall sz recs,
  (forall k r, nth_error recs k = Some r -> length r = sz) -> uniform sz recs.
Proof.
  intros sz recs H. apply Forall_forall. intros r Hr. apply In_nth_error in Hr. destruct Hr as [k Hk]. eauto.
Qed.

Lemma uniform_firstn : forall sz n recs, uniform sz recs -> uniform sz (firstn n recs).
Proof.
  intros sz n recs H. apply uniform_intro. intros k r E. rewrite nth_error_firstn in E.
  destruct (k <? n); [eapply uniform_nth; eauto|discriminate].
Qed.

Lemma uniform_skipn : forall sz n recs, uniform sz recs -> uniform sz (skipn n recs).
Proof.
  intros sz n recs H. apply uniform_intro. intros k r E. rewrite nth_error_skipn in E. eapply uniform_nth; eauto.
Qed.

Lemma uniform_sub : forall sz o n recs, uniform sz recs -> uniform sz (sub recs o n).
Proof. intros. now apply uniform_firstn, uniform_skipn. Qed.

Lemma uniform_map : forall {A} sz (f : A -> list Z) l, (forall a, In a l -> length (f a) = sz) -> uniform sz (map f l).
Proof.
  intros A sz f l H. apply Forall_forall. intros r Hr. apply in_map_iff in Hr. destruct Hr as [a [<- Ha]]. auto.
Qed.

Lemma length_concat : forall sz recs, uniform sz recs -> length (concat recs) = length recs * sz.
Proof.
  intros sz recs H. induction H as [|r recs Hr H IH]; simpl; auto. rewrite app_length. lia.
Qed.

Lemma firstn_concat : forall sz recs n, uniform sz recs -> firstn (n * sz) (concat recs) = concat (firstn n recs).
Proof.
  intros sz recs n H. revert n. induction H as [|r recs Hr H IH]; intros [|n]; simpl; auto using firstn_nil.
  rewrite firstn_app. rewrite firstn_all_ge by lia. f_equal.
  replace (sz + n * sz - length r) with (n * sz) by lia. apply IH.
Qed.

Lemma skipn_concat : forall sz recs n, uniform sz recs -> skipn (n * sz) (concat recs) = concat (skipn n recs).
Proof.
  intros sz recs n H. revert n. induction H as [|r recs Hr H IH]; intros [|n]; simpl; auto using skipn_nil.
  rewrite skipn_app. rewrite skipn_all2 by lia. simpl.
  replace (sz + n * sz - length r) with (n * sz) by lia. apply IH.
Qed.

Lemma sub_concat : forall sz recs s n, uniform sz recs ->
  sub (concat recs) (s * sz) (n * sz) = concat (sub recs s n).
Proof.
  intros. unfold sub. rewrite skipn_concat by assumption. apply firstn_concat. now apply uniform_skipn.
Qed.

Lemma blit_concat : forall sz recs s rs, uniform sz recs -> uniform sz rs ->
  blit (concat recs) (s * sz) (concat rs) = concat (blit recs s rs).
Proof.
  intros sz recs s rs H1 H2. unfold blit. rewrite !concat_app, (length_concat _ _ H2), <- Nat.mul_add_distr_r.
  rewrite firstn_concat, skipn_concat by assumption. reflexivity.
Qed.

Lemma sub_one : forall {A} (l : list A) i x, nth_error l i = Some x -> sub l i 1 = [x].
Proof.
  intros A l i x H. apply nth_error_ext. intros [|k]; rewrite nth_error_sub.
  - simpl. now rewrite Nat.add_0_r.
  - simpl. destruct k; reflexivity.
Qed.

Lemma sub_concat_one : forall sz recs i r, uniform sz recs -> nth_error recs i = Some r ->
  sub (concat recs) (i * sz) sz = r.
Proof.
  intros sz recs i r H E. replace sz with (1 * sz) at 2 by lia. rewrite sub_concat by assumption.
  rewrite (sub_one _ _ _ E). simpl. apply app_nil_r.
Qed.

Lemma sub_sub : forall {A} (l : list A) o n o' n', o' + n' <= n -> sub (sub l o n) o' n' = sub l (o + o') n'.
Proof.
  intros. apply nth_error_ext. intros k. rewrite !nth_error_sub.
  destruct (Nat.ltb_spec k n'); auto.
  destruct (Nat.ltb_spec (o' + k) n); [|lia]. f_equal. lia.
Qed.

Lemma sub_concat_in : forall sz recs i r off n, uniform sz recs -> nth_error recs i = Some r -> off + n <= sz ->
  sub (concat recs) (i * sz + off) n = sub r off n.
Proof.
  intros sz recs i r off n U E H.
  rewrite <- (sub_concat_one sz recs i r U E), sub_sub by lia. reflexivity.
Qed.

Lemma blit_blit_in : forall {A} (l : list A) o n off v, o + n <= length l -> off + length v <= n ->
  blit l (o + off) v = blit l o (blit (sub l o n) off v).
Proof.
  intros A l o n off v H1 H2.
  assert (L : length (sub l o n) = n) by (apply length_sub; lia).
  assert (L' : length (blit (sub l o n) off v) = n) by (rewrite length_blit; lia).
  apply nth_error_ext. intros k. rewrite !nth_error_blit by lia. rewrite L', nth_error_sub.
  leb_cases; simpl; try lia; try reflexivity; try (f_equal; lia).
Qed.

Lemma blit_concat_in : forall sz recs i r off v, uniform sz recs -> nth_error recs i = Some r ->
  off + length v <= sz ->
  blit (concat recs) (i * sz + off) v = concat (set_nth i (blit r off v) recs).
Proof.
  intros sz recs i r off v U E H.
  assert (i < length recs) by (eapply nth_error_lt; eauto).
  assert (Lr : length r = sz) by (eapply uniform_nth; eauto).
  rewrite (blit_blit_in (concat recs) (i * sz) sz off v).
  2: { rewrite (length_concat sz) by assumption. nia. }
  2: assumption.
  rewrite (sub_concat_one sz recs i r U E).
  rewrite set_nth_blit by assumption.
  rewrite <- (blit_concat sz).
  - simpl. now rewrite app_nil_r.
  - assumption.
  - constructor; auto. rewrite length_blit; lia.
Qed.

Lemma blit_concat_one : forall sz recs i v, uniform sz recs -> i < length recs -> length v = sz ->
  blit (concat recs) (i * sz) v = concat (set_nth i v recs).
Proof.
  intros sz recs i v U H L. rewrite set_nth_blit by assumption. rewrite <- (blit_concat sz).
  - simpl. now rewrite app_nil_r.
  - assumption.
  - constructor; auto.
Qed.

Lemma concat_inj : forall sz a b, 0 < sz -> uniform sz a -> uniform sz b -> concat a = concat b -> a = b.
Proof.
  intros sz a b P U. revert b. induction U as [|x a Hx U IH]; intros b V E.
  - destruct V as [|y b Hy V]; auto. simpl in E. apply (f_equal (@length Z)) in E. rewrite app_length in E.
    simpl in E. lia.
  - destruct V as [|y b Hy V].
    + simpl in E. apply (f_equal (@length Z)) in E. rewrite app_length in E. simpl in E. lia.
    + simpl in E.
      assert (x = y). { apply (f_equal (firstn sz)) in E. rewrite !firstn_app in E.
        rewrite !(firstn_all_ge _ sz) in E by lia. rewrite Hx, Hy, Nat.sub_diag in E. simpl in E.
        now rewrite !app_nil_r in E. }
      subst. f_equal. apply IH; auto. now apply app_inv_head in E.
Qed.

(* pieces *)
Lemma length_pieces : forall sz n bytes, length (pieces sz n bytes) = n.
Proof. intros. unfold pieces. now rewrite map_length, seq_length. Qed.

Lemma nth_error_pieces : forall sz n bytes k,
  nth_error (pieces sz n bytes) k = if Nat.ltb k n then Some (sub bytes (k * sz) sz) else None.
Proof.
  intros. unfold pieces. rewrite nth_error_map, nth_error_seq. destruct (k <? n); reflexivity.
Qed.

Lemma uniform_pieces : forall sz n bytes, length bytes = n * sz -> uniform sz (pieces sz n bytes).
Proof.
  intros sz n bytes H. apply uniform_intro. intros k r E. rewrite nth_error_pieces in E.
  destruct (Nat.ltb_spec k n); [|discriminate]. injection E as <-. apply length_sub. nia.
Qed.

Lemma concat_pieces : forall sz n bytes, length bytes = n * sz -> concat (pieces sz n bytes) = bytes.
Proof.
  intros sz n bytes H. destruct sz as [|sz].
  - assert (bytes = []) by (destruct bytes; auto; simpl in H; lia). subst.
    clear H. apply length_zero_iff_nil. rewrite (length_concat 0); [lia|].
    apply uniform_map. intros. unfold sub. now rewrite firstn_O.
  - revert bytes H. induction n as [|n IH]; intros bytes H.
    + destruct bytes; auto. simpl in H. lia.
    + unfold pieces. simpl seq. rewrite <- seq_shift. cbn [map concat]. rewrite map_map.
      etransitivity; [|apply (firstn_skipn (S sz) bytes)].
      f_equal. etransitivity; [|apply (IH (skipn (S sz) bytes)); rewrite skipn_length; lia].
      unfold pieces. f_equal. apply map_ext. intros k. unfold sub. rewrite skipn_skipn. f_equal. f_equal. lia.
Qed.

Lemma pieces_concat : forall sz recs, uniform sz recs -> pieces sz (length recs) (concat recs) = recs.
Proof.
  intros sz recs U. apply nth_error_ext. intros k. rewrite nth_error_pieces.
  destruct (Nat.ltb_spec k (length recs)).
  - destruct (nth_error_get recs k) as [r Hr]; auto. rewrite Hr. f_equal. now apply sub_concat_one.
  - symmetry. now apply nth_error_None_ge.
Qed.

(* ------------------------------------------------------------------ loops *)

Lemma length_range : forall s e, length (range s e) = e - s.
Proof. intros. unfold range. apply seq_length. Qed.

Lemma range_step : forall s e, s < e -> range s e = s :: range (S s) e.
Proof. intros. unfold range. replace (e - s) with (S (e - S s)) by lia. reflexivity. Qed.

Lemma range_empty : forall s e, e <= s -> range s e = [].
Proof. intros. unfold range. replace (e - s) with 0 by lia. reflexivity. Qed.

Lemma foldM_range : forall {S} (P : nat -> S -> Prop) (f : S -> nat -> res S) s e st,
  s <= e -> P s st ->
  (forall i st, s <= i < e -> P i st -> exists st', f st i = Ok st' /\ P (i + 1) st') ->
  exists st', foldM f (range s e) st = Ok st' /\ P e st'.
Proof.
  intros S0 P f s e. remember (e - s) as n. revert s Heqn.
  induction n as [|n IH]; intros s Hn st Hle Hp Hstep.
  - rewrite range_empty by lia. simpl. exists st. replace e with s by lia. auto.
  - rewrite range_step by lia. simpl. destruct (Hstep s st) as [st' [E P']]; [lia|auto|].
    rewrite E. simpl. apply IH; try lia.
    + now replace (S s) with (s + 1) by lia.
    + intros. apply Hstep; auto. lia.
Qed.

Lemma foldM_range_panic : forall {S} (P : nat -> S -> Prop) (f : S -> nat -> res S) s e st i0,
  s <= i0 < e -> P s st ->
  (forall i st, s <= i < i0 -> P i st -> exists st', f st i = Ok st' /\ P (i + 1) st') ->
  (forall st, P i0 st -> f st i0 = Panic) ->
  foldM f (range s e) st = Panic.
Proof.
  intros S0 P f s e st i0. remember (i0 - s) as n. revert s Heqn st.
  induction n as [|n IH]; intros s Hn st Hi Hp Hstep Hpanic.
  - rewrite range_step by lia. simpl. replace i0 with s in * by lia. now rewrite (Hpanic st Hp).
  - rewrite range_step by lia. simpl. destruct (Hstep s st) as [st' [E P']]; [lia|auto|].
    rewrite E. simpl. apply IH; try lia.
    + now replace (S s) with (s + 1) by lia.
    + intros. apply Hstep; auto. lia.
    + assumption.
Qed.

Lemma foldM_list : forall {A S} (P : list A -> S -> Prop) (f : S -> A -> res S) l st,
  P [] st ->
  (forall pre a post st, l = pre ++ a :: post -> P pre st -> exists st', f st a = Ok st' /\ P (pre ++ [a]) st') ->
  exists st', foldM f l st = Ok st' /\ P l st'.
Proof.
  intros A S0 P f l st H0 Hstep.
  assert (G : forall post pre st, l = pre ++ post -> P pre st -> exists st', foldM f post st = Ok st' /\ P l st').
  { induction post as [|a post IH]; intros pre st1 E Hp.
    - rewrite app_nil_r in E. subst. simpl. eauto.
    - simpl. destruct (Hstep pre a post st1 E Hp) as [st' [Ef Hp']]. rewrite Ef. simpl.
      apply IH with (pre := pre ++ [a]); auto. now rewrite <- app_assoc. }
  apply G with (pre := []); auto.
Qed.

Lemma foldM_ext_in : forall {A S} (f g : S -> A -> res S) l st,
  (forall a st, In a l -> f st a = g st a) -> foldM f l st = foldM g l st.
Proof.
  intros A S0 f g l. induction l as [|a l IH]; intros st H; simpl; auto.
  rewrite H by (simpl; auto). destruct (g st a); simpl; auto. apply IH. intros. apply H. simpl; auto.
Qed.

Lemma bind_ok : forall {A B} (r : res A) (f : A -> res B) b, bind r f = Ok b -> exists a, r = Ok a /\ f a = Ok b.
Proof. intros A B [a| |] f b H; simpl in H; try discriminate. eauto. Qed.

(* slices *)
Lemma slice_get_ok : forall st s e, s <= e -> e <= length st -> slice_get st s e = Ok (sub st s (e - s)).
Proof.
  intros. unfold slice_get. destruct (Nat.leb_spec s e); [|lia]. destruct (Nat.leb_spec e (length st)); [|lia].
  reflexivity.
Qed.

Lemma slice_get_panic : forall st s e, s > e \/ e > length st -> slice_get st s e = Panic.
Proof.
  intros. unfold slice_get. destruct (Nat.leb_spec s e); auto. destruct (Nat.leb_spec e (length st)); auto. lia.
Qed.

Lemma slice_set_ok : forall st s e src, s <= e -> e <= length st -> length src = e - s ->
  slice_set st s e src = Ok (blit st s src).
Proof.
  intros. unfold slice_set. rewrite slice_get_ok by assumption. simpl. unfold copy_from_slice.
  rewrite length_sub by lia. rewrite H1, Nat.eqb_refl. reflexivity.
Qed.

Lemma slice_set_panic : forall st s e src, s > e \/ e > length st -> slice_set st s e src = Panic.
Proof. intros. unfold slice_set. rewrite slice_get_panic by assumption. reflexivity. Qed.

Lemma copy_ok : forall dst src, length dst = length src -> copy_from_slice dst src = Ok src.
Proof. intros. unfold copy_from_slice. rewrite H, Nat.eqb_refl. reflexivity. Qed.
