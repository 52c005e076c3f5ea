(* Reading LAS files whose end is missing: the cut file is compared with a whole one. *)
From Coq Require Import String List ZArith Lia Bool Arith SpecFloat ZifyBool ZifyNat ZifyN.
From Verif Require Import Base LayoutModel LayoutSpec LayoutProofs BufferModel BufferSpec ListLemmas BufferProofs BufferSteps BufferFacts TraitModel TraitSpec TraitProofs2
  NumModel NumSpec NumProofs NumProofs2 NumProofs3 ConvModel ConvSpec ConvProofs ConvProofs5 MathModel LasModel LasSpec LasProofs LasProofs2 LasIoModel LasIoSpec
  LasIoProofs2 LasIoProofs4 LasIoProofs5 LasIoProofs6 LasIoProofs7 LasIoProofs8 LasIoProofs9 LasCutModel LasCutSpec.
Import ListNotations.
Open Scope nat_scope.

(* ---------- the results are those of LasIoModel ---------- *)
Definition erase {A} (o : out A) : res A := match o with Done a => Ok a | Failed _ => Err | Crashed => Panic end.
Lemma erase_pure {A} r (x : res A) : erase (pure r x) = x.
Proof. now destruct x. Qed.
Lemma erase_bind {A B} (o : out A) (k : A -> out B) : erase (obind o k) = bind (erase o) (fun a => erase (k a)).
Proof. now destruct o. Qed.
Lemma bind_ext {A B} (x : res A) (k k' : A -> res B) : (forall a, k a = k' a) -> bind x k = bind x k'.
Proof. intros H. destruct x; cbn; auto. Qed.
Lemma erase_fold {A S} (g : S -> A -> out S) (h : S -> A -> res S) l : (forall s a, erase (g s a) = h s a) -> forall s, erase (foldO g l s) = foldM h l s.
Proof. intros H. induction l as [|a l IH]; intros s; [reflexivity|]. cbn [foldO foldM]. rewrite erase_bind, H. apply bind_ext. exact IH. Qed.
Lemma erase_read r n : erase (read_exact_o r n) = read_exact r n.
Proof. apply erase_pure. Qed.
Lemma erase_default chunk r b count : erase (read_into_default_layout_o chunk r b count) = read_into_default_layout chunk r b count.
Proof.
  unfold read_into_default_layout_o, read_into_default_layout. rewrite erase_bind, erase_pure. apply bind_ext. intros rem. cbv zeta. destruct (Nat.eqb _ 0); [reflexivity|].
  rewrite erase_bind. match goal with |- bind ?a _ = bind ?c _ => assert (E : a = c) end.
  - destruct (negb (mb_is_columnar b)).
    + rewrite erase_bind, erase_pure. apply bind_ext. intros dst. rewrite erase_bind, erase_read. apply bind_ext. intros [bytes r']. cbn [fst snd]. rewrite erase_bind, erase_pure. apply bind_ext. reflexivity.
    + rewrite erase_bind, erase_pure. apply bind_ext. intros _. rewrite erase_bind, erase_pure. apply bind_ext. intros _. apply erase_fold. intros [b' r'] k. cbn [fst snd].
      rewrite erase_bind, erase_read. apply bind_ext. intros [bytes r2]. cbn [fst snd]. rewrite erase_bind, erase_pure. apply bind_ext. reflexivity.
  - rewrite E. apply bind_ext. intros [b' r']. reflexivity.
Qed.
Definition result_of (x : mbuf * las_reader * nat) : mbuf * las_reader * read_result := (fst x, ReadPoints (snd x)).
(* the result of las_read_into; a rejected layout is an error *)
Definition accepted (x : res (mbuf * las_reader * read_result)) : res (mbuf * las_reader * nat) :=
  let* '(b, r, n) := x in match n with ReadPoints n => Ok (b, r, n) | Unsupported => Err end.
Lemma accepted_bind {A} (x : res A) k : accepted (bind x k) = bind x (fun a => accepted (k a)).
Proof. now destruct x. Qed.
Lemma erase_into chunk r b count : f_laz (r_file r) = false -> erase (las_read_into_o chunk r b count) = accepted (las_read_into chunk r b count).
Proof.
  intros LZ. unfold las_read_into_o, las_read_into. rewrite erase_bind, erase_pure, accepted_bind. apply bind_ext. intros _. rewrite LZ. destruct (negb _).
  - unfold read_into_custom_layout_o, read_into_custom_layout_las. rewrite erase_bind, erase_pure, accepted_bind. apply bind_ext. intros rem. cbv zeta. destruct (Nat.eqb _ 0); [reflexivity|].
    rewrite erase_bind, erase_pure, accepted_bind. apply bind_ext. intros _. rewrite erase_bind, erase_pure, accepted_bind. apply bind_ext. intros _. rewrite erase_bind, erase_pure.
    destruct (get_default_las_converter _ _ _) as [c| |]; cbn [bind]; [|reflexivity|reflexivity]. rewrite erase_bind, accepted_bind.
    match goal with |- bind (erase (foldO ?g ?l ?s)) _ = bind (foldM ?h ?l ?s) _ => rewrite (erase_fold g h l) end.
    + apply bind_ext. intros [[cb b'] r']. reflexivity.
    + intros [[cb b'] r'] k. cbn [fst snd]. rewrite erase_bind, erase_default. apply bind_ext. intros [[cb2 r2] n2]. cbn [fst snd]. rewrite erase_bind, erase_pure. apply bind_ext. reflexivity.
  - rewrite erase_default, accepted_bind. destruct (read_into_default_layout chunk r b count) as [[[b' r'] n]| |]; reflexivity.
Qed.

(* ---------- a cut file and the whole one ---------- *)
Section Cut.
Variables (f : las_file) (raw : layout) (more : list Z).
Let whole := mk_file (f_laz f) (f_header f) (f_data f ++ more).
Let L := length (f_data f).
Hypothesis LAZ : f_laz f = false.
Hypothesis FO : file_ok whole raw.

Definition up (r : las_reader) : las_reader := mk_reader whole (r_layout r) (r_exact_layout r) (r_index r) (r_position r).
Definition later (a b : las_reader) : Prop := r_index a <= r_index b /\ r_position a <= r_position b.
Lemma later_refl a : later a a.
Proof. split; lia. Qed.
Lemma later_trans a b c : later a b -> later b c -> later a c.
Proof. unfold later. lia. Qed.

(* o in the cut file, e in the whole one *)
Definition sim {A} (rd : A -> las_reader) (lift : A -> A) (r0 : las_reader) (o : out A) (e : res A) : Prop :=
  match o with
  | Done a => e = Ok (lift a) /\ (r_file (rd a) = f /\ r_exact_layout (rd a) = r_exact_layout r0) /\ later r0 (rd a) /\ r_position (rd a) <= Nat.max (r_position r0) L
  | Failed r => e = Err \/ ((r_file r = f /\ r_exact_layout r = r_exact_layout r0) /\ L <= r_position r /\ r_index r0 <= r_index r
      /\ forall a, e = Ok a -> r_index r <= r_index (rd a) /\ L < r_position (rd a))
  | Crashed => e = Panic
  end.
Lemma sim_bind {A B} rdA liftA rdB liftB r0 (o : out A) (e : res A) (k : A -> out B) (k' : A -> res B) :
  sim rdA liftA r0 o e ->
  (forall a, r_file (rdA a) = f -> r_exact_layout (rdA a) = r_exact_layout r0 -> sim rdB liftB (rdA a) (k a) (k' (liftA a))) ->
  (forall a b, e = Ok a -> k' a = Ok b -> later (rdA a) (rdB b)) ->
  sim rdB liftB r0 (obind o k) (bind e k').
Proof.
  intros S K M. destruct o as [a|r|]; cbn [obind sim] in *.
  - destruct S as (-> & (F1 & F2) & (LI & LP) & P). cbn [bind]. specialize (K a F1 F2). destruct (k a) as [b|r|]; cbn [sim] in *; [| |exact K].
    + destruct K as (E & (G1 & G2) & (LI2 & LP2) & P2). split; [exact E|]. split; [split; congruence|]. unfold later. lia.
    + destruct K as [E|((G1 & G2) & P2 & I2 & X)]; [now left|]. right. split; [split; congruence|]. split; [exact P2|]. split; [lia|exact X].
  - destruct S as [->|(F1 & P & I & X)]; [now left|]. right. split; [exact F1|]. split; [exact P|]. split; [exact I|]. intros b E. destruct e as [a| |]; try discriminate. cbn [bind] in E.
    destruct (X a eq_refl) as (X1 & X2). destruct (M a b eq_refl E) as (M1 & M2). lia.
  - now rewrite S.
Qed.
Lemma sim_pure {A} r (x : res A) : r_file r = f -> sim (fun _ => r) (fun a => a) r (pure r x) x.
Proof. intros F. destruct x; cbn [pure sim]; auto. split; [reflexivity|]. split; [auto|]. split; [apply later_refl|lia]. Qed.
Lemma sim_pure_bind {A B} rd lift r (x : res A) (k : A -> out B) k' : (forall a, x = Ok a -> sim rd lift r (k a) (k' a)) -> sim rd lift r (obind (pure r x) k) (bind x k').
Proof. intros H. destruct x; cbn [pure obind bind sim]; auto. Qed.
Lemma sim_done {A} rd lift r0 (a : A) a' : a' = lift a -> r_file (rd a) = f -> r_exact_layout (rd a) = r_exact_layout r0 -> r_index r0 <= r_index (rd a) -> r_position (rd a) = r_position r0 ->
  sim rd lift r0 (Done a) (Ok a').
Proof. intros -> F E I P. cbn [sim]. repeat split; auto; lia. Qed.
Definition lift2 {A} (x : A * las_reader) : A * las_reader := (fst x, up (snd x)).
Lemma sim_read r n : r_file r = f -> sim snd lift2 r (read_exact_o r n) (erase (read_exact_o (up r) n)).
Proof.
  intros F. rewrite erase_read. unfold read_exact_o, read_exact. cbn [up r_file whole f_data r_position]. rewrite F, app_length. fold L.
  destruct (Nat.leb_spec (r_position r + n) L).
  - destruct (Nat.leb_spec (r_position r + n) (L + length more)); [|lia]. cbn [pure sim fst snd]. split.
    + unfold lift2. cbn [fst snd]. f_equal. f_equal. unfold sub. rewrite skipn_app, firstn_app, skipn_length. fold L. replace (n - (L - r_position r)) with 0 by lia. cbn [firstn]. now rewrite app_nil_r.
    + cbn [with_position r_file r_exact_layout r_index r_position]. split; [auto|]. unfold later. cbn [with_position r_index r_position]. lia.
  - destruct (Nat.leb_spec (r_position r + n) (L + length more)); cbn [pure sim]; [|now left]. right. cbn. rewrite F. split; [auto|]. split; [lia|]. split; [lia|].
    intros a E. injection E as <-. cbn. lia.
Qed.
Lemma read_later r n a : erase (read_exact_o r n) = Ok a -> later r (snd a).
Proof. rewrite erase_read. unfold read_exact. destruct (Nat.leb _ _); [|discriminate]. intros E. injection E as <-. unfold later. cbn. lia. Qed.
Lemma fold_later {A S} (rd : S -> las_reader) (h : S -> A -> res S) l : (forall s a s', h s a = Ok s' -> later (rd s) (rd s')) -> forall s s', foldM h l s = Ok s' -> later (rd s) (rd s').
Proof.
  intros H. induction l as [|a l IH]; intros s s' E; cbn [foldM] in E; [injection E as <-; apply later_refl|]. destruct (h s a) as [s1| |] eqn:E1; try discriminate. cbn [bind] in E.
  apply (later_trans _ (rd s1)); [exact (H _ _ _ E1)|exact (IH _ _ E)].
Qed.
Lemma sim_fold {A S} (rd : S -> las_reader) lift (g : S -> A -> out S) (h : S -> A -> res S) x l :
  (forall s a, In a l -> r_file (rd s) = f -> r_exact_layout (rd s) = x -> sim rd lift (rd s) (g s a) (h (lift s) a)) -> (forall s a s', h s a = Ok s' -> later (rd s) (rd s')) ->
  forall s, r_file (rd s) = f -> r_exact_layout (rd s) = x -> sim rd lift (rd s) (foldO g l s) (foldM h l (lift s)).
Proof.
  intros G M. induction l as [|a l IH]; intros s F X; cbn [foldO foldM].
  - apply sim_done; auto.
  - apply (sim_bind rd lift).
    + apply G; [now left|exact F|exact X].
    + intros s1 F1 E1. apply IH; [|exact F1|congruence]. intros s2 a2 I. apply G. now right.
    + intros s1 s2 _ E. exact (fold_later rd h l M _ _ E).
Qed.
Lemma default_later chunk r b count a : erase (read_into_default_layout_o chunk r b count) = Ok a -> later r (snd (fst a)).
Proof.
  unfold read_into_default_layout_o. rewrite erase_bind, erase_pure. destruct (remaining_points r) as [rem| |]; try discriminate. cbn [bind]. cbv zeta. destruct (Nat.eqb _ 0); cbn [erase]; [intros E; injection E as <-; apply later_refl|].
  rewrite erase_bind. match goal with |- bind ?x _ = _ -> _ => destruct x as [[b' r']| |] eqn:E end; try discriminate. cbn [bind erase fst snd]. intros E'. injection E' as <-. cbn [fst snd].
  apply (later_trans _ r'); [|unfold later; cbn; lia]. destruct (negb (mb_is_columnar b)).
  - rewrite erase_bind, erase_pure in E. destruct (mb_get_point_range_ref _ _ _) as [dst| |]; try discriminate. cbn [bind] in E. rewrite erase_bind in E.
    destruct (erase (read_exact_o r _)) as [x| |] eqn:R; try discriminate. cbn [bind] in E. rewrite erase_bind, erase_pure in E. destruct (mb_modify_point_range _ _ _ _); try discriminate. injection E as _ <-. exact (read_later _ _ _ R).
  - rewrite erase_bind, erase_pure in E. destruct (assert _); try discriminate. cbn [bind] in E. rewrite erase_bind, erase_pure in E. destruct (assert _); try discriminate. cbn [bind] in E.
    erewrite (erase_fold _ _ _ (fun s a => eq_refl)) in E. apply (fold_later (@snd mbuf las_reader)) in E; [exact E|].
    intros [b1 r1] k [b2 r2]. cbn [fst snd]. rewrite erase_bind. destruct (erase (read_exact_o r1 _)) as [x| |] eqn:R; try discriminate. cbn [bind]. rewrite erase_bind, erase_pure. destruct (mb_set_point_range _ _ _ _); try discriminate. intros Q. injection Q as _ <-. exact (read_later _ _ _ R).
Qed.
Definition lift3 {A B} (x : A * las_reader * B) : A * las_reader * B := (fst (fst x), up (snd (fst x)), snd x).
Lemma sim_default chunk r b count : r_file r = f ->
  sim (fun x => snd (fst x)) lift3 r (read_into_default_layout_o chunk r b count) (erase (read_into_default_layout_o chunk (up r) b count)).
Proof.
  intros F. unfold read_into_default_layout_o. rewrite erase_bind, erase_pure.
  assert (RM : remaining_points (up r) = remaining_points r) by (unfold remaining_points, r_count; rewrite F; reflexivity).
  assert (RS : forall r', r_file r' = f -> r_size (up r') = r_size r') by (intros r' F'; unfold r_size; rewrite F'; reflexivity).
  rewrite RM. apply sim_pure_bind. intros rem _. cbv zeta. destruct (Nat.eqb _ 0).
  { cbn [erase]. apply sim_done; auto. }
  set (n := Nat.min count rem). rewrite erase_bind. apply (sim_bind (@snd mbuf las_reader) lift2).
  - destruct (negb (mb_is_columnar b)).
    + rewrite erase_bind, erase_pure. apply sim_pure_bind. intros dst _. rewrite erase_bind. apply (sim_bind (@snd (list Z) las_reader) lift2).
      * apply sim_read. exact F.
      * intros [bytes r'] F' X'. cbn [fst snd lift2] in *. rewrite erase_bind, erase_pure. apply sim_pure_bind. intros b' _. cbn [erase]. apply sim_done; auto.
      * intros x y _ E. rewrite erase_bind, erase_pure in E. destruct (mb_modify_point_range _ _ _ _); try discriminate. injection E as <-. apply later_refl.
    + rewrite erase_bind, erase_pure, (RS r F). apply sim_pure_bind. intros _ _. rewrite erase_bind, erase_pure. apply sim_pure_bind. intros _ _.
      erewrite (erase_fold _ _ _ (fun s a => eq_refl)). apply (sim_fold (@snd mbuf las_reader) lift2 _ _ (r_exact_layout r) _) with (s := (b, r)); [| |exact F|reflexivity].
      * intros [b1 r1] k _ F1 X1. cbn [fst snd lift2] in *. rewrite erase_bind, (RS r1 F1). apply (sim_bind (@snd (list Z) las_reader) lift2).
        -- apply sim_read. exact F1.
        -- intros [bytes r'] F' X'. cbn [fst snd lift2] in *. rewrite erase_bind, erase_pure. apply sim_pure_bind. intros b' _. cbn [erase]. apply sim_done; auto.
        -- intros x y _ E. rewrite erase_bind, erase_pure in E. destruct (mb_set_point_range _ _ _ _); try discriminate. injection E as <-. apply later_refl.
      * intros [b1 r1] k [b2 r2]. cbn [fst snd]. rewrite erase_bind. destruct (erase (read_exact_o r1 _)) as [x| |] eqn:R; try discriminate. cbn [bind]. rewrite erase_bind, erase_pure.
        destruct (mb_set_point_range _ _ _ _); try discriminate. intros Q. injection Q as _ <-. exact (read_later _ _ _ R).
  - intros [b' r'] F' X'. cbn [fst snd lift2 erase] in *. apply sim_done; auto. cbn. lia.
  - intros [b' r'] y _ E. cbn [fst snd erase] in E. injection E as <-. unfold later. cbn. lia.
Qed.
Lemma sim_into chunk r b count : r_file r = f ->
  sim (fun x => snd (fst x)) lift3 r (las_read_into_o chunk r b count) (erase (las_read_into_o chunk (up r) b count)).
Proof.
  intros F. unfold las_read_into_o. rewrite erase_bind, erase_pure. apply sim_pure_bind. intros _ _. change (r_exact_layout (up r)) with (r_exact_layout r). destruct (negb _); [|now apply sim_default].
  unfold read_into_custom_layout_o. rewrite erase_bind, erase_pure.
  assert (RM : remaining_points (up r) = remaining_points r) by (unfold remaining_points, r_count; rewrite F; reflexivity).
  rewrite RM. apply sim_pure_bind. intros rem _. cbv zeta. change (r_exact_layout (up r)) with (r_exact_layout r). destruct (Nat.eqb _ 0).
  { cbn [erase]. apply sim_done; auto. }
  rewrite erase_bind, erase_pure. apply sim_pure_bind. intros _ _. rewrite erase_bind, erase_pure. apply sim_pure_bind. intros _ _. rewrite erase_bind, erase_pure.
  change (f_header (r_file (up r))) with (f_header f). rewrite F. apply sim_pure_bind. intros c _. rewrite erase_bind.
  apply (sim_bind (@snd (mbuf * mbuf) las_reader) lift2).
  - erewrite (erase_fold _ _ _ (fun s a => eq_refl)). match goal with |- sim _ _ _ (foldO _ _ (?cb, b, r)) _ => apply (sim_fold (@snd (mbuf * mbuf) las_reader) lift2 _ _ (r_exact_layout r) _) with (s := (cb, b, r)) end; [| |exact F|reflexivity].
    + intros [[cb b1] r1] k _ F1 X1. cbn [fst snd lift2] in *. rewrite erase_bind. apply (sim_bind (fun x : mbuf * las_reader * nat => snd (fst x)) lift3).
      * apply sim_default. exact F1.
      * intros [[cb2 r2] n2] F2 X2. cbn [fst snd lift3] in *. rewrite erase_bind, erase_pure. apply sim_pure_bind. intros b' _. cbn [erase]. apply sim_done; auto.
      * intros x y _ E. rewrite erase_bind, erase_pure in E. destruct (convert_into_range _ _ _ _ _ _ _); try discriminate. injection E as <-. apply later_refl.
    + intros [[cb b1] r1] k [[cb2 b2] r2]. cbn [fst snd]. rewrite erase_bind. destruct (erase (read_into_default_layout_o _ r1 _ _)) as [x| |] eqn:R; try discriminate. cbn [bind]. rewrite erase_bind, erase_pure.
      destruct (convert_into_range _ _ _ _ _ _ _); try discriminate. intros Q. injection Q as _ _ <-. exact (default_later _ _ _ _ _ R).
  - intros [[cb b'] r'] F' X'. cbn [fst snd lift2 erase] in *. apply sim_done; auto.
  - intros [[cb b'] r'] y _ E. cbn [fst snd erase] in E. injection E as <-. apply later_refl.
Qed.

(* ---------- the state of the reader ---------- *)
Let N := stated f.
Let S := l_size raw.
Definition cut_at (r : las_reader) (i : nat) : Prop := r_file r = f /\ r_exact_layout r = raw /\ r_index r = i /\ i <= N /\ r_position r = i * S.
Definition lost_at (r : las_reader) (i : nat) : Prop := r_file r = f /\ r_exact_layout r = raw /\ r_index r = i /\ i <= N /\ L <= r_position r.

Lemma cut_sizes : format_len (h_format (f_header f)) = S /\ length (records whole) = N /\ uniform S (records whole) /\ good_layout raw /\ 0 < S.
Proof. destruct (file_sizes whole raw FO) as (A & B & _ & U & G). exact (conj A (conj B (conj U (conj G (good_size _ G))))). Qed.
Lemma stored_length : length (stored_records f) = Nat.min N (L / S).
Proof. unfold stored_records. rewrite length_pieces. destruct cut_sizes as (-> & _). reflexivity. Qed.
Lemma stored_same i n : i + n <= length (stored_records f) -> firstn n (skipn i (records whole)) = firstn n (skipn i (stored_records f)).
Proof.
  intros H. rewrite stored_length in H. destruct cut_sizes as (SZ & LR & _ & _ & SP). pose proof (Nat.div_mod L S ltac:(lia)) as DM.
  change (sub (records whole) i n = sub (stored_records f) i n).
  apply nth_error_ext. intros k. unfold sub. destruct (Nat.lt_ge_cases k n) as [K|K].
  - rewrite !nth_error_firstn, (proj2 (Nat.ltb_lt k n) K), !nth_error_skipn. unfold records, stored_records. cbn [f_header f_data whole]. rewrite SZ. fold L N. rewrite !nth_error_pieces. fold N.
    change (Z.to_nat (h_total (f_header f))) with N. destruct (Nat.ltb_spec (i + k) N); [|lia]. destruct (Nat.ltb_spec (i + k) (Nat.min N (L / S))); [|lia]. f_equal.
    unfold sub. rewrite skipn_app, firstn_app, skipn_length. fold L. replace (S - (L - (i + k) * S)) with 0 by nia. cbn [firstn]. apply app_nil_r.
  - rewrite !(proj2 (nth_error_None _ _)); [reflexivity| |]; rewrite firstn_length; lia.
Qed.
Lemma cut_count r : r_file r = f -> r_count r = N.
Proof. unfold r_count. intros ->. reflexivity. Qed.
Lemma filled_none b : mb_wf b -> filled f raw [] b b.
Proof.
  intros W. unfold filled. do 5 (split; [auto|]). split; [intros [|j] rec p E; discriminate|]. auto.
Qed.
Lemma read_none chunk r b i count : r_file r = f -> r_index r = i -> i <= N -> count <= mb_len b -> Nat.min count (N - i) = 0 -> las_read_into_o chunk r b count = Done (b, r, 0).
Proof.
  intros F I LE C Z. unfold las_read_into_o. destruct (Nat.leb_spec count (mb_len b)); [|lia]. cbn [assert pure obind].
  assert (RM : remaining_points r = Ok (N - i)). { unfold remaining_points. rewrite (cut_count r F), I. destruct (Nat.leb_spec i N); [reflexivity|lia]. }
  destruct (negb _); unfold read_into_custom_layout_o, read_into_default_layout_o; rewrite RM; cbn [pure obind]; rewrite Z; reflexivity.
Qed.

Definition into_ok (b : mbuf) (count : nat) : Prop := mb_wf b /\ count <= mb_len b /\ (mb_layout b = raw \/ readable (is_extended (h_format (f_header f))) raw (mb_layout b)).
Lemma read_cut chunk r b i count : cut_at r i -> into_ok b count -> S <= chunk ->
  let n := Nat.min count (N - i) in
  (exists b' r', las_read_into_o chunk r b count = Done (b', r', n) /\ cut_at r' (i + n) /\ (n = 0 \/ i + n <= length (stored_records f))
     /\ filled f raw (firstn n (skipn i (stored_records f))) b b')
  \/ exists r', las_read_into_o chunk r b count = Failed r' /\ lost_at r' (r_index r') /\ 0 < n /\ length (stored_records f) < i + n /\ i <= r_index r' <= i + n.
Proof.
  intros (F & X & I & LE & P) (W & LC & RD) CH n. destruct cut_sizes as (SZ & LR & U & G & SP).
  destruct (Nat.eq_dec n 0) as [N0|N0].
  { left. exists b, r. rewrite (read_none chunk r b i count F I LE LC N0), N0, Nat.add_0_r. split; [reflexivity|]. split; [repeat split; auto|]. split; [now left|]. cbn [firstn]. now apply filled_none. }
  assert (RA : reader_at whole raw (up r) i) by (repeat split; auto; rewrite LR; exact LE).
  destruct (read_into_ok whole raw FO chunk (up r) b i count RA W RD LC CH) as (b' & r1 & E & RA1 & FL). rewrite LR in E, RA1, FL. fold n in E, RA1, FL.
  pose proof (sim_into chunk r b count F) as SI. rewrite erase_into in SI by exact LAZ. rewrite E in SI. cbn [accepted bind] in SI.
  destruct RA1 as (A1 & A2 & A3 & A4 & A5). pose proof (Nat.div_mod L S ltac:(lia)) as DM. pose proof (Nat.mod_upper_bound L S ltac:(lia)) as MB. fold S in A5.
  destruct (las_read_into_o chunk r b count) as [[[b2 r2] n2]|r2|]; cbn [sim] in SI; [left|right|discriminate].
  - destruct SI as (Q & (F2 & X2) & _ & PB). cbn [lift3 fst snd] in Q. injection Q as Q1 Q2 Q3. subst b' r1 n2. cbn [fst snd] in *. cbn in A5. exists b2, r2. rewrite P in PB.
    assert (ST : i + n <= length (stored_records f)).
    { rewrite stored_length. assert ((i + n) * S <= L) by nia. assert (i + n <= L / S) by nia. unfold n. lia. }
    split; [reflexivity|]. split; [repeat split; auto; try congruence; try lia; exact A3|]. split; [now right|]. rewrite <- stored_same by exact ST. exact FL.
  - destruct SI as [Q|((F2 & X2) & PL & IL & Q)]; [discriminate|]. destruct (Q _ eq_refl) as (Q1 & Q2). cbn [fst snd] in Q1, Q2. rewrite A3 in Q1. rewrite A5 in Q2.
    exists r2. split; [reflexivity|]. split; [repeat split; auto; try congruence; lia|]. split; [lia|]. split; [|lia].
    rewrite stored_length. assert (L / S < i + n) by nia. lia.
Qed.

(* ---------- a lost reader ---------- *)
Lemma lost_read r m i : lost_at r i -> 0 < m -> exists r', read_exact_o r m = Failed r' /\ lost_at r' i.
Proof.
  intros (F & X & I & LE & P) M. unfold read_exact_o, read_exact. rewrite F. fold L. destruct (Nat.leb_spec (r_position r + m) L); [lia|]. cbn [pure].
  eexists. split; [reflexivity|]. unfold lost_at. cbn [with_position r_file r_exact_layout r_index r_position]. repeat split; auto. lia.
Qed.
Lemma lost_default chunk r b i count : lost_at r i -> mb_wf b -> mb_layout b = raw -> count <= mb_len b -> S <= chunk -> 0 < Nat.min count (N - i) ->
  exists r', read_into_default_layout_o chunk r b count = Failed r' /\ lost_at r' i.
Proof.
  intros LO W LB LC CH NP. pose proof LO as (F & X & I & LE & P). destruct cut_sizes as (SZ & LR & U & G & SP). unfold read_into_default_layout_o, remaining_points.
  rewrite (cut_count r F), I. destruct (Nat.leb_spec i N); [|lia]. cbn [assert bind pure obind]. set (n := Nat.min count (N - i)) in *. destruct (Nat.eqb_spec n 0); [lia|].
  assert (RS : r_size r = S) by (unfold r_size, h_record_length; rewrite F; exact SZ).
  rewrite mb_is_columnar_eq. destruct (mb_columnar b) eqn:C; cbn [negb].
  - rewrite RS. destruct (Nat.eqb_spec S 0); [lia|]. cbn [negb assert pure obind]. assert (PP : 0 < chunk / S) by (apply Nat.div_str_pos; lia). set (per := chunk / S) in *.
    destruct (Nat.eqb_spec per 0); [lia|]. cbn [negb assert pure obind]. pose proof (Nat.div_mod (n + per - 1) per ltac:(lia)) as DM. pose proof (Nat.mod_upper_bound (n + per - 1) per ltac:(lia)) as MB.
    set (c := (n + per - 1) / per) in *. assert (CP : 0 < c) by nia. unfold range. replace (c - 0) with (Datatypes.S (c - 1)) by lia. cbn [seq foldO fst snd]. rewrite RS.
    match goal with |- context [read_exact_o r ?m] => destruct (lost_read r m i LO) as (r' & E & LO') end.
    { destruct (Nat.eqb 0 (c - 1)); nia. }
    rewrite E. cbn [obind]. eauto.
  - rewrite (mb_points_ref b 0 n W C) by lia. cbn [pure obind]. destruct (wf_uniform b W) as [UB LB'].
    assert (LD' : length (concat (sub (mb_points b) 0 (n - 0))) = n * S).
    { rewrite (length_concat (l_size raw)) by (rewrite <- LB; now apply uniform_sub). rewrite length_sub by lia. unfold S. f_equal. lia. }
    rewrite LD'. destruct (lost_read r (n * S) i LO) as (r' & E & LO'); [nia|]. rewrite E. cbn [obind]. eauto.
Qed.
Lemma read_lost chunk r b i count : lost_at r i -> into_ok b count -> S <= chunk ->
  let n := Nat.min count (N - i) in
  n = 0 /\ las_read_into_o chunk r b count = Done (b, r, 0) \/ 0 < n /\ exists r', las_read_into_o chunk r b count = Failed r' /\ lost_at r' i.
Proof.
  intros LO (W & LC & RD) CH n. pose proof LO as (F & X & I & LE & P). destruct cut_sizes as (SZ & LR & U & G & SP).
  destruct (Nat.eq_dec n 0) as [N0|N0]; [left; split; [exact N0|]; exact (read_none chunk r b i count F I LE LC N0)|]. right. split; [lia|].
  unfold las_read_into_o. destruct (Nat.leb_spec count (mb_len b)); [|lia]. cbn [assert pure obind]. rewrite X. destruct (layout_eqb (mb_layout b) raw) eqn:LB; cbn [negb].
  - apply layout_eqb_eq in LB. apply lost_default; auto. unfold n in N0. lia.
  - destruct RD as [RD|RD]; [rewrite RD in LB; rewrite (proj2 (layout_eqb_eq raw raw) eq_refl) in LB; discriminate|].
    unfold read_into_custom_layout_o, remaining_points. rewrite (cut_count r F), I. destruct (Nat.leb_spec i N); [|lia]. cbn [assert bind pure obind]. fold n. destruct (Nat.eqb_spec n 0); [lia|].
    rewrite X. fold S. destruct (Nat.eqb_spec S 0); [lia|]. cbn [negb assert pure obind]. assert (PP : 0 < chunk / S) by (apply Nat.div_str_pos; lia). set (per := chunk / S) in *.
    destruct (Nat.eqb_spec per 0); [lia|]. cbn [negb assert pure obind]. rewrite F.
    destruct (converter_total _ raw (h_tr (f_header f)) (mb_layout b) (file_raw whole raw FO) (wf_good b W) RD) as (c & EC & _). rewrite EC. cbn [pure obind].
    pose proof (Nat.div_mod (n + per - 1) per ltac:(lia)) as DM. pose proof (Nat.mod_upper_bound (n + per - 1) per ltac:(lia)) as MB.
    set (k := (n + per - 1) / per) in *. assert (CP : 0 < k) by nia. unfold range. replace (k - 0) with (Datatypes.S (k - 1)) by lia. cbn [seq foldO fst snd].
    set (sz := if Nat.ltb 1 k then per else n). assert (ZP : 0 < sz) by (unfold sz; destruct (Nat.ltb 1 k); lia).
    assert (NK : n <= k * sz). { unfold sz. destruct (Nat.ltb_spec 1 k); [nia|]. replace k with 1 by lia. lia. }
    destruct (fresh_vec raw sz G) as (F1 & F2 & F3 & F4).
    match goal with |- context [read_into_default_layout_o chunk r ?cb ?m] => destruct (lost_default chunk r cb i m LO F1 F2) as (r' & E & LO') end.
    + rewrite F3. destruct (Nat.eqb_spec 0 (k - 1)); [|lia]. unfold sz. replace k with 1 by lia. cbn [Nat.ltb Nat.leb]. lia.
    + exact CH.
    + assert (n <= N - i) by (unfold n; lia). destruct (Nat.eqb_spec 0 (k - 1)) as [Q|Q].
      * replace k with 1 in * by lia. cbn [Nat.sub Nat.mul]. lia.
      * assert (sz <= n); [|lia]. unfold sz. destruct (Nat.ltb_spec 1 k); [|lia]. nia.
    + rewrite E. cbn [obind]. eauto.
Qed.

(* ---------- seeking ---------- *)
Definition seek_arg (s : seek_from) : Prop := match s with FromStart n => (0 <= n < 2 ^ 64)%Z | FromEnd n | FromCurrent n => (- 2 ^ 63 <= n < 2 ^ 63)%Z end.
Lemma seek_cut r i s : r_file r = f -> r_exact_layout r = raw -> r_index r = i -> i <= N -> (Z.of_nat N < 2 ^ 63)%Z -> seek_arg s ->
  match seek_target N i s with
  | Some j => exists r', las_seek_point r s = Ok (r', j) /\ j <= N /\ if Nat.eqb j i then r' = r else cut_at r' j
  | None => las_seek_point r s = Panic
  end.
Proof.
  intros F X I LE B SA. destruct cut_sizes as (SZ & LR & U & G & SP).
  set (rs := with_position (up r) (i * S)).
  assert (RA : reader_at whole raw rs i) by (repeat split; auto; rewrite LR; exact LE).
  pose proof (seek_ok whole raw FO rs i s RA) as SO. rewrite LR in SO. specialize (SO B SA). unfold las_seek_point in *.
  change (r_count rs) with (r_count (up r)) in SO. change (r_count (up r)) with N in SO. change (r_index rs) with (r_index r) in SO. rewrite (cut_count r F). rewrite I in *.
  match goal with |- match _ with Some _ => exists _, bind ?e _ = _ /\ _ | None => _ end => destruct e as [p| |]; cbn [bind] in * end.
  - destruct (p <? 0)%Z.
    + destruct (seek_target N i s); [|reflexivity]. destruct SO as (r' & E & _). discriminate.
    + cbv zeta in *. set (c := Z.to_nat (Z.min (Z.of_nat N) p)) in *. assert (CN : c <= N) by lia.
      assert (RS : r_size r = S) by (unfold r_size, h_record_length; rewrite F; exact SZ). rewrite RS.
      destruct (seek_target N i s) as [j|]; [|discriminate]. destruct SO as (r' & E & _). destruct (Nat.eqb_spec i c) as [<-|NE]; cbn [negb] in *.
      * injection E as _ E. change (r_index rs) with (r_index r) in E. rewrite I in E. subst j. exists r. rewrite I, Nat.eqb_refl. auto.
      * injection E as _ E. cbn in E. subst j. eexists. split; [reflexivity|]. split; [exact CN|]. destruct (Nat.eqb_spec c i); [congruence|]. repeat split; auto.
  - destruct (seek_target N i s); [|discriminate]. destruct SO as (r' & E & _). discriminate.
  - destruct (seek_target N i s); [|reflexivity]. destruct SO as (r' & E & _). discriminate.
Qed.

(* ---------- histories ---------- *)
Lemma run_cut_ok chunk ops : S <= chunk -> (Z.of_nat N < 2 ^ 63)%Z -> Forall (cut_op f raw) ops ->
  forall r i (lost : bool), (if lost then lost_at r i else cut_at r i) -> cut_run f raw i lost ops (run_cut chunk r ops).
Proof.
  intros CH B FA. induction FA as [|o ops O FA IH]; intros r i lost ST; [exact I|]. cbn [run_cut cut_run]. destruct o as [s|b count].
  - assert (SA : seek_arg s) by (destruct s; exact O).
    assert (BASE : r_file r = f /\ r_exact_layout r = raw /\ r_index r = i /\ i <= N) by (destruct lost; destruct ST as (? & ? & ? & ? & _); auto).
    destruct BASE as (F & X & I & LE). pose proof (seek_cut r i s F X I LE B SA) as SC. fold N. destruct (seek_target N i s) as [j|] eqn:T.
    + destruct SC as (r' & -> & LJ & H). split; [reflexivity|]. apply IH. destruct (Nat.eqb_spec j i) as [->|NE]; [subst r'; now rewrite andb_true_r|now rewrite andb_false_r].
    + rewrite SC. auto.
  - fold N. destruct lost.
    + destruct (read_lost chunk r b i count ST O CH) as [(N0 & ->)|(NP & r' & -> & LO)].
      * split; [now symmetry|]. split; [now left|]. split; [apply filled_none; apply O|]. rewrite Nat.add_0_r. now apply IH.
      * split; [exact NP|]. split; [now left|]. exists i. split; [lia|]. split; [auto|]. now apply IH.
    + destruct (read_cut chunk r b i count ST O CH) as [(b' & r' & -> & C & Q & FL)|(r' & -> & LO & NP & SL & IR)].
      * split; [reflexivity|]. split; [destruct Q; [now left|right; auto]|]. split; [exact FL|]. now apply IH.
      * split; [exact NP|]. split; [now right|]. exists (r_index r'). split; [exact IR|]. split; [discriminate|]. now apply IH.
Qed.
Lemma open_cut exact r : open_reader f exact = Ok r -> cut_at r 0.
Proof.
  intros O. pose proof (open_reader_ok whole raw exact (up r) FO) as H. unfold open_reader in *. cbn [whole f_laz f_header] in H. rewrite LAZ in *. cbn [andb] in *.
  destruct (point_layout_from_las_metadata _ _ exact) as [l| |]; try discriminate. cbn [bind] in *. destruct (point_layout_from_las_metadata _ _ true) as [el| |]; try discriminate. cbn [bind] in *.
  injection O as <-. destruct (H eq_refl) as (_ & X & _). repeat split; auto. cbn. lia.
Qed.
End Cut.

Lemma any_history f raw chunk exact r ops : cut_file f raw -> l_size raw <= chunk -> (Z.of_nat (stated f) < 2 ^ 63)%Z -> Forall (cut_op f raw) ops -> open_reader f exact = Ok r ->
  cut_run f raw 0 false ops (run_cut chunk r ops).
Proof.
  intros (LAZ & more & FO) CH B FA O. rewrite LAZ in FO. assert (FO' : file_ok (mk_file (f_laz f) (f_header f) (f_data f ++ more)) raw) by (rewrite LAZ; exact FO).
  exact (run_cut_ok f raw more LAZ FO' chunk ops CH B FA r 0 false (open_cut f raw more LAZ FO' exact r O)).
Qed.
Lemma same_results chunk r b count : f_laz (r_file r) = false ->
  (forall b' r' n, las_read_into_o chunk r b count = Done (b', r', n) <-> las_read_into chunk r b count = Ok (b', r', ReadPoints n))
  /\ (las_read_into_o chunk r b count = Crashed <-> las_read_into chunk r b count = Panic).
Proof.
  intros LZ. pose proof (erase_into chunk r b count LZ) as E. split; [intros b' r' n|];
  destruct (las_read_into_o chunk r b count) as [[[b1 r1] n1]|r1|], (las_read_into chunk r b count) as [[[b2 r2] [n2|]]| |]; cbn in E; split; intros H; congruence.
Qed.
