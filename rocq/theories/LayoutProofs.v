From Coq Require Import String List ZArith Lia Bool Arith.
From Verif Require Import Base LayoutModel LayoutSpec.
Import ListNotations.

(* ---------- arithmetic ---------- *)

Lemma align_to_spec x a : a <> 0 -> least (fun y => Nat.divide a y /\ x <= y) (align_to x a).
Proof.
  intros Ha. unfold align_to. destruct (Nat.eqb_spec a 0); [contradiction|].
  assert (E := Nat.div_mod (x + a - 1) a Ha).
  assert (B := Nat.mod_upper_bound (x + a - 1) a Ha).
  set (q := (x + a - 1) / a) in *. set (r := (x + a - 1) mod a) in *.
  split; [split|].
  - exists q. reflexivity.
  - rewrite (Nat.mul_comm a q) in E. lia.
  - intros m [[k Hk] Hx]. subst m.
    rewrite (Nat.mul_comm a q) in E.
    destruct (Nat.le_gt_cases q k) as [L|L].
    + apply Nat.mul_le_mono_r. exact L.
    + exfalso. assert (S k * a <= q * a) by (apply Nat.mul_le_mono_r; lia). simpl in H. lia.
Qed.

Lemma align_to_ge x a : x <= align_to x a.
Proof.
  destruct (Nat.eq_dec a 0) as [->|H].
  - reflexivity.
  - apply (align_to_spec x a H).
Qed.

Lemma least_unique P n m : least P n -> least P m -> n = m.
Proof. intros [A B] [C D]. pose proof (B _ C). pose proof (D _ A). lia. Qed.

Lemma is_pow2_spec n : is_pow2 n = true <-> power_of_two n.
Proof.
  unfold is_pow2, power_of_two. rewrite Nat.eqb_eq. split.
  - intros H. eexists. exact H.
  - intros [k ->]. rewrite Nat.log2_pow2 by lia. reflexivity.
Qed.

Lemma pow2_nonzero n : power_of_two n -> n <> 0.
Proof. intros [k ->]. apply Nat.pow_nonzero. lia. Qed.

Lemma pow2_min a b : power_of_two a -> power_of_two b -> power_of_two (Nat.min a b).
Proof. intros Ha Hb. destruct (Nat.min_spec a b) as [[_ ->]|[_ ->]]; assumption. Qed.
Lemma pow2_max a b : power_of_two a -> power_of_two b -> power_of_two (Nat.max a b).
Proof. intros Ha Hb. destruct (Nat.max_spec a b) as [[_ ->]|[_ ->]]; assumption. Qed.

(* ---------- lookups ---------- *)

Lemma find_none_name ms n :
  find (fun m => String.eqb (m_name m) n) ms = None <-> ~ In n (map m_name ms).
Proof.
  induction ms as [|m ms IH]; simpl; [tauto|].
  destruct (String.eqb_spec (m_name m) n) as [E|E].
  - split; [discriminate|]. intros H. exfalso. apply H. left. exact E.
  - rewrite IH. split; intros H; [intros [K|K]; auto|]; tauto.
Qed.

Lemma add_attribute_inv l a fa l' :
  add_attribute l a fa = Ok l' ->
  exists offset,
    ~ In (ad_name a) (map m_name (l_attrs l))
    /\ packed_offset_of_next_field l <= offset
    /\ l_attrs l' = l_attrs l ++ [at_offset_in_type a offset]
    /\ l_size l <= l_size l' /\ offset + dt_size (ad_type a) <= l_size l'.
Proof.
  unfold add_attribute, get_attribute_by_name. destruct (find _ _) eqn:F; [discriminate|].
  match goal with |- context [mem_layout_ok ?s ?a] => destruct (mem_layout_ok s a) end;
    [|discriminate].
  intros E. injection E as <-. simpl.
  match goal with |- context [align_to (packed_offset_of_next_field l) ?a] =>
    exists (align_to (packed_offset_of_next_field l) a); set (off := align_to (packed_offset_of_next_field l) a) in *;
    pose proof (align_to_ge (packed_offset_of_next_field l) a) end.
  match goal with |- context [align_to ?x ?a] => pose proof (align_to_ge x a) end.
  repeat split; try lia.
  - apply find_none_name. exact F.
Qed.

Lemma packed_next_snoc ms m s a : packed_offset_of_next_field (mk_layout (ms ++ [m]) s a) = m_offset m + m_size m.
Proof. unfold packed_offset_of_next_field. simpl. rewrite rev_app_distr. reflexivity. Qed.

(* last element *)
Definition next_of (ms : list member) : nat :=
  match rev ms with [] => 0 | m :: _ => m_offset m + m_size m end.
Lemma packed_next_of l : packed_offset_of_next_field l = next_of (l_attrs l).
Proof. reflexivity. Qed.
Lemma next_of_snoc ms m : next_of (ms ++ [m]) = m_offset m + m_size m.
Proof. unfold next_of. rewrite rev_app_distr. reflexivity. Qed.

Lemma nth_error_snoc {A} (l : list A) x i y :
  nth_error (l ++ [x]) i = Some y -> (i < length l /\ nth_error l i = Some y) \/ (i = length l /\ y = x).
Proof.
  intros H. destruct (Nat.lt_ge_cases i (length l)) as [L|L].
  - left. rewrite nth_error_app1 in H by lia. auto.
  - right. rewrite nth_error_app2 in H by lia.
    destruct (i - length l) as [|k] eqn:K.
    + simpl in H. injection H as ->. split; [lia|reflexivity].
    + simpl in H. destruct k; discriminate.
Qed.

Definition layout_inv (l : layout) : Prop :=
  NoDup (map m_name (l_attrs l))
  /\ increasing_members (l_attrs l)
  /\ (forall m, In m (l_attrs l) -> m_size m = dt_size (m_type m) /\ m_end m <= l_size l)
  /\ (forall m, In m (l_attrs l) -> m_end m <= next_of (l_attrs l)).

Lemma NoDup_snoc {A} (l : list A) x : NoDup l -> ~ In x l -> NoDup (l ++ [x]).
Proof.
  intros H K.
  induction l as [|a l IH]; simpl.
  - constructor; [intros []|constructor].
  - inversion H; subst. constructor.
    + rewrite in_app_iff. simpl. intros [C|[C|[]]]; [tauto|]. subst. apply K. left. reflexivity.
    + apply IH; [assumption|]. intros C. apply K. right. exact C.
Qed.

Lemma layout_inv_add l a fa l' : layout_inv l -> add_attribute l a fa = Ok l' -> layout_inv l'.
Proof.
  intros (ND & INC & SZ & NX) H. apply add_attribute_inv in H.
  destruct H as (off & NI & GE & EQ & S1 & S2). rewrite packed_next_of in GE.
  unfold layout_inv. rewrite EQ. repeat split.
  - rewrite map_app. simpl. apply NoDup_snoc; assumption.
  - intros i j mi mj L Hi Hj.
    apply nth_error_snoc in Hi. apply nth_error_snoc in Hj.
    destruct Hi as [[Li Hi]|[Li Hi]], Hj as [[Lj Hj]|[Lj Hj]]; try lia.
    + exact (INC i j mi mj L Hi Hj).
    + subst mj. simpl. apply nth_error_In in Hi. apply NX in Hi. unfold m_end in Hi. lia.
  - apply in_app_iff in H. simpl in H. destruct H as [H|[<-|[]]].
    + apply (SZ m H).
    + reflexivity.
  - apply in_app_iff in H. simpl in H. destruct H as [H|[<-|[]]].
    + apply SZ in H. lia.
    + unfold m_end. simpl. lia.
  - intros m H. rewrite next_of_snoc. apply in_app_iff in H. simpl in H. destruct H as [H|[<-|[]]].
    + apply NX in H. simpl. lia.
    + unfold m_end. lia.
Qed.

Lemma layout_inv_default : layout_inv layout_default.
Proof.
  unfold layout_inv. simpl. repeat split; try tauto.
  - constructor.
  - intros i j mi mj _ H. destruct i; discriminate.
Qed.

Definition add_history (h : list (attr_def * field_alignment)) : res layout :=
  foldM (fun l p => add_attribute l (fst p) (snd p)) h layout_default.

Lemma add_history_gen h : forall l l',
  layout_inv l -> foldM (fun l p => add_attribute l (fst p) (snd p)) h l = Ok l' ->
  layout_inv l' /\ map m_def (l_attrs l') = map m_def (l_attrs l) ++ map fst h.
Proof.
  induction h as [|[a fa] h IH]; intros l l' I H; simpl in H.
  - injection H as <-. rewrite app_nil_r. auto.
  - destruct (add_attribute l a fa) as [l1| |] eqn:E; simpl in H; try discriminate.
    pose proof (layout_inv_add _ _ _ _ I E) as I1.
    destruct (IH _ _ I1 H) as [I2 D]. split; [exact I2|].
    apply add_attribute_inv in E. destruct E as (off & _ & _ & EQ & _).
    rewrite D, EQ, map_app, <- app_assoc. reflexivity.
Qed.

Lemma increasing_disjoint ms : increasing_members ms -> disjoint_members ms.
Proof.
  intros H i j mi mj b N Hi Hj [O1 O2] [O3 O4].
  destruct (Nat.lt_ge_cases i j).
  - pose proof (H i j mi mj H0 Hi Hj). lia.
  - assert (j < i) by lia. pose proof (H j i mj mi H1 Hj Hi). lia.
Qed.

Lemma grown_layout h l :
  add_history h = Ok l ->
  map m_def (l_attrs l) = map fst h
  /\ NoDup (map m_name (l_attrs l))
  /\ (forall m, In m (l_attrs l) -> m_size m = dt_size (m_type m))
  /\ increasing_members (l_attrs l)
  /\ disjoint_members (l_attrs l)
  /\ (forall m b, In m (l_attrs l) -> occupies m b -> b < l_size l).
Proof.
  intros H. apply add_history_gen in H; [|apply layout_inv_default].
  destruct H as [(ND & INC & SZ & NX) D]. repeat split; auto.
  - apply SZ; assumption.
  - apply increasing_disjoint. exact INC.
  - intros m b Hm Hb. apply SZ in Hm. unfold m_end in Hm. destruct Hb. lia.
Qed.

(* ---------- repr(C) and packed ---------- *)

Lemma foldM_snoc {A S} (f : S -> A -> res S) l a s :
  foldM f (l ++ [a]) s = (let* s' := foldM f l s in f s' a).
Proof.
  revert s. induction l as [|x l IH]; intros s; simpl.
  - destruct (f s a); reflexivity.
  - destruct (f s x); simpl; auto.
Qed.

Lemma placed_snoc cur fs os e s a o :
  placed cur fs os e -> least (fun x => Nat.divide a x /\ e <= x) o ->
  placed cur (fs ++ [(s, a)]) (os ++ [o]) (o + s).
Proof.
  intros H. revert s a o. induction H; intros s a o' L; simpl.
  - econstructor; [exact L|constructor].
  - econstructor; [exact H|]. apply IHplaced. exact L.
Qed.

Lemma placed_fun cur fs os e : placed cur fs os e -> forall os' e', placed cur fs os' e' -> os = os' /\ e = e'.
Proof.
  induction 1; intros os' e' H'; inversion H'; subst; auto.
  assert (o = o0) by (eapply least_unique; eauto). subst.
  destruct (IHplaced _ _ H8) as [-> ->]. auto.
Qed.

Lemma placed_mono cur fs os e : placed cur fs os e -> cur <= e.
Proof.
  induction 1; [lia|]. destruct H as [[_ H] _]. lia.
Qed.

Lemma pow2_divide a b : power_of_two a -> power_of_two b -> a <= b -> Nat.divide a b.
Proof.
  intros [i ->] [j ->] H. apply Nat.pow_le_mono_r_iff in H; [|lia].
  exists (2 ^ (j - i)). rewrite <- Nat.pow_add_r. f_equal. lia.
Qed.

Lemma struct_alignment_snoc n als a b :
  struct_alignment n als a -> struct_alignment n (als ++ [b]) (Nat.max a b).
Proof.
  intros (H1 & H2 & H3). repeat split.
  - lia.
  - intros c Hc. apply in_app_iff in Hc. destruct Hc as [Hc|[<-|[]]]; [apply H2 in Hc|]; lia.
  - rewrite in_app_iff. destruct (Nat.max_spec a b) as [[_ ->]|[_ ->]].
    + right. right. left. reflexivity.
    + destruct H3; auto.
Qed.

Lemma struct_alignment_fun n als a b : struct_alignment n als a -> struct_alignment n als b -> a = b.
Proof.
  intros (A1 & A2 & A3) (B1 & B2 & B3).
  destruct A3 as [->|A3], B3 as [->|B3]; auto.
  - apply A2 in B3. lia.
  - apply B2 in A3. lia.
  - apply A2 in B3. apply B2 in A3. lia.
Qed.

Lemma c_struct_fun n fs os s a os' s' a' :
  c_struct_aligned n fs os s a -> c_struct_aligned n fs os' s' a' -> os = os' /\ s = s' /\ a = a'.
Proof.
  intros (e & P & A & L) (e' & P' & A' & L').
  destruct (placed_fun _ _ _ _ P _ _ P') as [-> ->].
  assert (a = a') by (eapply struct_alignment_fun; eauto). subst.
  repeat split. eapply least_unique; eauto.
Qed.

(* size and alignment only grow when a field is appended *)
Lemma c_struct_snoc fs os s a f :
  (forall x, In x fs -> power_of_two (snd x)) -> power_of_two (snd f) ->
  c_struct fs os s a ->
  exists o s' a', c_struct (fs ++ [f]) (os ++ [o]) s' a'
    /\ a' = Nat.max a (snd f)
    /\ power_of_two a'
    /\ (forall e, placed 0 fs os e -> o = align_to e (snd f))
    /\ s <= s' /\ a <= a' /\ s' = align_to (Nat.max s (o + fst f)) a'.
Proof.
  intros Pf Pl (e & P & A & L). destruct f as [sz al]. simpl in *.
  pose proof (align_to_spec e al (pow2_nonzero _ Pl)) as Lo.
  set (o := align_to e al) in *.
  assert (Pa : power_of_two a).
  { destruct A as (_ & _ & [->|A]); [exists 0; reflexivity|].
    apply in_map_iff in A. destruct A as (x & <- & Hx). apply Pf. exact Hx. }
  assert (Pm : power_of_two (Nat.max a al)) by (apply pow2_max; assumption).
  pose proof (align_to_spec (o + sz) (Nat.max a al) (pow2_nonzero _ Pm)) as Ls.
  set (s' := align_to (o + sz) (Nat.max a al)) in *.
  assert (Hs : s <= s').
  { apply L. destruct Ls as [[D G] _]. split.
    - eapply Nat.divide_trans; [|exact D]. apply pow2_divide; auto. lia.
    - destruct Lo as [[_ Lo] _]. lia. }
  exists o, s', (Nat.max a al). repeat split.
  - exists (o + sz). split; [|split].
    + apply placed_snoc with (e := e); assumption.
    + rewrite map_app. apply struct_alignment_snoc. exact A.
    + exact Ls.
  - exact Pm.
  - intros e' P'. destruct (placed_fun _ _ _ _ P _ _ P') as [_ <-]. reflexivity.
  - exact Hs.
  - lia.
  - eapply least_unique; [exact Ls|].
    assert (Q := align_to_spec (Nat.max s (o + sz)) (Nat.max a al) (pow2_nonzero _ Pm)).
    destruct Q as [[Q1 Q2] Q3]. split; [split; [exact Q1|lia]|].
    intros m Hm. apply Q3. split; [tauto|].
    assert (s' <= m) by (apply Ls; exact Hm). lia.
Qed.

Definition fields_of (attrs : list attr_def) : list (nat * nat) :=
  map (fun a => (dt_size (ad_type a), dt_align (ad_type a))) attrs.

Lemma from_attributes_c_struct attrs : forall l,
  (forall a, In a attrs -> power_of_two (dt_align (ad_type a))) ->
  from_attributes attrs = Ok l ->
  map m_def (l_attrs l) = attrs
  /\ c_struct (fields_of attrs) (map m_offset (l_attrs l)) (l_size l) (l_align l)
  /\ placed 0 (fields_of attrs) (map m_offset (l_attrs l)) (next_of (l_attrs l)).
Proof.
  unfold from_attributes.
  induction attrs as [|a attrs IH] using rev_ind; intros l P H.
  - injection H as <-. simpl. repeat split.
    + exists 0. repeat split; simpl; try tauto; try lia.
      * constructor.
      * exists 0. reflexivity.
    + constructor.
  - rewrite foldM_snoc in H.
    destruct (foldM _ attrs _) as [l0| |] eqn:E; simpl in H; try discriminate.
    destruct (IH l0) as (D & C & PL); [|reflexivity|].
    { intros x Hx. apply P. apply in_app_iff. auto. }
    assert (Pa : power_of_two (dt_align (ad_type a))).
    { apply P. apply in_app_iff. right. left. reflexivity. }
    destruct (fun PF => @c_struct_snoc _ _ _ _ (dt_size (ad_type a), dt_align (ad_type a)) PF Pa C)
      as (o & s' & a' & C' & Ea & Pa' & Eo & Ls & La & Es).
    { unfold fields_of. intros x Hx. apply in_map_iff in Hx. destruct Hx as (y & <- & Hy).
      simpl. apply P. apply in_app_iff. auto. }
    unfold add_attribute in H. destruct (get_attribute_by_name _ _); [discriminate|].
    rewrite packed_next_of in H. simpl in Eo, Ea, Es. rewrite <- (Eo _ PL) in H.
    rewrite <- Ea in H. rewrite <- Es in H.
    destruct (mem_layout_ok s' a'); [|discriminate].
    injection H as <-. simpl.
    unfold fields_of in *. rewrite !map_app. simpl. rewrite D.
    repeat split.
    + exact C'.
    + rewrite next_of_snoc. simpl. apply placed_snoc with (e := next_of (l_attrs l0)); [exact PL|].
      rewrite (Eo _ PL). apply align_to_spec. apply pow2_nonzero. exact Pa.
Qed.

Lemma from_attributes_succeeds attrs :
  NoDup (map ad_name attrs) ->
  (forall a, In a attrs -> power_of_two (dt_align (ad_type a))) ->
  (forall os s a, c_struct (fields_of attrs) os s a -> (Z.of_nat s + Z.of_nat a <= 2 ^ 63)%Z) ->
  exists l, from_attributes attrs = Ok l.
Proof.
  unfold from_attributes.
  induction attrs as [|a attrs IH] using rev_ind; intros ND P FIT.
  - eexists. reflexivity.
  - assert (P0 : forall x, In x attrs -> power_of_two (dt_align (ad_type x))).
    { intros x Hx. apply P. apply in_app_iff. auto. }
    assert (Pa : power_of_two (dt_align (ad_type a))).
    { apply P. apply in_app_iff. right. left. reflexivity. }
    assert (PF : forall x, In x (fields_of attrs) -> power_of_two (snd x)).
    { unfold fields_of. intros x Hx. apply in_map_iff in Hx. destruct Hx as (y & <- & Hy). simpl; auto. }
    rewrite map_app in ND. simpl in ND.
    destruct IH as [l E].
    { apply NoDup_remove_1 in ND. rewrite app_nil_r in ND. exact ND. }
    { exact P0. }
    { intros os s al C.
      destruct (@c_struct_snoc _ _ _ _ (dt_size (ad_type a), dt_align (ad_type a)) PF Pa C)
        as (o & s' & a' & C' & _ & _ & _ & Ls & La & _).
      assert (F := FIT (os ++ [o]) s' a'). unfold fields_of in *. rewrite map_app in F.
      specialize (F C'). lia. }
    rewrite foldM_snoc, E. simpl.
    destruct (from_attributes_c_struct attrs l P0 E) as (D & C & PL).
    destruct (@c_struct_snoc _ _ _ _ (dt_size (ad_type a), dt_align (ad_type a)) PF Pa C)
      as (o & s' & a' & C' & Ea & Pa' & Eo & Ls & La & Es).
    unfold add_attribute. simpl in Eo, Ea, Es.
    destruct (get_attribute_by_name l (ad_name a)) eqn:G.
    { exfalso. unfold get_attribute_by_name in G. apply NoDup_remove_2 in ND. rewrite app_nil_r in ND.
      apply ND. rewrite <- D.
      apply find_some in G. destruct G as [G1 G2]. apply String.eqb_eq in G2.
      rewrite map_map. rewrite <- G2. apply (in_map (fun x => ad_name (m_def x))). exact G1. }
    rewrite packed_next_of. rewrite <- (Eo _ PL), <- Ea, <- Es.
    assert (F : mem_layout_ok s' a' = true).
    { unfold mem_layout_ok. apply andb_true_intro. split; [apply is_pow2_spec; exact Pa'|].
      apply Z.leb_le. eapply (FIT (map m_offset (l_attrs l) ++ [o])).
      unfold fields_of in *. rewrite map_app. exact C'. }
    rewrite F. eexists. reflexivity.
Qed.

(* from_attributes panics when names repeat *)
Lemma add_history_names h l : add_history h = Ok l -> NoDup (map ad_name (map fst h)).
Proof.
  intros H. apply grown_layout in H. destruct H as (D & ND & _).
  rewrite <- D, map_map. exact ND.
Qed.

Lemma foldM_map {A B S} (f : S -> B -> res S) (g : A -> B) l : forall s,
  foldM f (map g l) s = foldM (fun s a => f s (g a)) l s.
Proof. induction l as [|a l IH]; intros s; simpl; [reflexivity|]. destruct (f s (g a)); simpl; auto. Qed.

Lemma foldM_ext {A S} (f g : S -> A -> res S) l : (forall s a, f s a = g s a) ->
  forall s, foldM f l s = foldM g l s.
Proof. intros E. induction l as [|a l IH]; intros s; simpl; [reflexivity|]. rewrite E. destruct (g s a); simpl; auto. Qed.

Lemma from_attributes_history attrs : from_attributes attrs = add_history (map (fun a => (a, Default)) attrs).
Proof. unfold from_attributes, add_history. rewrite foldM_map. reflexivity. Qed.
Lemma from_packed_history attrs n : from_attributes_packed attrs n = add_history (map (fun a => (a, Packed n)) attrs).
Proof. unfold from_attributes_packed, add_history. rewrite foldM_map. reflexivity. Qed.

Lemma from_attributes_names attrs l : from_attributes attrs = Ok l -> NoDup (map ad_name attrs).
Proof.
  rewrite from_attributes_history. intros H. apply add_history_names in H.
  rewrite !map_map in H. exact H.
Qed.

(* packed *)
Lemma from_packed_offsets attrs n : forall l,
  n <> 0 -> (forall a, In a attrs -> dt_align (ad_type a) <> 0) ->
  from_attributes_packed attrs n = Ok l ->
  map m_def (l_attrs l) = attrs
  /\ placed 0 (map (fun f => (fst f, Nat.min n (snd f))) (fields_of attrs))
            (map m_offset (l_attrs l)) (next_of (l_attrs l))
  /\ l_align l = 1 /\ l_size l = next_of (l_attrs l).
Proof.
  unfold from_attributes_packed.
  induction attrs as [|a attrs IH] using rev_ind; intros l N0 P H.
  - injection H as <-. simpl. repeat split. constructor.
  - rewrite foldM_snoc in H.
    destruct (foldM _ attrs _) as [l0| |] eqn:E; simpl in H; try discriminate.
    destruct (IH l0) as (D & PL & AL & SZ); auto.
    { intros x Hx. apply P. apply in_app_iff. auto. }
    assert (Pa : dt_align (ad_type a) <> 0).
    { apply P. apply in_app_iff. right. left. reflexivity. }
    unfold add_attribute in H. destruct (get_attribute_by_name _ _); [discriminate|].
    destruct (mem_layout_ok _ _); [|discriminate].
    injection H as <-. simpl. rewrite packed_next_of in *.
    set (al := Nat.min n (dt_align (ad_type a))) in *.
    assert (A0 : al <> 0) by lia.
    pose proof (align_to_spec (next_of (l_attrs l0)) al A0) as L.
    set (o := align_to (next_of (l_attrs l0)) al) in *.
    unfold fields_of in *. rewrite !map_app. simpl. rewrite D. rewrite next_of_snoc. simpl.
    assert (M1 : Nat.min n (l_align l0) = 1) by lia.
    repeat split.
    + apply placed_snoc with (e := next_of (l_attrs l0)); [exact PL|exact L].
    + exact M1.
    + rewrite M1. unfold align_to. simpl. rewrite Nat.mul_1_r.
      rewrite SZ. destruct L as [[_ L] _].
      replace (Nat.max (next_of (l_attrs l0)) (o + dt_size (ad_type a))) with (o + dt_size (ad_type a)) by lia.
      rewrite Nat.add_sub. apply Nat.div_1_r.
Qed.

Lemma from_packed1_c_struct attrs l :
  (forall a, In a attrs -> dt_align (ad_type a) <> 0) ->
  from_attributes_packed attrs 1 = Ok l ->
  packed_struct 1 (fields_of attrs) (map m_offset (l_attrs l)) (l_size l) (l_align l).
Proof.
  intros P H. destruct (from_packed_offsets attrs 1 l) as (D & PL & AL & SZ); auto.
  exists (next_of (l_attrs l)). split; [exact PL|]. rewrite AL, SZ. split.
  - repeat split; [lia| |left; reflexivity].
    intros b Hb. unfold fields_of in Hb. rewrite !map_map in Hb. apply in_map_iff in Hb.
    destruct Hb as (x & <- & _). cbn [fst snd]. lia.
  - split; [split; [exists (next_of (l_attrs l)); lia|lia]|]. intros m [_ Hm]. exact Hm.
Qed.

(* ---------- from_members_and_alignment ---------- *)

Lemma existsb_eqb_In x l : existsb (String.eqb x) l = true <-> In x l.
Proof.
  rewrite existsb_exists. split.
  - intros (y & H & E). apply String.eqb_eq in E. subst. exact H.
  - intros H. exists x. rewrite String.eqb_refl. auto.
Qed.

Lemma unique_count_le l : unique_count l <= length l.
Proof. induction l as [|x l IH]; simpl; [lia|]. destruct (existsb _ _); lia. Qed.

Lemma unique_count_NoDup l : unique_count l = length l <-> NoDup l.
Proof.
  induction l as [|x l IH]; simpl.
  - split; [constructor|reflexivity].
  - destruct (existsb (String.eqb x) l) eqn:E.
    + apply existsb_eqb_In in E. split.
      * pose proof (unique_count_le l). lia.
      * intros H. inversion H; subst. tauto.
    + assert (N : ~ In x l). { intros C. apply existsb_eqb_In in C. congruence. }
      split.
      * intros H. constructor; [exact N|]. apply IH. lia.
      * intros H. inversion H; subst. f_equal. apply IH. assumption.
Qed.

Definition starts_sorted (l : list (nat * nat)) : Prop :=
  forall i j a b, i < j -> nth_error l i = Some a -> nth_error l j = Some b -> fst a <= fst b.

Inductive sorted_from : nat -> list (nat * nat) -> Prop :=
| sf_nil n : sorted_from n []
| sf_cons n a l : n <= fst a -> sorted_from (fst a) l -> sorted_from n (a :: l).

Lemma sorted_from_weaken n m l : m <= n -> sorted_from n l -> sorted_from m l.
Proof. intros L H. inversion H; subst; constructor; [lia|assumption]. Qed.

Lemma insert_sorted r l : forall n, n <= fst r -> sorted_from n l -> sorted_from n (insert_by_start r l).
Proof.
  induction l as [|x l IH]; intros n L H; simpl.
  - constructor; [exact L|constructor].
  - inversion H; subst. destruct (Nat.leb_spec (fst r) (fst x)).
    + constructor; [exact L|]. constructor; assumption.
    + constructor; [assumption|]. apply IH; [lia|assumption].
Qed.

Lemma sort_sorted l : sorted_from 0 (sort_by_start l).
Proof.
  induction l as [|r l IH]; simpl; [constructor|].
  apply insert_sorted; [lia|exact IH].
Qed.

From Coq Require Import Permutation.

Lemma insert_perm r l : Permutation (insert_by_start r l) (r :: l).
Proof.
  induction l as [|x l IH]; simpl; [apply Permutation_refl|].
  destruct (Nat.leb _ _); [apply Permutation_refl|].
  rewrite IH. apply perm_swap.
Qed.

Lemma sort_perm l : Permutation (sort_by_start l) l.
Proof.
  induction l as [|r l IH]; simpl; [constructor|].
  rewrite insert_perm. constructor. exact IH.
Qed.

Fixpoint last_opt {A} (l : list A) : option A :=
  match l with
  | [] => None
  | a :: l' => match last_opt l' with None => Some a | Some b => Some b end
  end.

Lemma last_opt_none {A} (l : list A) : last_opt l = None -> l = [].
Proof. destruct l as [|a l]; simpl; [reflexivity|]. destruct (last_opt l); discriminate. Qed.

Lemma last_opt_In {A} (l : list A) x : last_opt l = Some x -> In x l.
Proof.
  induction l as [|a l IH]; simpl; [discriminate|].
  destruct (last_opt l) eqn:E; intros H; injection H as ->; auto.
Qed.

Lemma sorted_from_last n l x : sorted_from n l -> last_opt l = Some x -> n <= fst x.
Proof.
  intros H. revert x. induction H; intros x; simpl; [discriminate|].
  destruct (last_opt l) eqn:E; intros HH; injection HH as <-; [|exact H].
  specialize (IHsorted_from p eq_refl). lia.
Qed.

Lemma insert_last r l : forall n, sorted_from n l ->
  last_opt (insert_by_start r l) =
  match last_opt l with
  | None => Some r
  | Some x => if Nat.ltb (fst x) (fst r) then Some r else Some x
  end.
Proof.
  induction l as [|x l IH]; intros n H; simpl; [reflexivity|].
  inversion H; subst. specialize (IH _ H4).
  destruct (Nat.leb_spec (fst r) (fst x)); simpl.
  - destruct (last_opt l) eqn:E.
    + pose proof (sorted_from_last _ _ _ H4 E).
      destruct (Nat.ltb_spec (fst p) (fst r)); [lia|reflexivity].
    + destruct (Nat.ltb_spec (fst x) (fst r)); [lia|reflexivity].
  - rewrite IH. destruct (last_opt l) eqn:E.
    + destruct (Nat.ltb (fst p) (fst r)); reflexivity.
    + destruct (Nat.ltb_spec (fst x) (fst r)); [reflexivity|lia].
Qed.

Definition range_of (m : member) : nat * nat := (m_offset m, m_offset m + m_size m).

Lemma sort_last ms :
  last_opt (sort_by_start (map range_of ms)) = option_map range_of (last_max_by_offset ms).
Proof.
  induction ms as [|m ms IH]; simpl; [reflexivity|].
  rewrite (insert_last _ _ 0) by apply sort_sorted. rewrite IH.
  destruct (last_max_by_offset ms) as [m'|]; simpl; [|reflexivity].
  destruct (Nat.ltb _ _); reflexivity.
Qed.

Lemma adjacent_head_last a l :
  Forall (fun r => fst r <= snd r) (a :: l) -> adjacent_ok (a :: l) = true ->
  forall x, In x l -> snd a <= fst x.
Proof.
  revert a. induction l as [|b l IH]; intros a F H x Hx; [destruct Hx|].
  simpl in H. apply andb_true_iff in H. destruct H as [H1 H2].
  apply negb_true_iff, Nat.ltb_ge in H1.
  destruct Hx as [<-|Hx]; [exact H1|].
  inversion F; subst. specialize (IH b H4 H2 x Hx). inversion H4; subst. lia.
Qed.

Lemma adjacent_tail a l : adjacent_ok (a :: l) = true -> adjacent_ok l = true.
Proof. destruct l as [|b l]; simpl; [reflexivity|]. intros H. apply andb_true_iff in H. apply H. Qed.

Lemma adjacent_last_end l x :
  Forall (fun r => fst r <= snd r) l -> adjacent_ok l = true -> last_opt l = Some x ->
  forall y, In y l -> snd y <= snd x.
Proof.
  induction l as [|a l IH]; intros F H L y Hy; [destruct Hy|].
  simpl in L. destruct (last_opt l) eqn:E.
  - injection L as ->. pose proof (adjacent_tail _ _ H). inversion F; subst.
    destruct Hy as [<-|Hy]; [|apply IH; auto].
    pose proof (adjacent_head_last _ _ F H x (last_opt_In _ _ E)).
    rewrite Forall_forall in H4. specialize (H4 x (last_opt_In _ _ E)). lia.
  - injection L as ->. apply last_opt_none in E. subst l. destruct Hy as [<-|[]]. lia.
Qed.

(* pairwise separation, invariant under permutation *)
Definition sep (a b : nat * nat) : Prop := snd a <= fst b \/ snd b <= fst a.
Fixpoint pairwise {A} (R : A -> A -> Prop) (l : list A) : Prop :=
  match l with [] => True | a :: l' => (forall b, In b l' -> R a b) /\ pairwise R l' end.

Lemma pairwise_perm {A} (R : A -> A -> Prop) l l' :
  (forall a b, R a b -> R b a) -> Permutation l l' -> pairwise R l -> pairwise R l'.
Proof.
  intros S P. induction P; simpl; auto.
  - intros [H1 H2]. split; [|auto]. intros b Hb. apply H1.
    eapply Permutation_in; [apply Permutation_sym; exact P|exact Hb].
  - intros (H1 & H2 & H3). repeat split.
    + intros b [<-|Hb]; auto.
    + intros b Hb. apply H1. right. exact Hb.
    + exact H3.
Qed.

Lemma pairwise_nth {A} (R : A -> A -> Prop) l :
  (forall a b, R a b -> R b a) -> pairwise R l ->
  forall i j a b, i <> j -> nth_error l i = Some a -> nth_error l j = Some b -> R a b.
Proof.
  intros S. induction l as [|x l IH]; intros P i j a b N Hi Hj; [destruct i; discriminate|].
  destruct P as [P1 P2]. destruct i as [|i], j as [|j]; simpl in *; try congruence.
  - injection Hi as ->. apply P1. eapply nth_error_In; eauto.
  - injection Hj as ->. apply S, P1. eapply nth_error_In; eauto.
  - apply (IH P2 i j); auto.
Qed.

Lemma nth_pairwise {A} (R : A -> A -> Prop) l :
  (forall i j a b, i <> j -> nth_error l i = Some a -> nth_error l j = Some b -> R a b) ->
  pairwise R l.
Proof.
  induction l as [|x l IH]; intros H; simpl; [exact I|]. split.
  - intros b Hb. apply In_nth_error in Hb. destruct Hb as [n Hn].
    apply (H 0 (S n)); auto.
  - apply IH. intros i j a b N Hi Hj. apply (H (S i) (S j)); auto.
Qed.

Lemma adjacent_pairwise l :
  Forall (fun r => fst r <= snd r) l -> adjacent_ok l = true -> pairwise sep l.
Proof.
  induction l as [|a l IH]; intros F H; simpl; [exact I|]. split.
  - intros b Hb. left. eapply adjacent_head_last; eauto.
  - inversion F; subst. apply IH; [assumption|]. eapply adjacent_tail; eauto.
Qed.

Lemma sorted_pairwise_adjacent l : forall n,
  Forall (fun r => fst r < snd r) l -> sorted_from n l -> pairwise sep l -> adjacent_ok l = true.
Proof.
  induction l as [|a l IH]; intros n F S P; [reflexivity|].
  destruct l as [|b l]; [reflexivity|].
  inversion F; subst. inversion S; subst. destruct P as [P1 P2].
  cbn [adjacent_ok]. apply andb_true_intro. split.
  - apply negb_true_iff, Nat.ltb_ge. destruct (P1 b (or_introl eq_refl)) as [K|K]; [exact K|].
    inversion H2; subst. inversion H5; subst. lia.
  - eapply IH; eauto.
Qed.

Lemma sep_sym a b : sep a b -> sep b a. Proof. unfold sep. tauto. Qed.

Lemma from_members_sound ms al l :
  from_members_and_alignment ms al = Ok l ->
  l_attrs l = ms /\ l_align l = al
  /\ NoDup (map m_name ms) /\ disjoint_members ms /\ power_of_two al
  /\ least (fun s => Nat.divide al s /\ forall m, In m ms -> m_offset m + m_size m <= s) (l_size l)
  /\ (Z.of_nat (l_size l) + Z.of_nat al <= 2 ^ 63)%Z.
Proof.
  unfold from_members_and_alignment.
  destruct (Nat.eqb_spec (unique_count (map m_name ms)) (length ms)) as [U|U]; [|discriminate].
  simpl. destruct (adjacent_ok _) eqn:A; [|discriminate]. simpl.
  destruct (mem_layout_ok _ _) eqn:M; [|discriminate].
  intros H. injection H as <-. simpl. unfold mem_layout_ok in M. apply andb_true_iff in M.
  destruct M as [M1 M2]. apply is_pow2_spec in M1. apply Z.leb_le in M2.
  fold range_of in A.
  assert (F : Forall (fun r => fst r <= snd r) (sort_by_start (map range_of ms))).
  { apply Forall_forall. intros r Hr.
    apply (Permutation_in _ (sort_perm _)) in Hr. apply in_map_iff in Hr.
    destruct Hr as (m & <- & _). simpl. lia. }
  assert (AL := adjacent_pairwise _ F A).
  apply (pairwise_perm sep _ _ sep_sym (sort_perm _)) in AL.
  repeat split; auto.
  - apply unique_count_NoDup. rewrite map_length. exact U.
  - intros i j mi mj b N Hi Hj [O1 O2] [O3 O4].
    assert (S := pairwise_nth sep _ sep_sym AL i j (range_of mi) (range_of mj) N
                  (map_nth_error range_of i ms Hi) (map_nth_error range_of j ms Hj)).
    unfold sep, range_of in S. simpl in S. lia.
  - apply align_to_spec. apply pow2_nonzero. exact M1.
  - intros m Hm. eapply Nat.le_trans; [|apply align_to_ge].
    pose proof (sort_last ms) as SL.
    destruct (last_max_by_offset ms) as [x|] eqn:E; simpl in SL.
    + change (m_offset x + m_size x) with (snd (range_of x)).
      change (m_offset m + m_size m) with (snd (range_of m)).
      eapply adjacent_last_end; [exact F|exact A|exact SL|].
      apply (Permutation_in _ (Permutation_sym (sort_perm _))). apply in_map. exact Hm.
    + apply last_opt_none in SL.
      assert (P := sort_perm (map range_of ms)). rewrite SL in P.
      apply Permutation_nil in P. destruct ms; [destruct Hm|discriminate].
  - intros s [D C]. apply align_to_spec; [apply pow2_nonzero; exact M1|]. split; [exact D|].
    destruct (last_max_by_offset ms) as [x|] eqn:E; [|lia].
    apply C. clear -E. revert x E. induction ms as [|m ms IH]; simpl; intros x E; [discriminate|].
    destruct (last_max_by_offset ms) as [m'|].
    + destruct (Nat.ltb _ _); injection E as ->; auto.
    + injection E as ->. auto.
Qed.

Lemma from_members_complete ms al :
  NoDup (map m_name ms) -> disjoint_members ms -> power_of_two al ->
  (forall m, In m ms -> 0 < m_size m) ->
  (forall s, least (fun s => Nat.divide al s /\ forall m, In m ms -> m_offset m + m_size m <= s) s ->
             (Z.of_nat s + Z.of_nat al <= 2 ^ 63)%Z) ->
  exists l, from_members_and_alignment ms al = Ok l.
Proof.
  intros ND D P SZ FIT. unfold from_members_and_alignment.
  apply unique_count_NoDup in ND. rewrite map_length in ND. rewrite ND, Nat.eqb_refl. simpl.
  assert (PW : pairwise sep (map range_of ms)).
  { apply nth_pairwise. intros i j a b N Hi Hj.
    rewrite nth_error_map in Hi, Hj.
    destruct (nth_error ms i) as [mi|] eqn:Ei; [|discriminate].
    destruct (nth_error ms j) as [mj|] eqn:Ej; [|discriminate].
    injection Hi as <-. injection Hj as <-. unfold sep, range_of. simpl.
    assert (0 < m_size mi) by (apply SZ; eapply nth_error_In; eauto).
    assert (0 < m_size mj) by (apply SZ; eapply nth_error_In; eauto).
    destruct (Nat.le_gt_cases (m_offset mi + m_size mi) (m_offset mj)); [auto|].
    destruct (Nat.le_gt_cases (m_offset mj + m_size mj) (m_offset mi)); [auto|].
    exfalso. apply (D i j mi mj (Nat.max (m_offset mi) (m_offset mj)) N Ei Ej); split; lia. }
  assert (A : adjacent_ok (sort_by_start (map range_of ms)) = true).
  { eapply sorted_pairwise_adjacent; [|apply sort_sorted|].
    - apply Forall_forall. intros r Hr.
      apply (Permutation_in _ (sort_perm _)) in Hr. apply in_map_iff in Hr.
      destruct Hr as (m & <- & Hm). apply SZ in Hm. simpl. lia.
    - eapply pairwise_perm; [apply sep_sym|apply Permutation_sym, sort_perm|exact PW]. }
  fold range_of. rewrite A. simpl.
  destruct (mem_layout_ok _ _) eqn:M; [eexists; reflexivity|].
  exfalso. unfold mem_layout_ok in M.
  assert (Q : is_pow2 al = true) by (apply is_pow2_spec; exact P). rewrite Q in M. simpl in M.
  apply Z.leb_gt in M.
  match type of M with (_ < Z.of_nat ?s + _)%Z => specialize (FIT s) end.
  apply Z.lt_nge in M. apply M, FIT. clear M FIT.
  assert (F : Forall (fun r => fst r <= snd r) (sort_by_start (map range_of ms))).
  { apply Forall_forall. intros r Hr.
    apply (Permutation_in _ (sort_perm _)) in Hr. apply in_map_iff in Hr.
    destruct Hr as (m & <- & _). simpl. lia. }
  repeat split.
  - apply align_to_spec. apply pow2_nonzero. exact P.
  - intros m Hm. eapply Nat.le_trans; [|apply align_to_ge].
    pose proof (sort_last ms) as SL.
    destruct (last_max_by_offset ms) as [x|] eqn:E; simpl in SL.
    + change (m_offset x + m_size x) with (snd (range_of x)).
      change (m_offset m + m_size m) with (snd (range_of m)).
      eapply adjacent_last_end; [exact F|exact A|exact SL|].
      apply (Permutation_in _ (Permutation_sym (sort_perm _))). apply in_map. exact Hm.
    + apply last_opt_none in SL.
      assert (PP := sort_perm (map range_of ms)). rewrite SL in PP.
      apply Permutation_nil in PP. destruct ms; [destruct Hm|discriminate].
  - intros s [Dv C]. apply align_to_spec; [apply pow2_nonzero; exact P|]. split; [exact Dv|].
    destruct (last_max_by_offset ms) as [x|] eqn:E; [|lia].
    apply C. clear -E. revert x E. induction ms as [|m ms IH]; simpl; intros x E; [discriminate|].
    destruct (last_max_by_offset ms) as [m'|].
    + destruct (Nat.ltb _ _); injection E as ->; auto.
    + injection E as ->. auto.
Qed.

(* ---------- derive ---------- *)

Local Arguments rust_field : simpl never.

Lemma pt_size_rust p : pt_size p = fst (rust_field p).
Proof. destruct p; reflexivity. Qed.
Lemma pt_align_rust p : pt_align p = snd (rust_field p).
Proof. destruct p; reflexivity. Qed.
Lemma pt_datatype_size p : dt_size (pt_datatype p) = fst (rust_field p).
Proof. destruct p; reflexivity. Qed.

Lemma derive_offsets_sound sml fields : forall cur mx os al,
  derive_offsets sml fields cur mx = Ok (os, al) ->
  length os = length fields
  /\ (exists e, placed cur (rust_fields sml fields) os e)
  /\ mx <= al /\ (forall f, In f (rust_fields sml fields) -> snd f <= al)
  /\ (al = mx \/ In al (map snd (rust_fields sml fields))).
Proof.
  induction fields as [|f fs IH]; intros cur mx os al H; simpl in H.
  - injection H as <- <-. simpl. repeat split; auto; [|intros f []].
    exists cur. constructor.
  - fold (sml_cap sml (pt_align (fd_type f))) in H.
    rewrite pt_align_rust, pt_size_rust in H.
    set (a := sml_cap sml (snd (rust_field (fd_type f)))) in *.
    destruct (Nat.eqb_spec a 0) as [Z0|Z0]; [discriminate|].
    destruct (derive_offsets sml fs _ _) as [[os' al']| |] eqn:E; try discriminate.
    simpl in H. injection H as <- <-.
    apply IH in E. destruct E as (L & (e & P) & M & G & W).
    simpl. fold a. repeat split.
    + lia.
    + exists e. econstructor; [|exact P].
      pose proof (align_to_spec cur a Z0) as S. unfold align_to in S.
      destruct (Nat.eqb_spec a 0); [contradiction|]. exact S.
    + lia.
    + intros x [<-|Hx]; [change (a <= al'); lia|]. apply G. exact Hx.
    + destruct W as [W|W]; [|auto].
      destruct (Nat.max_spec a mx) as [[_ Q]|[_ Q]]; rewrite Q in W; auto.
Qed.

Lemma derive_offsets_total sml fields : forall cur mx,
  (forall n, sml = SmlPacked n -> n <> 0) ->
  exists os al, derive_offsets sml fields cur mx = Ok (os, al).
Proof.
  induction fields as [|f fs IH]; intros cur mx H; simpl.
  - eauto.
  - match goal with |- context [Nat.eqb ?a 0] => destruct (Nat.eqb_spec a 0) as [Z0|Z0] end.
    + exfalso. destruct sml as [|n]; [destruct (fd_type f); discriminate|].
      specialize (H n eq_refl). destruct (fd_type f); cbn [pt_align] in Z0; lia.
    + match goal with |- context [derive_offsets sml fs ?c ?m] => destruct (IH c m H) as (os & al & E); rewrite E end.
      simpl. eauto.
Qed.

Lemma placed_ends cur fs os e : placed cur fs os e ->
  forall i f o, nth_error fs i = Some f -> nth_error os i = Some o -> o + fst f <= e.
Proof.
  induction 1; intros i f o' Hf Ho; destruct i as [|i]; simpl in *; try discriminate.
  - injection Hf as <-. injection Ho as <-. simpl. eapply placed_mono; eauto.
  - eapply IHplaced; eauto.
Qed.

Lemma placed_last cur fs os e : placed cur fs os e ->
  (fs = [] /\ e = cur) \/ exists i f o, nth_error fs i = Some f /\ nth_error os i = Some o /\ o + fst f = e.
Proof.
  induction 1; [auto|]. right. destruct IHplaced as [[-> ->]|(i & f & o' & H1 & H2 & H3)].
  - inversion H0; subst. exists 0, (size, align), o. auto.
  - exists (S i), f, o'. auto.
Qed.

Lemma placed_later cur fs os e : placed cur fs os e ->
  forall j o, nth_error os j = Some o -> cur <= o.
Proof.
  induction 1; intros j o' Hj; destruct j as [|j]; simpl in *; try discriminate.
  - injection Hj as <-. apply H.
  - apply IHplaced in Hj. destruct H as [[_ H] _]. lia.
Qed.

Lemma placed_increasing cur fs os e : placed cur fs os e ->
  forall i j f oi oj, i < j -> nth_error fs i = Some f -> nth_error os i = Some oi ->
  nth_error os j = Some oj -> oi + fst f <= oj.
Proof.
  induction 1; intros i j f oi oj L Hf Hi Hj; destruct i as [|i]; simpl in *; try discriminate.
  - injection Hf as <-. injection Hi as <-. destruct j as [|j]; [lia|]. simpl in Hj.
    eapply placed_later; eauto.
  - destruct j as [|j]; [lia|]. simpl in Hj. apply (IHplaced i j f oi oj); auto. lia.
Qed.

Lemma nth_error_combine {A B} (l : list A) : forall (l' : list B) i a b,
  nth_error (combine l l') i = Some (a, b) -> nth_error l i = Some a /\ nth_error l' i = Some b.
Proof.
  induction l as [|x l IH]; intros [|y l'] [|i] a b H; simpl in *; try discriminate; auto.
  injection H as -> ->. auto.
Qed.

Definition derive_members (fields : list field_desc) (os : list nat) : list member :=
  map (fun '(f, o) => at_offset_in_type (mk_def (fd_name f) (pt_datatype (fd_type f))) o)
      (combine fields os).

Lemma derive_members_offsets fields : forall os, length os = length fields ->
  map m_offset (derive_members fields os) = os
  /\ map m_def (derive_members fields os)
     = map (fun f => mk_def (fd_name f) (pt_datatype (fd_type f))) fields
  /\ map m_name (derive_members fields os) = map fd_name fields.
Proof.
  unfold derive_members.
  induction fields as [|f fs IH]; intros [|o os] L; try discriminate; simpl; auto.
  destruct (IH os) as (A & B & C); [simpl in L; lia|]. rewrite A, B, C. auto.
Qed.

Lemma derive_members_cover sml fields os e :
  length os = length fields -> placed 0 (rust_fields sml fields) os e ->
  forall s, (forall m, In m (derive_members fields os) -> m_offset m + m_size m <= s) <-> e <= s.
Proof.
  intros L P s. split.
  - intros H. destruct (placed_last _ _ _ _ P) as [[_ ->]|(i & f & o & H1 & H2 & <-)]; [lia|].
    unfold rust_fields in H1. rewrite nth_error_map in H1.
    destruct (nth_error fields i) as [fd|] eqn:E; [|discriminate]. injection H1 as <-. simpl.
    change (fst (rust_components (fd_type fd)) * snd (rust_components (fd_type fd))) with (fst (rust_field (fd_type fd))). rewrite <- pt_datatype_size.
    apply (H (at_offset_in_type (mk_def (fd_name fd) (pt_datatype (fd_type fd))) o)).
    unfold derive_members. apply in_map_iff. exists (fd, o). split; [reflexivity|].
    clear - E H2. revert i os E H2. induction fields as [|x fs IH]; intros [|i] [|y os] E H2;
      simpl in *; try discriminate.
    + injection E as ->. injection H2 as ->. auto.
    + right. eapply IH; eauto.
  - intros H m Hm. unfold derive_members in Hm. apply in_map_iff in Hm.
    destruct Hm as ((fd & o) & <- & Hin). simpl. rewrite pt_datatype_size.
    apply In_nth_error in Hin. destruct Hin as [i Hi].
    assert (nth_error fields i = Some fd /\ nth_error os i = Some o) as [A B].
    { clear - Hi. revert i os Hi. induction fields as [|x fs IH]; intros [|i] [|y os] Hi;
        simpl in *; try discriminate; auto. injection Hi as -> ->. auto. }
    assert (Q := placed_ends _ _ _ _ P i _ o (map_nth_error _ i fields A) B). cbn [fst] in Q. exact (Nat.le_trans _ _ _ Q H).
Qed.

Lemma derive_layout_sound args fields l :
  derive_layout args fields = Ok l ->
  exists sml, get_struct_member_layout args = Ok sml
  /\ map m_def (l_attrs l) = map (fun f => mk_def (fd_name f) (pt_datatype (fd_type f))) fields
  /\ c_struct (rust_fields sml fields) (map m_offset (l_attrs l)) (l_size l) (l_align l).
Proof.
  unfold derive_layout. destruct (get_struct_member_layout args) as [sml| |] eqn:G; simpl; try discriminate.
  destruct (derive_offsets sml fields 0 1) as [[os al]| |] eqn:E; simpl; try discriminate.
  intros H. exists sml. split; [reflexivity|].
  apply derive_offsets_sound in E. destruct E as (L & (e & P) & M & GE & W).
  fold (derive_members fields os) in H.
  apply from_members_sound in H. destruct H as (EA & EL & ND & DJ & P2 & LS & FIT).
  destruct (derive_members_offsets fields os L) as (MO & MD & _).
  rewrite EA, EL, MO, MD. split; [reflexivity|]. exists e. split; [exact P|]. split.
  - repeat split; auto. intros b Hb. apply in_map_iff in Hb. destruct Hb as (x & <- & Hx). auto.
  - assert (CV := derive_members_cover sml fields os e L P).
    destruct LS as [[LS1 LS2] LS3]. split.
    + split; [exact LS1|]. apply CV. exact LS2.
    + intros s [D C]. apply LS3. split; [exact D|]. apply CV. exact C.
Qed.

Lemma derive_layout_total args fields sml :
  get_struct_member_layout args = Ok sml ->
  (forall n, sml = SmlPacked n -> power_of_two n) ->
  NoDup (map fd_name fields) ->
  (forall os s a, c_struct (rust_fields sml fields) os s a -> (Z.of_nat s + Z.of_nat a <= 2 ^ 63)%Z) ->
  exists l, derive_layout args fields = Ok l.
Proof.
  intros G P2 ND FIT. unfold derive_layout. rewrite G. simpl.
  destruct (derive_offsets_total sml fields 0 1) as (os & al & E).
  { intros n Hn. apply pow2_nonzero. auto. }
  rewrite E. simpl. fold (derive_members fields os).
  apply derive_offsets_sound in E. destruct E as (L & (e & P) & M & GE & W).
  assert (CV := derive_members_cover sml fields os e L P).
  destruct (derive_members_offsets fields os L) as (MO & MD & MN).
  assert (PA : power_of_two al).
  { destruct W as [->|W]; [exists 0; reflexivity|].
    unfold rust_fields in W. rewrite map_map in W. apply in_map_iff in W. destruct W as (f & <- & _).
    simpl. assert (PR : power_of_two (snd (rust_components (fd_type f)))).
    { destruct (fd_type f); simpl; [exists 0|exists 0|exists 1|exists 1|exists 2|exists 2|exists 3|exists 3|exists 2|exists 3|exists 0|exists 1|exists 2|exists 3|exists 2|exists 0]; reflexivity. }
    destruct sml as [|n]; simpl; [exact PR|]. apply pow2_min; auto. }
  apply from_members_complete; auto.
  - rewrite MN. exact ND.
  - apply increasing_disjoint.
    assert (Q : increasing_members (derive_members fields os)).
    { intros i j mi mj LT Hi Hj. unfold derive_members in Hi, Hj. rewrite nth_error_map in Hi, Hj.
      destruct (nth_error (combine fields os) i) as [[fi oi]|] eqn:Ei; [|discriminate].
      destruct (nth_error (combine fields os) j) as [[fj oj]|] eqn:Ej; [|discriminate].
      injection Hi as <-. injection Hj as <-. simpl. rewrite pt_datatype_size.
      apply nth_error_combine in Ei. apply nth_error_combine in Ej.
      destruct Ei as [Ei1 Ei2], Ej as [Ej1 Ej2].
      exact (placed_increasing _ _ _ _ P i j _ oi oj LT (map_nth_error _ i fields Ei1) Ei2 Ej2). }
    exact Q.
  - intros m Hm. unfold derive_members in Hm. apply in_map_iff in Hm.
    destruct Hm as ((f & o) & <- & _). simpl. destruct (fd_type f); simpl; lia.
  - intros s LS. apply (FIT os s al). exists e. split; [exact P|]. split.
    + repeat split; auto. intros b Hb. apply in_map_iff in Hb. destruct Hb as (x & <- & Hx). auto.
    + destruct LS as [[LS1 LS2] LS3]. split.
      * split; [exact LS1|]. apply CV. exact LS2.
      * intros s' [D C]. apply LS3. split; [exact D|]. apply CV. exact C.
Qed.

(* ---------- lookups ---------- *)

Lemma api_layout_names l : api_layout l -> NoDup (map m_name (l_attrs l)).
Proof.
  induction 1.
  - constructor.
  - rewrite from_attributes_history in H. apply grown_layout in H. apply H.
  - rewrite from_packed_history in H. apply grown_layout in H. apply H.
  - apply from_members_sound in H0. destruct H0 as (-> & _ & ND & _). exact ND.
  - apply add_attribute_inv in H0. destruct H0 as (o & NI & _ & -> & _).
    rewrite map_app. apply NoDup_snoc; assumption.
Qed.

Lemma datatype_eqb_eq a b : datatype_eqb a b = true <-> a = b.
Proof. unfold datatype_eqb. destruct (datatype_eq_dec a b); split; congruence. Qed.

Lemma match_def m a :
  (String.eqb (m_name m) (ad_name a) && datatype_eqb (m_type m) (ad_type a)) = true <-> m_def m = a.
Proof.
  rewrite andb_true_iff, String.eqb_eq, datatype_eqb_eq. unfold m_name, m_type.
  destruct (m_def m), a; simpl. split; [intros [-> ->]; reflexivity|intros H; injection H; auto].
Qed.

Lemma NoDup_map_inj {A B} (f : A -> B) l x y : NoDup (map f l) -> In x l -> In y l -> f x = f y -> x = y.
Proof.
  induction l as [|a l IH]; simpl; intros ND Hx Hy E; [destruct Hx|].
  inversion ND; subst.
  destruct Hx as [->|Hx], Hy as [->|Hy]; auto.
  - exfalso. apply H1. rewrite E. apply in_map. exact Hy.
  - exfalso. apply H1. rewrite <- E. apply in_map. exact Hx.
Qed.

Lemma find_spec {A B} (p : A -> bool) (f : A -> B) l b m :
  NoDup (map f l) -> (forall x, p x = true -> f x = b) ->
  (find p l = Some m <-> In m l /\ p m = true).
Proof.
  intros ND Q. split.
  - apply find_some.
  - intros [H1 H2]. destruct (find p l) as [m'|] eqn:F.
    + apply find_some in F. destruct F as [F1 F2]. f_equal.
      eapply NoDup_map_inj; eauto. rewrite (Q _ H2), (Q _ F2). reflexivity.
    + apply (find_none _ _ F) in H1. congruence.
Qed.

Lemma get_by_name_spec l n m : NoDup (map m_name (l_attrs l)) ->
  (get_attribute_by_name l n = Some m <-> In m (l_attrs l) /\ m_name m = n).
Proof.
  intros ND. unfold get_attribute_by_name.
  rewrite (find_spec _ m_name _ n) by (auto; intros x Hx; apply String.eqb_eq; exact Hx).
  rewrite String.eqb_eq. reflexivity.
Qed.

Lemma get_attribute_spec l a m : NoDup (map m_name (l_attrs l)) ->
  (get_attribute l a = Some m <-> In m (l_attrs l) /\ m_def m = a).
Proof.
  intros ND. unfold get_attribute.
  rewrite (find_spec _ m_name _ (ad_name a)).
  - rewrite match_def. reflexivity.
  - exact ND.
  - intros x Hx. apply match_def in Hx. rewrite <- Hx. reflexivity.
Qed.

Lemma has_name_spec l n : has_attribute_with_name l n = true <-> exists m, In m (l_attrs l) /\ m_name m = n.
Proof.
  unfold has_attribute_with_name. rewrite existsb_exists.
  split; intros (m & H & E); exists m; split; auto; apply String.eqb_eq; exact E.
Qed.

Lemma has_attribute_spec l a : has_attribute l a = true <-> exists m, In m (l_attrs l) /\ m_def m = a.
Proof.
  unfold has_attribute. rewrite existsb_exists.
  split; intros (m & H & E); exists m; split; auto; apply match_def; exact E.
Qed.

Lemma offset_of_spec l a o : NoDup (map m_name (l_attrs l)) ->
  (offset_of l a = Some o <-> exists m, In m (l_attrs l) /\ m_def m = a /\ m_offset m = o).
Proof.
  intros ND. change (offset_of l a) with (option_map m_offset (get_attribute l a)). split.
  - destruct (get_attribute l a) as [m|] eqn:G; [|discriminate].
    apply get_attribute_spec in G; auto. simpl. intros E. injection E as <-. exists m. tauto.
  - intros (m & H1 & H2 & H3).
    assert (G : get_attribute l a = Some m) by (apply get_attribute_spec; auto).
    rewrite G. simpl. congruence.
Qed.

Lemma position_spec {A} (p : A -> bool) l : forall i,
  position p l = Some i <->
  (exists x, nth_error l i = Some x /\ p x = true) /\
  (forall j x, j < i -> nth_error l j = Some x -> p x = false).
Proof.
  induction l as [|a l IH]; intros i; simpl.
  - split; [discriminate|]. intros [(x & H & _) _]. destruct i; discriminate.
  - destruct (p a) eqn:E.
    + split.
      * intros H. injection H as <-. split; [exists a; auto|]. intros; lia.
      * intros [_ H]. destruct i as [|i]; [reflexivity|].
        specialize (H 0 a ltac:(lia) eq_refl). congruence.
    + destruct i as [|i].
      * split; [destruct (position p l); discriminate|].
        intros [(x & H & K) _]. simpl in H. congruence.
      * specialize (IH i). destruct (position p l) as [k|]; simpl.
        -- split.
           ++ intros H. injection H as ->. destruct IH as [IH _]. destruct (IH eq_refl) as [I1 I2].
              split; [exact I1|]. intros [|j] x Hj Hx; [simpl in Hx; congruence|].
              apply (I2 j x); [lia|exact Hx].
           ++ intros [I1 I2]. destruct IH as [_ IH]. f_equal. 
              assert (Q : Some k = Some i).
              { apply IH. split; [exact I1|]. intros j x Hj Hx. apply (I2 (S j)); [lia|exact Hx]. }
              congruence.
        -- split; [discriminate|]. intros [I1 I2]. destruct IH as [_ IH].
           assert (Q : @None nat = Some i).
           { apply IH. split; [exact I1|]. intros j x Hj Hx. apply (I2 (S j)); [lia|exact Hx]. }
           discriminate.
Qed.

Lemma index_of_spec l a i : NoDup (map m_name (l_attrs l)) ->
  (index_of l a = Some i <-> exists m, layout_at l i = Ok m /\ m_def m = a).
Proof.
  intros ND. unfold index_of. rewrite position_spec. unfold layout_at. split.
  - intros [(m & H1 & H2) _]. exists m. rewrite H1. split; [reflexivity|]. apply match_def. exact H2.
  - intros (m & H1 & H2). destruct (nth_error (l_attrs l) i) as [m'|] eqn:E; [|discriminate].
    simpl in H1. injection H1 as ->. split.
    + exists m. split; [reflexivity|]. apply match_def. exact H2.
    + intros j x Hj Hx.
      destruct (String.eqb (m_name x) (ad_name a) && datatype_eqb (m_type x) (ad_type a)) eqn:Q;
        [|reflexivity].
      apply match_def in Q. exfalso.
      assert (j = i); [|lia].
      apply (proj1 (NoDup_nth_error (map m_name (l_attrs l))) ND).
      * rewrite map_length. apply nth_error_Some. congruence.
      * rewrite !nth_error_map, E, Hx. simpl. unfold m_name. congruence.
Qed.

(* ---------- growing any layout ---------- *)

Lemma add_after_increasing l a fa l' :
  increasing_members (l_attrs l) -> add_attribute l a fa = Ok l' ->
  increasing_members (l_attrs l').
Proof.
  intros INC H. apply add_attribute_inv in H. destruct H as (off & NI & GE & EQ & _).
  rewrite EQ. rewrite packed_next_of in GE.
  intros i j mi mj L Hi Hj.
  apply nth_error_snoc in Hi. apply nth_error_snoc in Hj.
  destruct Hi as [[Li Hi]|[Li Hi]], Hj as [[Lj Hj]|[Lj Hj]]; try lia.
  - exact (INC i j mi mj L Hi Hj).
  - subst mj. simpl. destruct (l_attrs l) as [|x ms] eqn:E using rev_ind; [simpl in Li; lia|].
    clear IHms. rewrite next_of_snoc in GE.
    apply nth_error_snoc in Hi. destruct Hi as [[Li' Hi]|[Li' Hi]].
    + assert (K := INC i (length ms) mi x).
      rewrite nth_error_app1, nth_error_app2, Nat.sub_diag in K by lia.
      specialize (K Li' Hi eq_refl). lia.
    + subst mi. lia.
Qed.

(* ---------- align_to with machine integers ---------- *)

Open Scope Z_scope.

Lemma up_spec x a : 0 <= x -> 0 < a ->
  let r := (x + a - 1) / a * a in
  Z.divide a r /\ x <= r /\ (forall m, Z.divide a m -> x <= m -> r <= m).
Proof.
  intros Hx Ha r. unfold r.
  pose proof (Z.div_mod (x + a - 1) a ltac:(lia)).
  pose proof (Z.mod_pos_bound (x + a - 1) a Ha).
  set (q := (x + a - 1) / a) in *.
  split; [exists q; ring|]. split; [nia|].
  intros m [k ->] H2. apply Z.mul_le_mono_nonneg_r; [lia|].
  destruct (Z.le_gt_cases q k); [assumption|]. exfalso. nia.
Qed.

Lemma align_debug_ok w x a r :
  0 <= x < 2 ^ w -> 0 <= a < 2 ^ w -> align_to_debug w x a = Ok r ->
  if a =? 0 then r = x
  else Z.divide a r /\ x <= r < 2 ^ w /\ (forall m, Z.divide a m -> x <= m -> r <= m).
Proof.
  intros Hx Ha. unfold align_to_debug. destruct (Z.eqb_spec a 0).
  - intros H. injection H as <-. reflexivity.
  - destruct (Z.leb_spec (2 ^ w) (x + a)); [discriminate|].
    destruct (Z.leb_spec (2 ^ w) ((x + a - 1) / a * a)); [discriminate|].
    intros E. injection E as <-. pose proof (up_spec x a ltac:(lia) ltac:(lia)) as U. simpl in U.
    destruct U as (U1 & U2 & U3). repeat split; auto; lia.
Qed.

Lemma align_debug_total w x a :
  0 <= x -> 0 <= a -> x + a < 2 ^ w -> exists r, align_to_debug w x a = Ok r.
Proof.
  intros Hx Ha H. unfold align_to_debug. destruct (Z.eqb_spec a 0); [eauto|].
  destruct (Z.leb_spec (2 ^ w) (x + a)); [lia|].
  destruct (Z.leb_spec (2 ^ w) ((x + a - 1) / a * a)); [|eauto].
  exfalso. pose proof (Z.mul_div_le (x + a - 1) a ltac:(lia)). lia.
Qed.

Lemma align_release_pow2 w k x : 0 <= k < w -> 0 <= x < 2 ^ w ->
  (exists m, Z.divide (2 ^ k) m /\ x <= m < 2 ^ w) ->
  let r := align_to_release w x (2 ^ k) in
  Z.divide (2 ^ k) r /\ x <= r < 2 ^ w /\ (forall m, Z.divide (2 ^ k) m -> x <= m -> r <= m).
Proof.
  intros Hk Hx (m & [q Dm] & Hm) r. unfold r, align_to_release.
  assert (P : 0 < 2 ^ k) by (apply Z.pow_pos_nonneg; lia).
  assert (W : 2 ^ w = 2 ^ (w - k) * 2 ^ k) by (rewrite <- Z.pow_add_r by lia; f_equal; lia).
  assert (Hm' : m + 2 ^ k <= 2 ^ w).
  { rewrite W in *. subst m. assert (q < 2 ^ (w - k)) by nia. nia. }
  destruct (Z.eqb_spec (2 ^ k) 0) as [E|E]; [lia|].
  assert (E1 : (((x + 2 ^ k) mod 2 ^ w) - 1) mod 2 ^ w = x + 2 ^ k - 1).
  { rewrite Zminus_mod_idemp_l. apply Z.mod_small. lia. }
  rewrite E1. pose proof (up_spec x (2 ^ k) ltac:(lia) P) as U. simpl in U. destruct U as (U1 & U2 & U3).
  assert (U4 : (x + 2 ^ k - 1) / 2 ^ k * 2 ^ k <= m) by (apply U3; [exists q; exact Dm|lia]).
  rewrite Z.mod_small by lia. repeat split; auto; lia.
Qed.
Close Scope Z_scope.

Lemma sml_packed args n :
  In (ReprPacked n) args -> (forall n', In (ReprPacked n') args -> n' = n) ->
  get_struct_member_layout args = Ok (SmlPacked n).
Proof.
  intros H U. unfold get_struct_member_layout.
  destruct (find _ args) as [x|] eqn:F.
  - apply find_some in F. destruct F as [F1 F2]. destruct x; try discriminate.
    rewrite (U _ F1). reflexivity.
  - apply (find_none _ _ F) in H. discriminate.
Qed.

Lemma sml_c args :
  In ReprC args -> (forall n, ~ In (ReprPacked n) args) -> get_struct_member_layout args = Ok SmlC.
Proof.
  intros H U. unfold get_struct_member_layout.
  destruct (find _ args) as [x|] eqn:F.
  - apply find_some in F. destruct F as [F1 F2]. destruct x; try discriminate.
    destruct (U _ F1).
  - destruct (existsb _ args) eqn:E; [reflexivity|].
    assert (X : existsb (fun a => match a with ReprC => true | _ => false end) args = true).
    { apply existsb_exists. exists ReprC. auto. }
    congruence.
Qed.

Lemma derive_matches_rust args fields l :
  In ReprC args -> (forall n, ~ In (ReprAlign n) args) ->
  (forall n n', In (ReprPacked n) args -> In (ReprPacked n') args -> n = n') ->
  derive_layout args fields = Ok l ->
  map m_def (l_attrs l) = map (fun f => mk_def (fd_name f) (pt_datatype (fd_type f))) fields
  /\ rust_struct args fields (map m_offset (l_attrs l)) (l_size l) (l_align l).
Proof.
  intros HC HA HP H. apply derive_layout_sound in H. destruct H as (sml & G & D & C).
  split; [exact D|].
  destruct (existsb (fun a => match a with ReprPacked _ => true | _ => false end) args) eqn:E.
  - apply existsb_exists in E. destruct E as (x & Hx & X). destruct x; try discriminate.
    rewrite (sml_packed args n Hx) in G by (intros; eapply HP; eauto). injection G as <-.
    apply rs_packed with (n := n); auto.
    unfold packed_struct. rewrite map_map. exact C.
  - assert (NP : forall n, ~ In (ReprPacked n) args).
    { intros n Hn. assert (X : existsb (fun a => match a with ReprPacked _ => true | _ => false end) args = true).
      { apply existsb_exists. eauto. } congruence. }
    rewrite sml_c in G by auto. injection G as <-. apply rs_c; auto.
Qed.

(* ---------- witnesses ---------- *)

Lemma found_iff_added h l :
  foldM (fun l p => add_attribute l (fst p) (snd p)) h layout_default = Ok l ->
  forall a, has_attribute l a = true <-> In a (map fst h).
Proof.
  intros H a. apply grown_layout in H. destruct H as (D & _). rewrite has_attribute_spec, <- D, in_map_iff.
  split; intros (m & A & B); exists m; auto.
Qed.

Lemma packed_size_wrong :
  exists attrs n l, from_attributes_packed attrs n = Ok l
  /\ forall os s a,
     packed_struct n (map (fun a => (dt_size (ad_type a), dt_align (ad_type a))) attrs) os s a ->
     l_size l <> s /\ l_align l <> a.
Proof.
  exists [mk_def "a" F32; mk_def "b" U8], 4. eexists. split; [vm_compute; reflexivity|].
  intros os s a H.
  assert (W : packed_struct 4 [(4, 4); (1, 1)] [0; 4] 8 4).
  { exists 5. split; [|split].
    - simpl. apply placed_cons; [|apply placed_cons; [|constructor]].
      + split; [split; [exists 0; reflexivity|lia]|intros; lia].
      + split; [split; [exists 4; reflexivity|lia]|intros; lia].
    - repeat split; simpl; try lia; intuition lia.
    - split; [split; [exists 2; reflexivity|lia]|]. intros m [[k ->] L]. lia. }
  destruct (c_struct_fun _ _ _ _ _ _ _ _ H W) as (_ & -> & ->). simpl. lia.
Qed.

Lemma derive_align_wrong :
  exists args fields l, derive_layout args fields = Ok l
  /\ forall os s a, rust_struct args fields os s a -> l_size l <> s /\ l_align l <> a.
Proof.
  exists [ReprC; ReprAlign 16], [mk_field "a" PtVec3f64]. eexists. split; [vm_compute; reflexivity|].
  intros os s a H. destruct H as [_ _ H _|n _ [H|[H|[]]] _ _|n _ _ H _ C]; try discriminate.
  - exfalso. apply (H 16). right. left. reflexivity.
  - destruct H as [H|[H|[]]]; try discriminate. injection H as <-.
    assert (W : c_struct_aligned 16 [(24, 8)] [0] 32 16).
    { exists 24. split; [|split].
      - apply placed_cons; [|constructor]. split; [split; [exists 0; reflexivity|lia]|intros; lia].
      - repeat split; simpl; try lia.
      - split; [split; [exists 2; reflexivity|lia]|]. intros m [[k ->] L]. lia. }
    destruct (c_struct_fun _ _ _ _ _ _ _ _ C W) as (_ & -> & ->). simpl. lia.
Qed.

Lemma empty_member_order :
  exists m1 m2, disjoint_members [m1; m2]
  /\ is_ok (from_members_and_alignment [m1; m2] 1) = true
  /\ from_members_and_alignment [m2; m1] 1 = Panic.
Proof.
  exists (at_offset_in_type (mk_def "e" (ByteArray 0)) 4), (at_offset_in_type (mk_def "f" F32) 4).
  split; [|split; vm_compute; reflexivity].
  intros i j mi mj b N Hi Hj [O1 O2] [O3 O4].
  destruct i as [|[|i]]; simpl in Hi; [| |destruct i; discriminate];
  destruct j as [|[|j]]; simpl in Hj; try (destruct j; discriminate); try congruence;
  injection Hi as <-; injection Hj as <-; simpl in *; lia.
Qed.

Lemma add_overlaps :
  exists l a fa l', api_layout l /\ add_attribute l a fa = Ok l' /\ ~ disjoint_members (l_attrs l').
Proof.
  eexists. exists (mk_def "c" U8), Default. eexists. split; [|split].
  - apply (api_from_members [at_offset_in_type (mk_def "a" F64) 8; at_offset_in_type (mk_def "b" F64) 0] 8
             (mk_layout [at_offset_in_type (mk_def "a" F64) 8; at_offset_in_type (mk_def "b" F64) 0] 16 8)).
    + intros m [<-|[<-|[]]]; reflexivity.
    + vm_compute. reflexivity.
  - vm_compute. reflexivity.
  - intros D. apply (D 0 2 _ _ 8 ltac:(lia) eq_refl eq_refl); split; simpl; lia.
Qed.

Lemma align_to_overflow :
  exists w x a m : Z, (0 <= x < 2 ^ w /\ 0 < a < 2 ^ w /\ Z.divide a m /\ x <= m < 2 ^ w
  /\ align_to_debug w x a = Panic /\ align_to_release w x a < x)%Z.
Proof.
  exists 8%Z, 255%Z, 5%Z, 255%Z. repeat split; try (vm_compute; congruence).
  exists 51%Z. reflexivity.
Qed.

Lemma packed_offsets attrs n l :
  n <> 0 -> (forall a, In a attrs -> dt_align (ad_type a) <> 0) ->
  from_attributes_packed attrs n = Ok l ->
  map m_def (l_attrs l) = attrs
  /\ exists e, placed 0 (map (fun a => (dt_size (ad_type a), Nat.min n (dt_align (ad_type a)))) attrs)
                      (map m_offset (l_attrs l)) e.
Proof.
  intros N0 P H. destruct (from_packed_offsets attrs n l N0 P H) as (D & PL & _).
  split; [exact D|]. unfold fields_of in PL. rewrite map_map in PL. eexists. exact PL.
Qed.
