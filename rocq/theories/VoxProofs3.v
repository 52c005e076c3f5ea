From Coq Require Import String List ZArith Lia Bool Arith SpecFloat Permutation Sorted Reals Lra.
From Verif Require Import Base LayoutModel LayoutProofs BufferModel BufferSpec ListLemmas BufferProofs BufferFacts TraitModel TraitSpec TraitProofs2 NumModel NumSpec NumProofs NumProofs2
  MathModel MathSpec MathProofs MathProofs2 SegModel SegSpec VoxModel VoxSpec F64Real.
Import ListNotations.
Open Scope nat_scope.

(* ---- reading the values ---- *)
Lemma scalar_at_ok b m p i : bf_wf b -> In m (l_attrs (bf_layout b)) -> i < bf_len b -> scalar_prim (m_type m) = Some p ->
  scalar_at b (m_def m) (m_type m) i = Ok (dec_num p (attr_value m (nth i (bf_points b) []))).
Proof. intros W H L P. unfold scalar_at. rewrite P. cbn [unwrap bind]. rewrite (proj2 (view_at b m i W H L)). reflexivity. Qed.
Lemma vector_at_ok b m p i : bf_wf b -> In m (l_attrs (bf_layout b)) -> i < bf_len b -> vector_prim (m_type m) = Some p ->
  vector_at b (m_def m) (m_type m) i = Ok (let r := attr_value m (nth i (bf_points b) []) in
    mk_p3 (to_f64 (component_of p 0 r)) (to_f64 (component_of p 1 r)) (to_f64 (component_of p 2 r))).
Proof. intros W H L P. unfold vector_at. rewrite P. cbn [unwrap bind]. rewrite (proj2 (view_at b m i W H L)). reflexivity. Qed.

Lemma foldM_pure {A S} (f : S -> A -> res S) (g : S -> A -> S) l : (forall s x, In x l -> f s x = Ok (g s x)) -> forall s, foldM f l s = Ok (fold_left g l s).
Proof.
  induction l as [|x l IH]; intros H s; [reflexivity|]. cbn [foldM fold_left]. rewrite H by now left. cbn [bind]. apply IH. intros. apply H. now right.
Qed.
Lemma fold_left_map {A B S} (f : S -> B -> S) (g : A -> B) l : forall s, fold_left f (map g l) s = fold_left (fun s x => f s (g x)) l s.
Proof. induction l as [|x l IH]; intros s; [reflexivity|]. apply IH. Qed.

Section Voxel.
Variable b : buffer.
Variable m : member.
Variable v : voxel.
Hypothesis W : bf_wf b.
Hypothesis Hm : In m (l_attrs (bf_layout b)).
Hypothesis Hv : forall i, In i (v_points v) -> i < bf_len b.
Hypothesis Hne : v_points v <> [].

(* ---- the most common number ---- *)
Lemma count_value_spec l : forall zs k,
  (forall z n, In (z, n) l -> n = count_occ Z.eq_dec zs z) -> (forall z, In z zs -> exists n, In (z, n) l) -> NoDup (map fst l) -> incl (map fst l) zs ->
  (forall z n, In (z, n) (count_value l k) -> n = count_occ Z.eq_dec (zs ++ [k]) z) /\ (forall z, In z (zs ++ [k]) -> exists n, In (z, n) (count_value l k))
  /\ NoDup (map fst (count_value l k)) /\ incl (map fst (count_value l k)) (zs ++ [k]).
Proof.
  intros zs k CNT EX ND INC.
  assert (KEYS : forall l, ~ In k (map fst l) -> count_value l k = l ++ [(k, 1)]).
  { clear. induction l as [|(z, n) l IH]; intros N; [reflexivity|]. cbn [count_value]. cbn in N. destruct (Z.eqb_spec z k); [exfalso; auto|]. rewrite IH by auto. reflexivity. }
  assert (KIN : forall l, NoDup (map fst l) -> In k (map fst l) -> exists l1 n l2, l = l1 ++ (k, n) :: l2 /\ count_value l k = l1 ++ (k, n + 1) :: l2).
  { clear. induction l as [|(z, n) l IH]; intros ND I; [contradiction|]. cbn [map fst] in *. apply NoDup_cons_iff in ND as (N & ND). cbn [count_value]. destruct (Z.eqb_spec z k).
    - subst z. now exists [], n, l.
    - destruct I as [I|I]; [contradiction|]. destruct (IH ND I) as (l1 & n' & l2 & -> & E). exists ((z, n) :: l1), n', l2. rewrite E. auto. }
  assert (OCC : forall z, count_occ Z.eq_dec (zs ++ [k]) z = count_occ Z.eq_dec zs z + (if Z.eq_dec k z then 1 else 0)).
  { intros z. rewrite count_occ_app. cbn [count_occ]. destruct (Z.eq_dec k z); lia. }
  destruct (in_dec Z.eq_dec k (map fst l)) as [I|I].
  - destruct (KIN l ND I) as (l1 & n & l2 & EL & EC). rewrite EC.
    assert (ND' : NoDup (map fst (l1 ++ (k, n) :: l2))) by now rewrite <- EL. rewrite map_app in ND'. cbn [map fst] in ND'.
    assert (NK : ~ In k (map fst l1 ++ map fst l2)) by (apply NoDup_remove_2; exact ND').
    split; [|split; [|split]].
    + intros z c H. rewrite OCC. apply in_app_or in H as [H|[H|H]].
      * destruct (Z.eq_dec k z) as [<-|]; [exfalso; apply NK, in_or_app; left; apply in_map_iff; now exists (k, c)|]. rewrite Nat.add_0_r. apply CNT. rewrite EL. apply in_or_app; now left.
      * injection H as <- <-. destruct (Z.eq_dec k k); [|congruence]. f_equal. apply CNT. rewrite EL. apply in_or_app; right; now left.
      * destruct (Z.eq_dec k z) as [<-|]; [exfalso; apply NK, in_or_app; right; apply in_map_iff; now exists (k, c)|]. rewrite Nat.add_0_r. apply CNT. rewrite EL. apply in_or_app; right; now right.
    + intros z H. apply in_app_or in H as [H|[<-|[]]].
      * destruct (EX z H) as (c & J). rewrite EL in J. apply in_app_or in J as [J|[J|J]].
        -- exists c. apply in_or_app; now left.
        -- injection J as <- <-. exists (n + 1). apply in_or_app; right; now left.
        -- exists c. apply in_or_app; right; now right.
      * exists (n + 1). apply in_or_app; right; now left.
    + rewrite map_app. cbn [map fst]. exact ND'.
    + rewrite map_app. cbn [map fst]. intros z H. apply in_or_app. left. apply INC. rewrite EL, map_app. exact H.
  - rewrite (KEYS l I). assert (NZ : ~ In k zs) by (intros H; destruct (EX k H) as (n & J); apply I, in_map_iff; now exists (k, n)).
    split; [|split; [|split]].
    + intros z c H. rewrite OCC. apply in_app_or in H as [H|[H|[]]].
      * destruct (Z.eq_dec k z) as [<-|]; [exfalso; apply I, in_map_iff; now exists (k, c)|]. rewrite Nat.add_0_r. now apply CNT.
      * injection H as <- <-. destruct (Z.eq_dec k k); [|congruence]. apply (count_occ_not_In Z.eq_dec) in NZ. now rewrite NZ.
    + intros z H. apply in_app_or in H as [H|[<-|[]]]; [destruct (EX z H) as (n & J); exists n|exists 1]; apply in_or_app; [now left|right; now left].
    + rewrite map_app. cbn [map fst]. apply (Permutation_NoDup (l := k :: map fst l)); [apply Permutation_cons_append|]. now constructor.
    + rewrite map_app. cbn [map fst]. intros z H. apply in_app_or in H as [H|H]; apply in_or_app; [left; now apply INC|now right].
Qed.
Lemma counts_spec zs : let l := fold_left count_value zs [] in
  (forall z n, In (z, n) l -> n = count_occ Z.eq_dec zs z) /\ (forall z, In z zs -> exists n, In (z, n) l) /\ NoDup (map fst l) /\ incl (map fst l) zs.
Proof.
  cbv zeta. induction zs as [|z zs IH] using rev_ind.
  - cbn. repeat split; try easy. constructor.
  - rewrite fold_left_app. cbn [fold_left]. destruct IH as (A & B & C & D). now apply count_value_spec.
Qed.
Lemma best_entry l : forall best, exists c k, fold_left (fun (best : nat * option Z) (e : Z * nat) => if Nat.ltb (fst best) (snd e) then (snd e, Some (fst e)) else best) l best = (c, k)
  /\ fst best <= c /\ (forall z n, In (z, n) l -> n <= c) /\ ((c, k) = best \/ exists z, k = Some z /\ In (z, c) l).
Proof.
  induction l as [|(z, n) l IH]; intros (c0, k0); cbn [fold_left fst snd].
  - exists c0, k0. repeat split; auto. intros z n [].
  - destruct (Nat.ltb_spec c0 n) as [L|L].
    + destruct (IH (n, Some z)) as (c & k & E & A & B & C). cbn [fst] in A. exists c, k. split; auto. split; [lia|]. split.
      * intros z' n' [H|H]; [injection H as <- <-; lia|now apply (B z')].
      * right. destruct C as [C|(z' & -> & I)]; [injection C as -> ->; exists z; split; auto; now left|exists z'; split; auto; now right].
    + destruct (IH (c0, k0)) as (c & k & E & A & B & C). cbn [fst] in A. exists c, k. split; auto. split; [lia|]. split.
      * intros z' n' [H|H]; [injection H as <- <-; lia|now apply (B z')].
      * destruct C as [C|(z' & -> & I)]; [now left|right; exists z'; split; auto; now right].
Qed.
Lemma most_common_pick (order : order_fn) zs : (forall l, Permutation (order l) l) -> zs <> [] ->
  exists c z, fold_left (fun (best : nat * option Z) (e : Z * nat) => if Nat.ltb (fst best) (snd e) then (snd e, Some (fst e)) else best) (order (fold_left count_value zs [])) (0, None) = (c, Some z)
    /\ most_common zs z.
Proof.
  intros PM NE. destruct (counts_spec zs) as (CNT & EX & ND & INC). set (l := fold_left count_value zs []) in *.
  destruct (best_entry (order l) (0, None)) as (c & k & E & _ & MAX & C).
  assert (IN : forall e, In e (order l) <-> In e l) by (intros e; split; apply Permutation_in; [apply PM|apply Permutation_sym, PM]).
  assert (POS : forall z, In z zs -> 0 < count_occ Z.eq_dec zs z) by (intros z I; now apply count_occ_In).
  assert (SOME : exists z0, In z0 zs) by (destruct zs as [|z0 zs']; [congruence|]; exists z0; now left). destruct SOME as (z0 & I0).
  assert (UP : forall y, count_occ Z.eq_dec zs y <= c).
  { intros y. destruct (in_dec Z.eq_dec y zs) as [I|I].
    - destruct (EX y I) as (n & J). pose proof (CNT y n J). subst n. now apply (MAX y), IN.
    - apply (count_occ_not_In Z.eq_dec) in I. lia. }
  destruct C as [C|(z & -> & I)].
  - injection C as -> ->. pose proof (UP z0). pose proof (POS z0 I0). lia.
  - exists c, z. split; auto. apply IN in I. pose proof (CNT z c I) as Ec. split.
    + apply INC. apply in_map_iff. now exists (z, c).
    + intros y. rewrite <- Ec. apply UP.
Qed.

Lemma ints_range p s z : kind p = KInt s -> In z (integers p b m v) -> (int_min s (bits p) <= z <= int_max s (bits p))%Z.
Proof.
  clear W Hm Hv Hne. intros K I. unfold integers, numbers in I. rewrite map_map in I. apply in_map_iff in I as (i & E & _). unfold dec_num in E. rewrite K in E. subst z.
  apply wrap_range. pose proof (bits_pos p). lia.
Qed.
Lemma ints_nonempty p : integers p b m v <> [].
Proof. clear W Hm Hv. unfold integers, numbers. rewrite map_map. destruct (v_points v); [congruence|discriminate]. Qed.
Lemma common_ok (order : order_fn) p s : (forall l, Permutation (order l) l) -> scalar_prim (m_type m) = Some p -> kind p = KInt s -> (bits p <= 32)%Z ->
  exists z, centroid_most_common order v b (m_def m) (m_type m) = Ok z /\ most_common (integers p b m v) z.
Proof.
  intros PM P K BT. unfold centroid_most_common.
  rewrite (foldM_pure _ (fun l i => count_value l (match dec_num p (attr_value m (nth i (bf_points b) [])) with NInt z => z | NFlt _ => 0%Z end))).
  2:{ intros l i I. rewrite (scalar_at_ok b m p i W Hm (Hv i I) P). cbn [bind]. unfold dec_num. now rewrite K. }
  cbn [bind]. rewrite <- (fold_left_map count_value (fun i => match dec_num p (attr_value m (nth i (bf_points b) [])) with NInt z => z | NFlt _ => 0%Z end)).
  assert (E : map (fun i => match dec_num p (attr_value m (nth i (bf_points b) [])) with NInt z => z | NFlt _ => 0%Z end) (v_points v) = integers p b m v)
    by (unfold integers, numbers; now rewrite map_map).
  rewrite E. destruct (most_common_pick order (integers p b m v) PM (ints_nonempty p)) as (c & z & -> & MC). cbn [unwrap bind].
  pose proof (ints_range p s z K (proj1 MC)) as R. pose proof (bits_pos p) as BP.
  assert (2 ^ (bits p - 1) <= 2 ^ 31 /\ 2 ^ bits p <= 2 ^ 32)%Z by (split; apply Z.pow_le_mono_r; lia).
  replace (Z.leb (- 2 ^ 63) z && Z.ltb z (2 ^ 63)) with true.
  2:{ symmetry. unfold int_min, int_max in R. apply andb_true_intro. rewrite Z.leb_le, Z.ltb_lt. destruct s; lia. }
  cbn [assert bind]. exists z. auto.
Qed.
Lemma int_bytes_back p s z : kind p = KInt s -> (int_min s (bits p) <= z <= int_max s (bits p))%Z -> dec_num p (int_bytes p z) = NInt z /\ length (int_bytes p z) = prim_size p.
Proof.
  clear. intros K R. unfold int_bytes, as_cast. rewrite K. rewrite wrap_id by (auto; pose proof (bits_pos p); lia). split; [now apply (dec_enc_int p s)|now apply (enc_int_length p s)].
Qed.

(* ---- the maximum ---- *)
Lemma max_pool_ok p : scalar_prim (m_type m) = Some p ->
  centroid_max_pool v b (m_def m) (m_type m) = Ok (fold_left (fun c x => if SFltb c x then x else c) (map to_f64 (numbers p b m v)) f64_zero).
Proof.
  intros P. unfold centroid_max_pool. unfold numbers. rewrite map_map, fold_left_map.
  rewrite (foldM_pure _ (fun c i => if SFltb c (to_f64 (dec_num p (attr_value m (nth i (bf_points b) [])))) then to_f64 (dec_num p (attr_value m (nth i (bf_points b) []))) else c)); [reflexivity|].
  intros c i I. rewrite (scalar_at_ok b m p i W Hm (Hv i I) P). cbn [bind]. change VoxModel.as_f64 with to_f64. destruct (SFltb _ _); reflexivity.
Qed.
End Voxel.

(* the running maximum of floats *)
Lemma running_max xs : Forall is_f64 xs -> forall c, is_f64 c -> not_nan c ->
  let r := fold_left (fun c x => if SFltb c x then x else c) xs c in
  is_f64 r /\ not_nan r /\ SFleb c r = true /\ (r = c \/ In r xs) /\ Forall (fun x => x = S754_nan \/ SFleb x r = true) xs.
Proof.
  induction 1 as [|x xs Hx HF IH]; intros c Vc Nc; cbv zeta; cbn [fold_left].
  - split; auto. split; auto. split; [|split; auto]. apply leb_rank; auto. apply Rle_refl.
  - assert (NX : x = S754_nan \/ not_nan x) by (destruct x; auto; right; discriminate).
    destruct (SFltb c x) eqn:E.
    + assert (N : not_nan x) by (destruct NX as [->|]; auto; destruct c as [[]|[]| |[]]; discriminate).
      destruct (IH x Hx N) as (A & B & C & D & F). split; auto. split; auto. apply ltb_rank in E; auto. pose proof (proj1 (leb_rank x _ Hx A N B) C) as LE.
      split; [apply leb_rank; auto; lra|]. split; [destruct D as [->|D]; right; [now left|now right]|]. constructor; auto.
    + destruct (IH c Vc Nc) as (A & B & C & D & F). split; auto. split; auto. split; auto. split; [destruct D as [D|D]; [now left|right; now right]|]. constructor; auto.
      destruct NX as [->|N]; auto. right. apply ltb_rank_false in E; auto. pose proof (proj1 (leb_rank c _ Vc A Nc B) C) as LE. apply leb_rank; auto. lra.
Qed.

Lemma to_f64_int z : (Z.abs z <= 2 ^ 53)%Z -> real_f64 (to_f64 (NInt z)) /\ val (to_f64 (NInt z)) = IZR z.
Proof. apply of_int. Qed.
Lemma to_f64_same f : is_f64 f -> to_f64 (NFlt f) = f.
Proof.
  intros V. unfold to_f64, as_cast. cbn [kind]. destruct f as [s|s| |s q e]; auto. apply f64_valid in V. cbn [valid_binary] in V.
  assert (E : binary_round 53 1024 s q e = S754_finite s q e) by (apply binary_round_exact; [exact V|now rewrite Z.sub_diag]). now rewrite E.
Qed.
(* back to an integer type *)
Lemma back_to_int p z x : kind p = KInt false -> (bits p = 8 \/ bits p = 64)%Z -> (0 <= z <= int_max false (bits p))%Z -> (z <= 2 ^ 53)%Z -> is_f64 x -> not_nan x -> rank64 x = IZR z ->
  cast_bytes p x = enc_num p (NInt z).
Proof.
  intros K BT R LE V N E. unfold cast_bytes, as_cast. rewrite K. apply (f_equal (fun k => enc_num p (NInt k))).
  assert (F : real_f64 x).
  { apply rank_inner; auto. rewrite E. pose proof (of_int z ltac:(lia)) as (A & B). pose proof (val_range _ A). rewrite B in H. exact H. }
  rewrite (rank_real x F) in E. rewrite (val_scaled x V) in E.
  assert (SZ : scaled x = (z * 2 ^ 1074)%Z).
  { apply eq_IZR. rewrite mult_IZR. change (IZR (2 ^ 1074)) with (Raux.bpow Zaux.radix2 1074).
    rewrite <- E. rewrite Rmult_assoc, <- Raux.bpow_plus. change (-1074 + 1074)%Z with 0%Z. cbn [Raux.bpow]. lra. }
  destruct x as [s|s| |s q e]; try (destruct F as (F & _); cbn in F; tauto).
  - cbn [scaled] in SZ. assert (0 < 2 ^ 1074)%Z by (apply Z.pow_pos_nonneg; lia). nia.
  - assert (P0 : (0 < 2 ^ 1074)%Z) by (apply Z.pow_pos_nonneg; lia). cbn [is_f64] in V. assert (GE : (-1074 <= e <= 971)%Z) by lia.
    assert (PE : (0 < 2 ^ (e + 1074))%Z) by (apply Z.pow_pos_nonneg; lia).
    destruct s; [cbn [scaled] in SZ; nia|]. cbn [scaled] in SZ. rewrite Z.mul_1_l in SZ.
    assert (T : trunc_float false q e = z).
    { unfold trunc_float. destruct (Z.leb_spec 0 e).
      - rewrite Z.pow_add_r in SZ by lia. nia.
      - assert (PP : (2 ^ 1074 = 2 ^ (- e) * 2 ^ (e + 1074))%Z) by (rewrite <- Z.pow_add_r by lia; apply f_equal; lia). rewrite PP in SZ. assert (Zpos q = z * 2 ^ (- e))%Z by nia. rewrite H0. apply Z.div_mul.
        assert (0 < 2 ^ (- e))%Z by (apply Z.pow_pos_nonneg; lia). lia. }
    rewrite T. unfold int_min. lia.
Qed.

Lemma max_int_ok b m v p : kind p = KInt false -> (bits p = 8 \/ bits p = 64)%Z -> v_points v <> [] -> Forall (fun z => (z <= 2 ^ 53)%Z) (integers p b m v) ->
  exists z, cast_bytes p (fold_left (fun c x => if SFltb c x then x else c) (map to_f64 (numbers p b m v)) f64_zero) = enc_num p (NInt z) /\ greatest_int (integers p b m v) z.
Proof.
  intros K BT NE SMALL. rewrite Forall_forall in SMALL.
  assert (RG : forall z, In z (integers p b m v) -> (0 <= z <= int_max false (bits p))%Z) by (intros z I; apply (ints_range b m v p false z K I)).
  assert (EN : map to_f64 (numbers p b m v) = map (fun z => to_f64 (NInt z)) (integers p b m v)).
  { unfold integers, numbers. rewrite !map_map. apply map_ext. intros i. unfold dec_num. now rewrite K. }
  rewrite EN. set (zs := integers p b m v) in *. set (xs := map (fun z => to_f64 (NInt z)) zs).
  assert (EX : forall z, In z zs -> real_f64 (to_f64 (NInt z)) /\ val (to_f64 (NInt z)) = IZR z) by (intros z I; apply to_f64_int; pose proof (RG z I); pose proof (SMALL z I); lia).
  destruct (running_max xs) with (c := f64_zero) as (A & B & C & D & F).
  { apply Forall_forall. intros x I. apply in_map_iff in I as (z & <- & I). apply (EX z I). }
  { exact I. } { discriminate. }
  set (r := fold_left _ xs f64_zero) in *.
  assert (UP : forall z, In z zs -> (IZR z <= rank64 r)%R).
  { intros z I. rewrite Forall_forall in F. destruct (EX z I) as (Q & QV). destruct (F _ (in_map (fun z => to_f64 (NInt z)) zs z I)) as [H|H].
    - destruct Q as (Q & _). rewrite H in Q. contradiction.
    - apply leb_rank in H; auto; [|apply Q|now apply real_not_nan]. rewrite (rank_real _ Q), QV in H. exact H. }
  assert (AT : exists z, In z zs /\ rank64 r = IZR z).
  { destruct D as [D|D].
    - assert (EZ : exists z, In z zs) by (unfold zs; pose proof (ints_nonempty b m v NE p); destruct (integers p b m v) as [|z l]; [congruence|]; exists z; now left).
      destruct EZ as (z & I). exists z. split; auto. pose proof (UP z I) as U. rewrite D in U |- *. change (rank64 f64_zero) with 0%R in *. pose proof (RG z I) as G.
      assert (0 <= IZR z)%R by (apply IZR_le; lia). lra.
    - apply in_map_iff in D as (z & D & I). exists z. split; auto. destruct (EX z I) as (Q & QV). rewrite D in Q, QV. now rewrite (rank_real _ Q). }
  destruct AT as (z & I & E). exists z. split; [apply back_to_int; auto|]. split; auto. apply Forall_forall. intros y Y. apply le_IZR. rewrite <- E. now apply UP.
Qed.

Lemma floats_f64 b m v : Forall is_f64 (floats PF64 b m v).
Proof. apply Forall_forall. intros x I. unfold floats, numbers in I. rewrite map_map in I. apply in_map_iff in I as (i & <- & _). cbn. apply float_of_bits_f64. Qed.
Lemma max_float_ok b m v : (exists x, In x (floats PF64 b m v) /\ SFleb (S754_zero false) x = true) ->
  exists f, dec_num PF64 (cast_bytes PF64 (fold_left (fun c x => if SFltb c x then x else c) (map to_f64 (numbers PF64 b m v)) f64_zero)) = NFlt f /\ greatest_float (floats PF64 b m v) f.
Proof.
  intros (x0 & I0 & P0). pose proof (floats_f64 b m v) as V.
  assert (EN : map to_f64 (numbers PF64 b m v) = floats PF64 b m v).
  { unfold floats, numbers. rewrite !map_map. apply map_ext. intros i. cbn [dec_num kind]. apply to_f64_same. apply float_of_bits_f64. }
  rewrite EN. set (xs := floats PF64 b m v) in *.
  destruct (running_max xs V f64_zero) as (A & B & C & D & F); [exact I|discriminate|]. set (r := fold_left _ xs f64_zero) in *.
  exists r. split.
  - assert (E : cast_bytes PF64 r = enc_num PF64 (NFlt r)).
    { unfold cast_bytes. apply (f_equal (enc_num PF64)). pose proof (to_f64_same r A) as T. unfold to_f64 in T. cbn [as_cast kind] in T |- *. now rewrite T. }
    rewrite E. apply (dec_enc_float PF64 53 1024 r eq_refl); [now apply f64_valid|exact B].
  - split; [|exact F]. rewrite Forall_forall in V, F. pose proof (V x0 I0) as V0. assert (N0 : not_nan x0) by (intros ->; discriminate).
    destruct D as [D|D].
    + exists x0. split; auto. destruct (F x0 I0) as [->|L]; [now elim N0|]. apply leb_rank in L; auto. apply leb_rank in P0; auto; [|exact I|discriminate].
      rewrite D in L |- *. unfold SFeqb. pose proof (FloatReal.rank_compare 53 1024 x0 f64_zero (proj1 (f64_valid x0) V0) eq_refl N0 ltac:(discriminate)) as Q. rewrite Q.
      rewrite Raux.Rcompare_Eq; auto. change (FloatReal.rank 1024) with rank64. change (rank64 (S754_zero false)) with 0%R in P0. change (rank64 f64_zero) with 0%R in *. lra.
    + exists r. split; auto. unfold SFeqb. pose proof (FloatReal.rank_compare 53 1024 r r (proj1 (f64_valid r) A) (proj1 (f64_valid r) A) B B) as Q. rewrite Q. now rewrite Raux.Rcompare_Eq.
Qed.

(* ---- averages ---- *)
Section Mean.
Variable b : buffer.
Variable m : member.
Variable v : voxel.
Hypothesis W : bf_wf b.
Hypothesis Hm : In m (l_attrs (bf_layout b)).
Hypothesis Hv : forall i, In i (v_points v) -> i < bf_len b.

Lemma average_num_ok p : scalar_prim (m_type m) = Some p -> centroid_average_num v b (m_def m) (m_type m) = Ok (mean (map to_f64 (numbers p b m v))).
Proof.
  intros P. unfold centroid_average_num.
  rewrite (foldM_pure _ (fun s i => f64_add s (to_f64 (dec_num p (attr_value m (nth i (bf_points b) [])))))).
  2:{ intros s i I. rewrite (scalar_at_ok b m p i W Hm (Hv i I) P). reflexivity. }
  cbn [bind]. unfold mean, numbers. rewrite map_map, map_length, fold_left_map. reflexivity.
Qed.
Lemma average_vec_ok p : vector_prim (m_type m) = Some p ->
  centroid_average_vec v b (m_def m) (m_type m) = Ok (mk_p3 (mean (map to_f64 (components p 0 b m v))) (mean (map to_f64 (components p 1 b m v))) (mean (map to_f64 (components p 2 b m v)))).
Proof.
  intros P. unfold centroid_average_vec.
  set (c := fun k i => to_f64 (component_of p k (attr_value m (nth i (bf_points b) [])))).
  rewrite (foldM_pure _ (fun s i => mk_p3 (f64_add (px s) (c 0 i)) (f64_add (py s) (c 1 i)) (f64_add (pz s) (c 2 i)))).
  2:{ intros s i I. rewrite (vector_at_ok b m p i W Hm (Hv i I) P). reflexivity. }
  cbn [bind].
  assert (E : forall l x y z, fold_left (fun s i => mk_p3 (f64_add (px s) (c 0 i)) (f64_add (py s) (c 1 i)) (f64_add (pz s) (c 2 i))) l (mk_p3 x y z)
     = mk_p3 (fold_left (fun s i => f64_add s (c 0 i)) l x) (fold_left (fun s i => f64_add s (c 1 i)) l y) (fold_left (fun s i => f64_add s (c 2 i)) l z)).
  { induction l as [|i l IH]; intros x y z; [reflexivity|]. cbn [fold_left px py pz]. apply IH. }
  rewrite E. cbn [px py pz]. unfold mean, components. rewrite !map_map, !map_length, !fold_left_map. reflexivity.
Qed.
End Mean.
Lemma cast_length p x : length (cast_bytes p x) = prim_size p.
Proof. unfold cast_bytes, as_cast, enc_num. destruct (kind p); apply le_enc_length. Qed.
