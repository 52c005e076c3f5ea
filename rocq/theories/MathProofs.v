(* Boxes, bounding boxes of lists, bit helpers. *)
From Coq Require Import String List ZArith Lia Bool Arith SpecFloat.
From Verif Require Import Base LayoutModel LayoutSpec BufferModel BufferSpec TraitModel TraitSpec NumModel ConvModel ConvSpec MathModel MathSpec.
Import ListNotations.
Open Scope Z_scope.

(* ------------------------------------------------------------------ orders *)

Section Order.
Context {T : Type} (pcmp : T -> T -> option comparison) (D : T -> Prop).
Hypothesis TO : total_on pcmp D.
Notation le := (le pcmp). Notation lt := (lt pcmp). Notation gt := (gt pcmp). Notation ge := (ge pcmp).

Lemma le_refl x : D x -> le x x = true.
Proof. intros H. unfold MathModel.le. now rewrite (proj1 TO x H). Qed.
Lemma le_trans x y z : D x -> D y -> D z -> le x y = true -> le y z = true -> le x z = true.
Proof. apply TO. Qed.
Lemma ge_le x y : D x -> D y -> ge x y = le y x.
Proof. intros Hx Hy. destruct TO as (_ & O & _). destruct (O x y Hx Hy) as (c & E1 & E2). unfold MathModel.ge, MathModel.le. rewrite E1, E2. now destruct c. Qed.
Lemma lt_le x y : D x -> D y -> lt x y = negb (le y x).
Proof. intros Hx Hy. destruct TO as (_ & O & _). destruct (O x y Hx Hy) as (c & E1 & E2). unfold MathModel.lt, MathModel.le. rewrite E1, E2. now destruct c. Qed.
Lemma gt_le x y : D x -> D y -> gt x y = negb (le x y).
Proof. intros Hx Hy. destruct TO as (_ & O & _). destruct (O x y Hx Hy) as (c & E1 & E2). unfold MathModel.gt, MathModel.le. rewrite E1. now destruct c. Qed.
Lemma le_total x y : D x -> D y -> le x y = true \/ le y x = true.
Proof. intros Hx Hy. destruct TO as (_ & O & _). destruct (O x y Hx Hy) as (c & E1 & E2). unfold MathModel.le. rewrite E1, E2. destruct c; auto. Qed.

(* minimum and maximum of two values *)
Definition mn (x y : T) : T := if lt x y then x else y.
Definition mx (x y : T) : T := if gt x y then x else y.
Lemma mn_facts x y : D x -> D y -> D (mn x y) /\ le (mn x y) x = true /\ le (mn x y) y = true /\ (mn x y = x \/ mn x y = y)
  /\ (le y x = true -> mn x y = y).
Proof.
  intros Hx Hy. unfold mn. rewrite (lt_le x y Hx Hy). destruct (le y x) eqn:E; cbn [negb].
  - pose proof (le_refl y Hy). repeat split; auto.
  - destruct (le_total x y Hx Hy); [|congruence]. pose proof (le_refl x Hx). repeat split; auto. congruence.
Qed.
Lemma mx_facts x y : D x -> D y -> D (mx x y) /\ le x (mx x y) = true /\ le y (mx x y) = true /\ (mx x y = x \/ mx x y = y)
  /\ (le x y = true -> mx x y = y).
Proof.
  intros Hx Hy. unfold mx. rewrite (gt_le x y Hx Hy). destruct (le x y) eqn:E; cbn [negb].
  - pose proof (le_refl y Hy). repeat split; auto.
  - destruct (le_total x y Hx Hy); [congruence|]. pose proof (le_refl x Hx). repeat split; auto. congruence.
Qed.

(* ---- boxes ---- *)
Lemma contains_inside b p : p3_all D (b_min b) -> p3_all D (b_max b) -> p3_all D p -> (contains pcmp b p = true <-> inside pcmp b p).
Proof.
  intros (A1 & A2 & A3) (B1 & B2 & B3) (C1 & C2 & C3). unfold contains, inside. rewrite !andb_true_iff, !ge_le by assumption. tauto.
Qed.

Lemma union_smallest a b : proper pcmp D a -> proper pcmp D b ->
  smallest pcmp D (fun p => p3_all D p /\ (inside pcmp a p \/ inside pcmp b p)) (union pcmp a b).
Proof.
  intros ((A1 & A2 & A3) & (A4 & A5 & A6) & A7 & A8 & A9) ((B1 & B2 & B3) & (B4 & B5 & B6) & B7 & B8 & B9).
  assert (PA : smallest pcmp D (fun p => p3_all D p /\ (inside pcmp a p \/ inside pcmp b p))
    (mk_aabb (mk_p3 (mn (px (b_min a)) (px (b_min b))) (mn (py (b_min a)) (py (b_min b))) (mn (pz (b_min a)) (pz (b_min b))))
             (mk_p3 (mx (px (b_max a)) (px (b_max b))) (mx (py (b_max a)) (py (b_max b))) (mx (pz (b_max a)) (pz (b_max b)))))); [|exact PA].
  destruct (mn_facts _ _ A1 B1) as (M1 & M2 & M3 & M4 & _), (mn_facts _ _ A2 B2) as (N1 & N2 & N3 & N4 & _), (mn_facts _ _ A3 B3) as (O1 & O2 & O3 & O4 & _).
  destruct (mx_facts _ _ A4 B4) as (P1 & P2 & P3 & P4 & _), (mx_facts _ _ A5 B5) as (Q1 & Q2 & Q3 & Q4 & _), (mx_facts _ _ A6 B6) as (R1 & R2 & R3 & R4 & _).
  split; [|split].
  - unfold proper, p3_all. cbn [b_min b_max px py pz]. repeat split; auto.
    + apply (le_trans _ (px (b_min a))); auto. apply (le_trans _ (px (b_max a))); auto.
    + apply (le_trans _ (py (b_min a))); auto. apply (le_trans _ (py (b_max a))); auto.
    + apply (le_trans _ (pz (b_min a))); auto. apply (le_trans _ (pz (b_max a))); auto.
  - intros p ((D1 & D2 & D3) & [I|I]); destruct I as ((I1 & I2) & (I3 & I4) & (I5 & I6)); unfold inside; cbn [b_min b_max px py pz]; repeat split.
    all: first [ apply (le_trans _ (px (b_min a))); now auto | apply (le_trans _ (px (b_max a))); now auto
               | apply (le_trans _ (py (b_min a))); now auto | apply (le_trans _ (py (b_max a))); now auto
               | apply (le_trans _ (pz (b_min a))); now auto | apply (le_trans _ (pz (b_max a))); now auto
               | apply (le_trans _ (px (b_min b))); now auto | apply (le_trans _ (px (b_max b))); now auto
               | apply (le_trans _ (py (b_min b))); now auto | apply (le_trans _ (py (b_max b))); now auto
               | apply (le_trans _ (pz (b_min b))); now auto | apply (le_trans _ (pz (b_max b))); now auto ].
  - intros c ((C1 & C2 & C3) & (C4 & C5 & C6) & _) HC p (D1 & D2 & D3) I.
    destruct I as ((I1 & I2) & (I3 & I4) & (I5 & I6)). cbn [b_min b_max px py pz] in *.
    assert (CA : inside pcmp c (b_min a)) by (apply HC; split; [now split; auto|left; unfold inside; repeat split; auto using le_refl]).
    assert (CB : inside pcmp c (b_max a)) by (apply HC; split; [now split; auto|left; unfold inside; repeat split; auto using le_refl]).
    assert (CC : inside pcmp c (b_min b)) by (apply HC; split; [now split; auto|right; unfold inside; repeat split; auto using le_refl]).
    assert (CD : inside pcmp c (b_max b)) by (apply HC; split; [now split; auto|right; unfold inside; repeat split; auto using le_refl]).
    destruct CA as ((a1 & _) & (a3 & _) & (a5 & _)), CB as ((_ & b2) & (_ & b4) & (_ & b6)), CC as ((c1 & _) & (c3 & _) & (c5 & _)), CD as ((_ & d2) & (_ & d4) & (_ & d6)).
    unfold inside. repeat split.
    + apply (le_trans _ (mn (px (b_min a)) (px (b_min b)))); auto. destruct M4 as [->| ->]; auto.
    + apply (le_trans _ (mx (px (b_max a)) (px (b_max b)))); auto. destruct P4 as [->| ->]; auto.
    + apply (le_trans _ (mn (py (b_min a)) (py (b_min b)))); auto. destruct N4 as [->| ->]; auto.
    + apply (le_trans _ (mx (py (b_max a)) (py (b_max b)))); auto. destruct Q4 as [->| ->]; auto.
    + apply (le_trans _ (mn (pz (b_min a)) (pz (b_min b)))); auto. destruct O4 as [->| ->]; auto.
    + apply (le_trans _ (mx (pz (b_max a)) (pz (b_max b)))); auto. destruct R4 as [->| ->]; auto.
Qed.

Lemma point_box_proper p : p3_all D p -> proper pcmp D (mk_aabb p p).
Proof. intros (A & B & C). unfold proper, p3_all. cbn [b_min b_max]. repeat split; auto using le_refl. Qed.

Lemma extend_union b p : extend_with_point pcmp b p = union pcmp b (mk_aabb p p).
Proof. reflexivity. Qed.

Lemma extend_smallest b p : proper pcmp D b -> p3_all D p ->
  smallest pcmp D (fun q => p3_all D q /\ (inside pcmp b q \/ q = p)) (extend_with_point pcmp b p).
Proof.
  intros B P. rewrite extend_union. destruct (union_smallest b (mk_aabb p p) B (point_box_proper p P)) as (U1 & U2 & U3).
  split; [exact U1|]. destruct P as (P1 & P2 & P3). split.
  - intros q [Dq [I| ->]]; apply U2; auto. split; auto. right. unfold inside. cbn [b_min b_max]. repeat split; auto using le_refl.
  - intros c PC HC. apply U3; auto. intros q (Dq & [I|I]); [apply HC; auto|].
    assert (IP : inside pcmp c p) by (apply HC; split; [now split|auto]).
    destruct PC as ((C1 & C2 & C3) & (C4 & C5 & C6) & _). destruct Dq as (D1 & D2 & D3).
    destruct I as ((I1 & I2) & (I3 & I4) & (I5 & I6)), IP as ((J1 & J2) & (J3 & J4) & (J5 & J6)). cbn [b_min b_max] in *.
    unfold inside. repeat split; [apply (le_trans _ (px p))|apply (le_trans _ (px p))|apply (le_trans _ (py p))|apply (le_trans _ (py p))|apply (le_trans _ (pz p))|apply (le_trans _ (pz p))]; auto.
Qed.

Lemma intersects_spec a b : proper pcmp D a -> proper pcmp D b ->
  (intersects pcmp a b = true <-> exists p, p3_all D p /\ inside pcmp a p /\ inside pcmp b p).
Proof.
  intros ((A1 & A2 & A3) & (A4 & A5 & A6) & A7 & A8 & A9) ((B1 & B2 & B3) & (B4 & B5 & B6) & B7 & B8 & B9).
  unfold intersects. rewrite !andb_true_iff, !ge_le by assumption. split.
  - intros (((H1 & H2) & (H3 & H4)) & (H5 & H6)).
    destruct (mx_facts _ _ A1 B1) as (M1 & M2 & M3 & M4 & _), (mx_facts _ _ A2 B2) as (N1 & N2 & N3 & N4 & _), (mx_facts _ _ A3 B3) as (O1 & O2 & O3 & O4 & _).
    exists (mk_p3 (mx (px (b_min a)) (px (b_min b))) (mx (py (b_min a)) (py (b_min b))) (mx (pz (b_min a)) (pz (b_min b)))).
    split; [unfold p3_all; auto|]. unfold inside. cbn [px py pz]. repeat split; auto;
      first [destruct M4 as [->| ->]; now auto|destruct N4 as [->| ->]; now auto|destruct O4 as [->| ->]; now auto].
  - intros (p & (D1 & D2 & D3) & ((I1 & I2) & (I3 & I4) & (I5 & I6)) & ((J1 & J2) & (J3 & J4) & (J5 & J6))).
    repeat split; [apply (le_trans _ (px p))|apply (le_trans _ (px p))|apply (le_trans _ (py p))|apply (le_trans _ (py p))|apply (le_trans _ (pz p))|apply (le_trans _ (pz p))]; auto.
Qed.

Lemma intersects_sym a b : proper pcmp D a -> proper pcmp D b -> intersects pcmp a b = intersects pcmp b a.
Proof.
  intros A B. apply eq_true_iff_eq. rewrite (intersects_spec a b A B), (intersects_spec b a B A). split; intros (p & ? & ? & ?); exists p; auto.
Qed.

Lemma from_min_max_spec p q : p3_all D p -> p3_all D q ->
  from_min_max pcmp p q =
  if le (px p) (px q) && le (py p) (py q) && le (pz p) (pz q) then Ok (mk_aabb p q) else Panic.
Proof.
  intros (A1 & A2 & A3) (B1 & B2 & B3). unfold from_min_max. rewrite !gt_le by assumption.
  destruct (le (px p) (px q)), (le (py p) (py q)), (le (pz p) (pz q)); reflexivity.
Qed.

(* ---- lists ---- *)
Definition fold_mn (m : T) (xs : list T) : T := fold_left mn xs m.
Definition fold_mx (m : T) (xs : list T) : T := fold_left mx xs m.

Lemma fold_mn_facts xs : forall m, D m -> Forall D xs ->
  D (fold_mn m xs) /\ le (fold_mn m xs) m = true /\ (forall x, In x xs -> le (fold_mn m xs) x = true)
  /\ (fold_mn m xs = m \/ In (fold_mn m xs) xs) /\ (xs <> [] -> (forall x, In x xs -> le x m = true) -> In (fold_mn m xs) xs).
Proof.
  unfold fold_mn. induction xs as [|x xs IH]; intros m Hm F; cbn [fold_left].
  - repeat split; auto using le_refl; try contradiction.
  - inversion_clear F as [|? ? Hx F']. destruct (mn_facts m x Hm Hx) as (A1 & A2 & A3 & A4 & A5).
    destruct (IH (mn m x) A1 F') as (B1 & B2 & B3 & B4 & _). repeat split; auto.
    + apply (le_trans _ (mn m x)); auto.
    + intros y [<-|I]; auto. apply (le_trans _ (mn m x)); auto.
    + destruct B4 as [->|]; [|now right; right]. destruct A4 as [->| ->]; [now left|right; now left].
    + intros _ H. destruct B4 as [->|]; [|now right]. left. symmetry. apply A5. apply H. now left.
Qed.
Lemma fold_mx_facts xs : forall m, D m -> Forall D xs ->
  D (fold_mx m xs) /\ le m (fold_mx m xs) = true /\ (forall x, In x xs -> le x (fold_mx m xs) = true)
  /\ (fold_mx m xs = m \/ In (fold_mx m xs) xs) /\ (xs <> [] -> (forall x, In x xs -> le m x = true) -> In (fold_mx m xs) xs).
Proof.
  unfold fold_mx. induction xs as [|x xs IH]; intros m Hm F; cbn [fold_left].
  - repeat split; auto using le_refl; try contradiction.
  - inversion_clear F as [|? ? Hx F']. destruct (mx_facts m x Hm Hx) as (A1 & A2 & A3 & A4 & A5).
    destruct (IH (mx m x) A1 F') as (B1 & B2 & B3 & B4 & _). repeat split; auto.
    + apply (le_trans _ (mx m x)); auto.
    + intros y [<-|I]; auto. apply (le_trans _ (mx m x)); auto.
    + destruct B4 as [->|]; [|now right; right]. destruct A4 as [->| ->]; [now left|right; now left].
    + intros _ H. destruct B4 as [->|]; [|now right]. left. symmetry. apply A5. apply H. now left.
Qed.

(* the other orientation, used by calculate_bounds: keeps the old value unless the new one is strictly smaller / larger *)
Definition mn' (x y : T) : T := if lt y x then y else x.
Definition mx' (x y : T) : T := if gt y x then y else x.
Lemma mn'_facts x y : D x -> D y -> D (mn' x y) /\ le (mn' x y) x = true /\ le (mn' x y) y = true /\ (mn' x y = x \/ mn' x y = y).
Proof.
  intros Hx Hy. unfold mn'. rewrite (lt_le y x Hy Hx). destruct (le x y) eqn:E; cbn [negb].
  - pose proof (le_refl x Hx). repeat split; auto.
  - destruct (le_total x y Hx Hy); [congruence|]. pose proof (le_refl y Hy). auto.
Qed.
Lemma mx'_facts x y : D x -> D y -> D (mx' x y) /\ le x (mx' x y) = true /\ le y (mx' x y) = true /\ (mx' x y = x \/ mx' x y = y).
Proof.
  intros Hx Hy. unfold mx'. rewrite (gt_le y x Hy Hx). destruct (le y x) eqn:E; cbn [negb].
  - pose proof (le_refl x Hx). repeat split; auto.
  - destruct (le_total x y Hx Hy); [|congruence]. pose proof (le_refl y Hy). auto.
Qed.

(* values that compare with nothing (NaN) are passed over *)
Definition incomparable (x : T) : Prop := forall y, pcmp x y = None.
Definition fold_mn' (m : T) (xs : list T) : T := fold_left mn' xs m.
Definition fold_mx' (m : T) (xs : list T) : T := fold_left mx' xs m.
Lemma fold_mn'_facts xs : forall m, D m -> Forall (fun x => D x \/ incomparable x) xs ->
  D (fold_mn' m xs) /\ le (fold_mn' m xs) m = true /\ (forall x, In x xs -> D x -> le (fold_mn' m xs) x = true)
  /\ (fold_mn' m xs = m \/ In (fold_mn' m xs) xs).
Proof.
  unfold fold_mn'. induction xs as [|x xs IH]; intros m Hm F; cbn [fold_left].
  - repeat split; auto using le_refl; try contradiction.
  - inversion_clear F as [|? ? Hx F']. destruct Hx as [Hx|Hx].
    + destruct (mn'_facts m x Hm Hx) as (A1 & A2 & A3 & A4).
      destruct (IH (mn' m x) A1 F') as (B1 & B2 & B3 & B4). repeat split; auto.
      * apply (le_trans _ (mn' m x)); auto.
      * intros y [<-|I] Dy; auto. apply (le_trans _ (mn' m x)); auto.
      * destruct B4 as [->|]; [|now right; right]. destruct A4 as [->| ->]; [now left|right; now left].
    + replace (mn' m x) with m by (unfold mn', MathModel.lt; now rewrite (Hx m)).
      destruct (IH m Hm F') as (B1 & B2 & B3 & B4). repeat split; auto.
      * intros y [<-|I] Dy; auto. pose proof (proj1 TO _ Dy) as R. rewrite (Hx x) in R. discriminate.
      * destruct B4; [now left|right; now right].
Qed.
Lemma fold_mx'_facts xs : forall m, D m -> Forall (fun x => D x \/ incomparable x) xs ->
  D (fold_mx' m xs) /\ le m (fold_mx' m xs) = true /\ (forall x, In x xs -> D x -> le x (fold_mx' m xs) = true)
  /\ (fold_mx' m xs = m \/ In (fold_mx' m xs) xs).
Proof.
  unfold fold_mx'. induction xs as [|x xs IH]; intros m Hm F; cbn [fold_left].
  - repeat split; auto using le_refl; try contradiction.
  - inversion_clear F as [|? ? Hx F']. destruct Hx as [Hx|Hx].
    + destruct (mx'_facts m x Hm Hx) as (A1 & A2 & A3 & A4).
      destruct (IH (mx' m x) A1 F') as (B1 & B2 & B3 & B4). repeat split; auto.
      * apply (le_trans _ (mx' m x)); auto.
      * intros y [<-|I] Dy; auto. apply (le_trans _ (mx' m x)); auto.
      * destruct B4 as [->|]; [|now right; right]. destruct A4 as [->| ->]; [now left|right; now left].
    + replace (mx' m x) with m by (unfold mx', MathModel.gt; now rewrite (Hx m)).
      destruct (IH m Hm F') as (B1 & B2 & B3 & B4). repeat split; auto.
      * intros y [<-|I] Dy; auto. pose proof (proj1 TO _ Dy) as R. rewrite (Hx x) in R. discriminate.
      * destruct B4; [now left|right; now right].
Qed.
Lemma fold_mn'_stays xs : forall m, (forall x, In x xs -> lt x m = false) -> fold_mn' m xs = m.
Proof.
  unfold fold_mn'. induction xs as [|x xs IH]; intros m H; cbn [fold_left]; auto.
  unfold mn' at 2. rewrite (H x (or_introl eq_refl)). apply IH. intros y I. apply H. now right.
Qed.
Lemma fold_mx'_stays xs : forall m, (forall x, In x xs -> gt x m = false) -> fold_mx' m xs = m.
Proof.
  unfold fold_mx'. induction xs as [|x xs IH]; intros m H; cbn [fold_left]; auto.
  unfold mx' at 2. rewrite (H x (or_introl eq_refl)). apply IH. intros y I. apply H. now right.
Qed.

Lemma from_iter_axes tmax tmin pts : from_iter pcmp tmax tmin pts =
  from_min_max pcmp (mk_p3 (fold_mn tmax (map (@px T) pts)) (fold_mn tmax (map (@py T) pts)) (fold_mn tmax (map (@pz T) pts)))
                    (mk_p3 (fold_mx tmin (map (@px T) pts)) (fold_mx tmin (map (@py T) pts)) (fold_mx tmin (map (@pz T) pts))).
Proof.
  unfold from_iter.
  assert (X : forall x y z x' y' z', fold_left (fun (acc : p3 T * p3 T) p => let (m, M) := acc in
      (mk_p3 (if lt (px m) (px p) then px m else px p) (if lt (py m) (py p) then py m else py p) (if lt (pz m) (pz p) then pz m else pz p),
       mk_p3 (if gt (px M) (px p) then px M else px p) (if gt (py M) (py p) then py M else py p) (if gt (pz M) (pz p) then pz M else pz p)))
      pts (mk_p3 x y z, mk_p3 x' y' z') =
    (mk_p3 (fold_mn x (map (@px T) pts)) (fold_mn y (map (@py T) pts)) (fold_mn z (map (@pz T) pts)),
     mk_p3 (fold_mx x' (map (@px T) pts)) (fold_mx y' (map (@py T) pts)) (fold_mx z' (map (@pz T) pts)))).
  { induction pts as [|p pts IH]; intros; cbn [fold_left map]; [reflexivity|]. cbn [px py pz]. rewrite IH. reflexivity. }
  rewrite X. reflexivity.
Qed.
Lemma bounds_of_axes tmax tmin pts : bounds_of pcmp tmax tmin pts =
  from_min_max pcmp (mk_p3 (fold_mn' tmax (map (@px T) pts)) (fold_mn' tmax (map (@py T) pts)) (fold_mn' tmax (map (@pz T) pts)))
                    (mk_p3 (fold_mx' tmin (map (@px T) pts)) (fold_mx' tmin (map (@py T) pts)) (fold_mx' tmin (map (@pz T) pts))).
Proof.
  unfold bounds_of.
  assert (X : forall x y z x' y' z', fold_left (fun (acc : p3 T * p3 T) p => let (m, M) := acc in
      (mk_p3 (if lt (px p) (px m) then px p else px m) (if lt (py p) (py m) then py p else py m) (if lt (pz p) (pz m) then pz p else pz m),
       mk_p3 (if gt (px p) (px M) then px p else px M) (if gt (py p) (py M) then py p else py M) (if gt (pz p) (pz M) then pz p else pz M)))
      pts (mk_p3 x y z, mk_p3 x' y' z') =
    (mk_p3 (fold_mn' x (map (@px T) pts)) (fold_mn' y (map (@py T) pts)) (fold_mn' z (map (@pz T) pts)),
     mk_p3 (fold_mx' x' (map (@px T) pts)) (fold_mx' y' (map (@py T) pts)) (fold_mx' z' (map (@pz T) pts)))).
  { induction pts as [|p pts IH]; intros; cbn [fold_left map]; [reflexivity|]. cbn [px py pz]. rewrite IH. reflexivity. }
  rewrite X. reflexivity.
Qed.

Lemma Forall_axis (f : p3 T -> T) pts : (forall p, In p pts -> D (f p)) -> Forall D (map f pts).
Proof. intros H. apply Forall_forall. intros x I. apply in_map_iff in I. destruct I as (p & <- & I). auto. Qed.

Lemma from_iter_contains tmax tmin pts : D tmax -> D tmin -> pts <> [] -> (forall p, In p pts -> p3_all D p) ->
  exists b, from_iter pcmp tmax tmin pts = Ok b /\ proper pcmp D b /\ (forall p, In p pts -> inside pcmp b p).
Proof.
  intros DM Dm NE H. rewrite from_iter_axes.
  assert (FX : Forall D (map (@px T) pts)) by (apply Forall_axis; intros p I; apply (H p I)).
  assert (FY : Forall D (map (@py T) pts)) by (apply Forall_axis; intros p I; apply (H p I)).
  assert (FZ : Forall D (map (@pz T) pts)) by (apply Forall_axis; intros p I; apply (H p I)).
  destruct (fold_mn_facts _ tmax DM FX) as (X1 & _ & X3 & _), (fold_mn_facts _ tmax DM FY) as (Y1 & _ & Y3 & _), (fold_mn_facts _ tmax DM FZ) as (Z1 & _ & Z3 & _).
  destruct (fold_mx_facts _ tmin Dm FX) as (U1 & _ & U3 & _), (fold_mx_facts _ tmin Dm FY) as (V1 & _ & V3 & _), (fold_mx_facts _ tmin Dm FZ) as (W1 & _ & W3 & _).
  rewrite from_min_max_spec by (split; auto). cbn [px py pz].
  destruct pts as [|p pts]; [congruence|]. assert (IX : In (px p) (map (@px T) (p :: pts))) by (now left). assert (IY : In (py p) (map (@py T) (p :: pts))) by (now left).
  assert (IZ : In (pz p) (map (@pz T) (p :: pts))) by (now left). destruct (H p (or_introl eq_refl)) as (E1 & E2 & E3).
  rewrite (le_trans _ _ _ X1 E1 U1 (X3 _ IX) (U3 _ IX)), (le_trans _ _ _ Y1 E2 V1 (Y3 _ IY) (V3 _ IY)), (le_trans _ _ _ Z1 E3 W1 (Z3 _ IZ) (W3 _ IZ)).
  cbn [andb]. eexists. split; [reflexivity|]. split.
  - unfold proper, p3_all. cbn [b_min b_max px py pz]. repeat split; auto.
    + exact (le_trans _ _ _ X1 E1 U1 (X3 _ IX) (U3 _ IX)).
    + exact (le_trans _ _ _ Y1 E2 V1 (Y3 _ IY) (V3 _ IY)).
    + exact (le_trans _ _ _ Z1 E3 W1 (Z3 _ IZ) (W3 _ IZ)).
  - intros q I. unfold inside. cbn [b_min b_max px py pz]. repeat split; first [apply X3|apply Y3|apply Z3|apply U3|apply V3|apply W3]; now apply in_map.
Qed.

Lemma in_axis (f : p3 T -> T) pts x : In x (map f pts) -> exists p, In p pts /\ f p = x.
Proof. intros I. apply in_map_iff in I. destruct I as (p & <- & I). eauto. Qed.

Lemma from_iter_tight tmax tmin pts b : D tmax -> D tmin -> pts <> [] -> (forall p, In p pts -> p3_all D p) ->
  (forall p, In p pts -> p3_all (fun x => le tmin x = true /\ le x tmax = true) p) ->
  from_iter pcmp tmax tmin pts = Ok b -> tight pts b.
Proof.
  intros DM Dm NE H F E. rewrite from_iter_axes in E.
  assert (FX : Forall D (map (@px T) pts)) by (apply Forall_axis; intros p I; apply (H p I)).
  assert (FY : Forall D (map (@py T) pts)) by (apply Forall_axis; intros p I; apply (H p I)).
  assert (FZ : Forall D (map (@pz T) pts)) by (apply Forall_axis; intros p I; apply (H p I)).
  unfold from_min_max in E. destruct (_ || _) in E; [discriminate|]. injection E as <-. unfold tight. cbn [b_min b_max px py pz].
  assert (NX : forall f : p3 T -> T, map f pts <> []) by (destruct pts; [congruence|discriminate]).
  assert (BX : forall x, In x (map (@px T) pts) -> le tmin x = true /\ le x tmax = true) by (intros x I; apply in_axis in I; destruct I as (p & I & <-); apply (F p I)).
  assert (BY : forall x, In x (map (@py T) pts) -> le tmin x = true /\ le x tmax = true) by (intros x I; apply in_axis in I; destruct I as (p & I & <-); apply (F p I)).
  assert (BZ : forall x, In x (map (@pz T) pts) -> le tmin x = true /\ le x tmax = true) by (intros x I; apply in_axis in I; destruct I as (p & I & <-); apply (F p I)).
  repeat split; apply in_axis.
  - apply (fold_mn_facts _ tmax DM FX); [apply NX|apply BX].
  - apply (fold_mn_facts _ tmax DM FY); [apply NX|apply BY].
  - apply (fold_mn_facts _ tmax DM FZ); [apply NX|apply BZ].
  - apply (fold_mx_facts _ tmin Dm FX); [apply NX|apply BX].
  - apply (fold_mx_facts _ tmin Dm FY); [apply NX|apply BY].
  - apply (fold_mx_facts _ tmin Dm FZ); [apply NX|apply BZ].
Qed.

(* a proper box whose faces all touch one of the points is the smallest one *)
Lemma tight_smallest pts b : proper pcmp D b -> (forall p, In p pts -> p3_all D p) -> (forall p, In p pts -> inside pcmp b p) -> tight pts b ->
  smallest pcmp D (fun p => In p pts) b.
Proof.
  intros P HD HI (T1 & T2 & T3 & T4 & T5 & T6). split; [exact P|]. split; [exact HI|].
  intros c PC HC p (D1 & D2 & D3) ((I1 & I2) & (I3 & I4) & (I5 & I6)).
  destruct P as ((P1 & P2 & P3) & (P4 & P5 & P6) & _), PC as ((C1 & C2 & C3) & (C4 & C5 & C6) & _).
  destruct T1 as (q1 & Q1 & E1), T2 as (q2 & Q2 & E2), T3 as (q3 & Q3 & E3), T4 as (q4 & Q4 & E4), T5 as (q5 & Q5 & E5), T6 as (q6 & Q6 & E6).
  pose proof (HC _ Q1) as ((J1 & _) & _). pose proof (HC _ Q2) as (_ & (J2 & _) & _). pose proof (HC _ Q3) as (_ & _ & (J3 & _)).
  pose proof (HC _ Q4) as ((_ & J4) & _). pose proof (HC _ Q5) as (_ & (_ & J5) & _). pose proof (HC _ Q6) as (_ & _ & (_ & J6)).
  rewrite E1 in J1. rewrite E2 in J2. rewrite E3 in J3. rewrite E4 in J4. rewrite E5 in J5. rewrite E6 in J6.
  unfold inside. repeat split;
    [apply (le_trans _ (px (b_min b)))|apply (le_trans _ (px (b_max b)))|apply (le_trans _ (py (b_min b)))|apply (le_trans _ (py (b_max b)))
    |apply (le_trans _ (pz (b_min b)))|apply (le_trans _ (pz (b_max b)))]; auto.
Qed.
End Order.

(* ------------------------------------------------------------------ floats and integers *)

Lemma Z_total : total_on (fun a b => Some (a ?= b)) (fun _ : Z => True).
Proof.
  unfold total_on, le. split; [intros x _; now rewrite Z.compare_refl|]. split.
  - intros x y _ _. exists (x ?= y). split; auto. now rewrite (Z.compare_antisym x y).
  - intros x y z _ _ _. destruct (Z.compare_spec x y), (Z.compare_spec y z), (Z.compare_spec x z); try discriminate; try reflexivity; lia.
Qed.

Lemma Pcompare_refl_eq p : Pos.compare_cont Eq p p = Eq.
Proof. apply Pos.compare_refl. Qed.

Lemma SF_refl x : not_nan x -> SFcompare x x = Some Eq.
Proof.
  intros N. destruct x as [s|[]| |s m e]; cbn [SFcompare]; try reflexivity; [congruence|].
  destruct s; rewrite Z.compare_refl; change (Pos.compare_cont Eq m m) with (m ?= m)%positive; now rewrite Pos.compare_refl.
Qed.

Lemma SF_swap x y : not_nan x -> not_nan y -> exists c, SFcompare x y = Some c /\ SFcompare y x = Some (CompOpp c).
Proof.
  intros Nx Ny. destruct x as [s|[]| |[] m e], y as [s'|[]| |[] m' e']; cbn [SFcompare]; try congruence; try (eexists; split; reflexivity).
  - rewrite (Z.compare_antisym e e'). change (Pos.compare_cont Eq m m') with (m ?= m')%positive. change (Pos.compare_cont Eq m' m) with (m' ?= m)%positive.
    rewrite (Pos.compare_antisym m m'). destruct (e ?= e'); cbn [CompOpp]; eexists; split; reflexivity.
  - rewrite (Z.compare_antisym e e'). change (Pos.compare_cont Eq m m') with (m ?= m')%positive. change (Pos.compare_cont Eq m' m) with (m' ?= m)%positive.
    rewrite (Pos.compare_antisym m m'). destruct (e ?= e'); cbn [CompOpp]; eexists; split; reflexivity.
Qed.

(* <= of floats, without the comparison type *)
Definition sf_le (x y : spec_float) : Prop :=
  match x, y with
  | S754_nan, _ | _, S754_nan => False
  | S754_infinity true, _ | _, S754_infinity false => True
  | S754_infinity false, _ | _, S754_infinity true => False
  | S754_zero _, S754_zero _ => True
  | S754_zero _, S754_finite s _ _ => s = false
  | S754_finite s _ _, S754_zero _ => s = true
  | S754_finite true _ _, S754_finite false _ _ => True
  | S754_finite false _ _, S754_finite true _ _ => False
  | S754_finite false m e, S754_finite false m' e' => e < e' \/ (e = e' /\ Zpos m <= Zpos m')
  | S754_finite true m e, S754_finite true m' e' => e' < e \/ (e = e' /\ Zpos m' <= Zpos m)
  end.
Lemma sf_le_spec x y : le SFcompare x y = true <-> sf_le x y.
Proof.
  unfold le. destruct x as [[]|[]| |[] m e], y as [[]|[]| |[] m' e']; cbn [SFcompare sf_le]; try (split; intros; solve [congruence|tauto|discriminate]).
  - change (Pos.compare_cont Eq m m') with (m ?= m')%positive. destruct (Z.compare_spec e e'), (Pos.compare_spec m m'); cbn [CompOpp]; split; intros; try discriminate; try reflexivity; try (exfalso; lia); lia.
  - change (Pos.compare_cont Eq m m') with (m ?= m')%positive. destruct (Z.compare_spec e e'), (Pos.compare_spec m m'); cbn [CompOpp]; split; intros; try discriminate; try reflexivity; try (exfalso; lia); lia.
Qed.
Lemma SF_total : total_on f64_cmp not_nan.
Proof.
  unfold f64_cmp. split; [exact SF_refl|]. split; [exact SF_swap|].
  intros x y z _ _ _. rewrite !sf_le_spec. destruct x as [[]|[]| |[] m e], y as [[]|[]| |[] m' e'], z as [[]|[]| |[] m'' e'']; cbn [sf_le]; try tauto; try congruence; lia.
Qed.

Lemma finite_not_nan x : finite x -> not_nan x.
Proof. destruct x; simpl; intros; unfold not_nan; congruence. Qed.
Lemma finite_bounds x : finite x -> is_f64 x -> le f64_cmp F64_MIN x = true /\ le f64_cmp x F64_MAX = true.
Proof.
  unfold f64_cmp. rewrite !sf_le_spec. destruct x as [[]|[]| |[] m e]; cbn [finite is_f64 sf_le F64_MIN F64_MAX]; try tauto; try (split; congruence).
  - intros _ H. change (Z.pos (2 ^ 53 - 1)) with (2 ^ 53 - 1). split; auto. lia.
  - intros _ H. change (Z.pos (2 ^ 53 - 1)) with (2 ^ 53 - 1). split; auto. lia.
Qed.

(* values read from memory are f64 *)
Lemma float_of_bits_f64 u : is_f64 (float_of_bits 53 1024 64 u).
Proof.
  unfold float_of_bits, is_f64. change (53 - 1) with 52. change (64 - 53) with 11. change (emin 53 1024) with (-1074).
  pose proof (Z.mod_pos_bound (u / 2 ^ 52) (2 ^ 11) ltac:(lia)) as B1. pose proof (Z.mod_pos_bound u (2 ^ 52) ltac:(lia)) as B2.
  set (ex := (u / 2 ^ 52) mod 2 ^ 11) in *. set (m := u mod 2 ^ 52) in *.
  destruct (Z.eqb_spec ex 0).
  - destruct m as [|p|p] eqn:M; auto. left. split; auto. assert (2 ^ 52 < 2 ^ 53) by reflexivity. lia.
  - destruct (Z.eqb_spec ex (2 ^ 11 - 1)); [destruct (m =? 0); auto|].
    change (2 ^ 11) with 2048 in *. change (2 ^ 52) with 4503599627370496 in *. change (2 ^ 53) with 9007199254740992 in *.
    destruct (m + 4503599627370496) as [|p|p] eqn:M; auto; lia.
Qed.

(* comparing f64 floats is comparing the numbers they stand for *)
Lemma compare_scaled x y : finite x -> finite y -> is_f64 x -> is_f64 y -> SFcompare x y = Some (scaled x ?= scaled y).
Proof.
  assert (POS : forall (m : positive) e, -1074 <= e -> 0 < Zpos m * 2 ^ (e + 1074)) by (intros; apply Z.mul_pos_pos; [lia|apply Z.pow_pos_nonneg; lia]).
  assert (CMP : forall (m m' : positive) e e', is_f64 (S754_finite false m e) -> is_f64 (S754_finite false m' e') ->
     (match e ?= e' with Lt => Lt | Gt => Gt | Eq => (m ?= m')%positive end) = (Zpos m * 2 ^ (e + 1074) ?= Zpos m' * 2 ^ (e' + 1074))).
  { assert (LT : forall (m m' : positive) e e', is_f64 (S754_finite false m e) -> is_f64 (S754_finite false m' e') -> e < e' -> Zpos m * 2 ^ (e + 1074) < Zpos m' * 2 ^ (e' + 1074)).
    { intros m m' e e' V V' L. cbn [is_f64] in V, V'. assert (LB : 2 ^ 52 <= Zpos m') by lia. assert (UB : Zpos m < 2 ^ 53) by lia.
      assert (0 <= e + 1074) by lia. replace (e' + 1074) with (Z.succ (e + 1074) + (e' - e - 1)) by lia.
      rewrite (Z.pow_add_r 2 (Z.succ (e + 1074)) (e' - e - 1)), (Z.pow_succ_r 2 (e + 1074)) by lia.
      set (k := 2 ^ (e + 1074)). assert (0 < k) by (apply Z.pow_pos_nonneg; lia). assert (1 <= 2 ^ (e' - e - 1)) by (pose proof (Z.pow_pos_nonneg 2 (e' - e - 1)); lia).
      set (j := 2 ^ (e' - e - 1)) in *. change (2 ^ 53) with (2 ^ 52 * 2) in UB. set (w := 2 ^ 52) in *. clearbody k j w.
      assert (Zpos m * k < w * 2 * k) by nia. assert (w * (2 * k) <= Zpos m' * (2 * k)) by nia. assert (2 * k <= 2 * k * j) by nia. nia. }
    intros m m' e e' V V'. destruct (Z.compare_spec e e').
    - subst. assert (0 <= e' + 1074) by (cbn [is_f64] in V; lia). pose proof (Z.pow_pos_nonneg 2 (e' + 1074)) as K.
      change (m ?= m')%positive with (Zpos m ?= Zpos m'). set (k := 2 ^ (e' + 1074)) in *. clearbody k.
      destruct (Z.compare_spec (Zpos m) (Zpos m')); symmetry; [apply Z.compare_eq_iff|apply Z.compare_lt_iff|apply Z.compare_gt_iff]; nia.
    - symmetry. apply Z.compare_lt_iff. now apply LT.
    - symmetry. apply Z.compare_gt_iff. now apply LT. }
  assert (GE : forall s m e, is_f64 (S754_finite s m e) -> -1074 <= e) by (intros s m e H; cbn [is_f64] in H; lia).
  intros Fx Fy Vx Vy. destruct x as [s|s| |s m e], y as [s'|s'| |s' m' e']; try contradiction; cbn [SFcompare scaled].
  - reflexivity.
  - pose proof (POS m' e' (GE _ _ _ Vy)). destruct s'; f_equal; symmetry; [apply Z.compare_gt_iff|apply Z.compare_lt_iff]; lia.
  - pose proof (POS m e (GE _ _ _ Vx)). destruct s; f_equal; symmetry; [apply Z.compare_lt_iff|apply Z.compare_gt_iff]; lia.
  - pose proof (POS m e (GE _ _ _ Vx)). pose proof (POS m' e' (GE _ _ _ Vy)).
    change (Pos.compare_cont Eq m m') with (m ?= m')%positive.
    destruct s, s'; f_equal.
    + replace (-1 * (Z.pos m * 2 ^ (e + 1074))) with (- (Z.pos m * 2 ^ (e + 1074))) by lia.
      replace (-1 * (Z.pos m' * 2 ^ (e' + 1074))) with (- (Z.pos m' * 2 ^ (e' + 1074))) by lia.
      rewrite Z.compare_opp, <- (CMP m' m e' e Vy Vx), (Z.compare_antisym e e'), (Pos.compare_antisym m m').
      destruct (e ?= e'); reflexivity.
    + symmetry. apply Z.compare_lt_iff. lia.
    + symmetry. apply Z.compare_gt_iff. lia.
    + rewrite !Z.mul_1_l. rewrite <- (CMP m m' e e' Vx Vy). destruct (e ?= e'); reflexivity.
Qed.
