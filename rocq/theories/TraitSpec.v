(* What buffers, slices, views, iterators and sorting should do, in terms of the list of points of a buffer. *)
From Coq Require Import String List ZArith Bool Arith Permutation Sorted.
From Verif Require Import Base LayoutModel LayoutSpec BufferModel BufferSpec TraitModel.
Import ListNotations.

(* Well-formed buffers: memory matches the length, and every slice lies inside of the buffer it slices. *)
Fixpoint mb_wf (b : mbuf) : Prop :=
  match b with
  | VecB v => vb_inv v
  | MapB h => hb_inv h
  | ExtB e => good_layout (eb_layout e) /\ length (eb_mem e) = eb_len e * l_size (eb_layout e)
  | SliceMutB b s e => mb_wf b /\ s <= e /\ e <= mb_len b
  end.
Fixpoint bf_wf (b : buffer) : Prop :=
  match b with
  | Of m => mb_wf m
  | SliceB b s e => bf_wf b /\ s <= e /\ e <= bf_len b
  end.

(* the buffer below all slices, and where a slice starts in it *)
Fixpoint mb_root (b : mbuf) : mbuf := match b with SliceMutB b _ _ => mb_root b | _ => b end.
Fixpoint mb_off (b : mbuf) : nat := match b with SliceMutB b s _ => mb_off b + s | _ => 0 end.

(* stored in columns, i.e. without padding bytes *)
Definition mb_columnar (b : mbuf) : bool := match mb_root b with MapB _ => true | _ => false end.
Fixpoint bf_columnar (b : buffer) : bool := match b with Of m => mb_columnar m | SliceB b _ _ => bf_columnar b end.

(* no mutable slice involved *)
Definition mb_base (b : mbuf) : Prop := match b with SliceMutB _ _ _ => False | _ => True end.
Fixpoint bf_frozen (b : buffer) : Prop := match b with Of m => mb_base m | SliceB b _ _ => bf_frozen b end.

(* The points of a buffer: what get_point reads into zeroed memory. *)
Definition bf_points (b : buffer) : list (list Z) :=
  map (fun i => match bf_get_point b i (repeat 0%Z (l_size (bf_layout b))) with Ok r => r | _ => [] end)
      (seq 0 (bf_len b)).
Definition mb_points (b : mbuf) : list (list Z) := bf_points (Of b).

(* reading a point into memory *)
Definition into (b : buffer) (r data : list Z) : list Z := if bf_columnar b then overlay (bf_layout b) r data else r.

(* All reads of a buffer, including the panics out of range, are those of the list pts. *)
Definition bf_reads_as (b : buffer) (pts : list (list Z)) : Prop :=
  reads_as (bf_layout b) pts (into b) (bf_len b)
           (bf_get_point b) (bf_get_point_range b) (bf_get_attribute b) (bf_get_attribute_range b).

(* All reads in range are those of the list pts. *)
Definition bf_reads_within (b : buffer) (pts : list (list Z)) : Prop :=
  let l := bf_layout b in
  bf_len b = length pts
  /\ (forall i r data, length data = l_size l -> nth_error pts i = Some r ->
        bf_get_point b i data = Ok (into b r data))
  /\ (forall i j data, i <= j -> j <= length pts -> length data = (j - i) * l_size l ->
        bf_get_point_range b i j data =
        Ok (concat (map (fun k => into b (nth (i + k) pts []) (sub data (k * l_size l) (l_size l))) (seq 0 (j - i)))))
  /\ (forall m i r data, In m (l_attrs l) -> nth_error pts i = Some r -> length data = m_size m ->
        bf_get_attribute b (m_def m) i data = Ok (attr_value m r)
        /\ bf_get_attribute_unchecked b m i data = Ok (attr_value m r))
  /\ (forall m i j data, In m (l_attrs l) -> i <= j -> j <= length pts -> length data = (j - i) * m_size m ->
        bf_get_attribute_range b (m_def m) i j data =
        Ok (concat (map (fun k => attr_value m (nth (i + k) pts [])) (seq 0 (j - i))))).

(* The writes through a mutable buffer. *)
Definition mb_step (b : mbuf) (o : op) : res mbuf :=
  match o with
  | OSetPoint i data => mb_set_point b i data
  | OSetPointRange s e data => mb_set_point_range b s e data
  | OSetAttribute a i data => mb_set_attribute b a i data
  | OSetAttributeRange a s e data => mb_set_attribute_range b a s e data
  | OSwap i j => mb_swap b i j
  | _ => Err
  end.
(* a write addressed relative to position k *)
Definition shift_op (k : nat) (o : op) : op :=
  match o with
  | OSetPoint i data => OSetPoint (k + i) data
  | OSetPointRange s e data => OSetPointRange (k + s) (k + e) data
  | OSetAttribute a i data => OSetAttribute a (k + i) data
  | OSetAttributeRange a s e data => OSetAttributeRange a (k + s) (k + e) data
  | OSwap i j => OSwap (k + i) (k + j)
  | o => o
  end.
(* a write inside of a buffer with n points, to an attribute that exists, with data of the right size *)
Definition write_ok (l : layout) (n : nat) (o : op) : Prop :=
  match o with
  | OSetPoint i data => i < n /\ length data = l_size l
  | OSetPointRange s e data => s <= e /\ e <= n /\ length data = (e - s) * l_size l
  | OSetAttribute a i data => (exists m, In m (l_attrs l) /\ m_def m = a) /\ i < n /\ length data = dt_size (ad_type a)
  | OSetAttributeRange a s e data =>
      (exists m, In m (l_attrs l) /\ m_def m = a) /\ s <= e /\ e <= n /\ length data = (e - s) * dt_size (ad_type a)
  | OSwap i j => i < n /\ j < n
  | _ => False
  end.

(* bytes of a point that remain after it was stored *)
Definition stored (b : mbuf) (r : list Z) : list Z :=
  if mb_columnar b then overlay (mb_layout b) r (repeat 0%Z (l_size (mb_layout b))) else r.

(* ---- sorting ---- *)
Definition le_of {T} (cmp : T -> T -> comparison) (x y : T) : Prop := cmp x y <> Gt.
Definition total_preorder {T} (cmp : T -> T -> comparison) : Prop :=
  (forall x y, le_of cmp x y \/ le_of cmp y x)
  /\ (forall x y z, le_of cmp x y -> le_of cmp y z -> le_of cmp x z)
  /\ (forall x y, cmp y x = CompOpp (cmp x y)).
(* equal elements keep their relative order: for every x, the elements equal to x appear in both lists in the same order *)
Definition stable_rearrangement {T} (cmp : T -> T -> comparison) (l l' : list T) : Prop :=
  forall x, filter (fun y => match cmp x y with Eq => true | _ => false end) l'
          = filter (fun y => match cmp x y with Eq => true | _ => false end) l.
