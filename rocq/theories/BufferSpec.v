(* What a point buffer should be: a list of point records, each a list of l_size bytes. Operations and reads
   are described position by position, without reference to how buffers store their memory. *)
From Coq Require Import String List ZArith Lia Bool Arith.
From Verif Require Import Base LayoutModel LayoutSpec BufferModel.
Import ListNotations.

(* The bytes of one point. *)
Notation rec := (list Z) (only parsing).

(* A layout with at least one attribute whose attributes have distinct names, are non-empty, disjoint and inside
   of the point. Every layout grown with add_attribute / from_attributes / derived from a struct is one as soon as
   it has an attribute and no zero-sized byte array (proved: grown_good). *)
Definition good_layout (l : layout) : Prop :=
  l_attrs l <> []
  /\ NoDup (map m_name (l_attrs l))
  /\ disjoint_members (l_attrs l)
  /\ (forall m, In m (l_attrs l) ->
        0 < m_size m /\ m_size m = dt_size (m_type m) /\ m_offset m + m_size m <= l_size l).

(* l with f applied to every element and its index *)
Definition mapi {A B : Type} (f : nat -> A -> B) (l : list A) : list B :=
  map (fun p => f (fst p) (snd p)) (combine (seq 0 (length l)) l).

(* element i replaced by x *)
Definition set_nth {A : Type} (i : nat) (x : A) (l : list A) : list A :=
  mapi (fun k y => if Nat.eqb k i then x else y) l.

(* elements s, s+1, .. replaced by xs *)
Definition set_range {A : Type} (s : nat) (xs : list A) (l : list A) : list A :=
  mapi (fun k y => if Nat.leb s k && Nat.ltb k (s + length xs) then nth (k - s) xs y else y) l.

(* elements i and j exchanged *)
Definition exchange {A : Type} (i j : nat) (l : list A) : list A :=
  mapi (fun k y => if Nat.eqb k i then nth j l y else if Nat.eqb k j then nth i l y else y) l.

(* bytes cut into n consecutive pieces of size bytes *)
Definition pieces (size n : nat) (bytes : list Z) : list (list Z) :=
  map (fun i => sub bytes (i * size) size) (seq 0 n).

(* value of an attribute in a point, and a point with the value replaced *)
Definition attr_value (m : member) (r : rec) : list Z := sub r (m_offset m) (m_size m).
Definition with_attr (m : member) (v : list Z) (r : rec) : rec := set_range (m_offset m) v r.

(* the member for an attribute definition (name and datatype) *)
Definition member_of (l : layout) (a : attr_def) : option member :=
  find (fun m => attr_def_eqb (m_def m) a) (l_attrs l).

(* r where it belongs to an attribute, data elsewhere: reading a point r from a buffer that does not
   store padding, into the memory data *)
Definition overlay (l : layout) (r data : list Z) : list Z :=
  mapi (fun k x => if existsb (fun m => Nat.leb (m_offset m) k && Nat.ltb k (m_offset m + m_size m)) (l_attrs l)
                   then nth k r x else x) data.

(* Representation invariant of the buffers: the storage holds exactly len points. *)
Definition vb_inv (b : vbuf) : Prop :=
  good_layout (vb_layout b) /\ length (vb_storage b) = vb_len b * l_size (vb_layout b).
Definition hb_inv (b : hbuf) : Prop :=
  good_layout (hb_layout b)
  /\ map fst (hb_map b) = map m_def (l_attrs (hb_layout b))
  /\ (forall a c, In (a, c) (hb_map b) -> length c = hb_len b * dt_size (ad_type a)).
Definition any_inv (o : anybuf) : Prop := match o with BV v => vb_inv v | BH h => hb_inv h end.

(* The points of a buffer given as an argument: what get_point reads into zeroed memory. *)
Definition points_of (o : anybuf) : list rec :=
  map (fun i => match any_get_point o i (repeat 0%Z (l_size (any_layout o))) with
                | Ok r => r | _ => [] end)
      (seq 0 (any_len o)).

(* The operations of a history. *)
Inductive op : Type :=
| OPush (bytes : list Z)
| OResize (n : nat)
| OClear
| OSetPoint (i : nat) (data : list Z)
| OSetPointRange (s e : nat) (data : list Z)
| OSetAttribute (a : attr_def) (i : nat) (data : list Z)
| OSetAttributeRange (a : attr_def) (s e : nat) (data : list Z)
| OSwap (i j : nat)
| OAppend (other : anybuf)
| OAppendInterleaved (other : vbuf)
| OAppendColumnar (other : hbuf).

(* Their effect on a list of points; None is a panic. *)
Definition spec_append (l : layout) (pts : list rec) (o : anybuf) : option (list rec) :=
  if layout_eqb l (any_layout o) then Some (pts ++ points_of o) else None.

Definition spec_step (l : layout) (pts : list rec) (o : op) : option (list rec) :=
  match o with
  | OPush bytes =>
      if Nat.eqb (length bytes mod l_size l) 0
      then Some (pts ++ pieces (l_size l) (length bytes / l_size l) bytes) else None
  | OResize n => Some (firstn n pts ++ repeat (repeat 0%Z (l_size l)) (n - length pts))
  | OClear => Some []
  | OSetPoint i data => if Nat.ltb i (length pts) then Some (set_nth i data pts) else None
  | OSetPointRange s e data =>
      if Nat.leb e (length pts) then Some (set_range s (pieces (l_size l) (e - s) data) pts) else None
  | OSetAttribute a i data =>
      match member_of l a with
      | Some m => if Nat.ltb i (length pts)
                  then Some (mapi (fun k r => if Nat.eqb k i then with_attr m data r else r) pts) else None
      | None => None
      end
  | OSetAttributeRange a s e data =>
      match member_of l a with
      | Some m => if Nat.leb e (length pts)
                  then Some (mapi (fun k r => if Nat.leb s k && Nat.ltb k e
                                              then with_attr m (sub data ((k - s) * m_size m) (m_size m)) r
                                              else r) pts)
                  else None
      | None => None
      end
  | OSwap i j => if Nat.ltb i (length pts) && Nat.ltb j (length pts) then Some (exchange i j pts) else None
  | OAppend o => spec_append l pts o
  | OAppendInterleaved o => spec_append l pts (BV o)
  | OAppendColumnar o => spec_append l pts (BH o)
  end.

Fixpoint spec_run (l : layout) (pts : list rec) (ops : list op) : option (list rec) :=
  match ops with
  | [] => Some pts
  | o :: ops' => match spec_step l pts o with Some pts' => spec_run l pts' ops' | None => None end
  end.

(* Safety contract of the operations: data passed for a point, attribute or range has the size of that point,
   attribute or range; ranges are not reversed, and an empty range lies inside the buffer; appended buffers
   satisfy the invariant. *)
Definition range_ok (n s e : nat) : Prop := s < e \/ (s = e /\ e <= n).
Definition op_ok (l : layout) (n : nat) (o : op) : Prop :=
  match o with
  | OPush _ | OResize _ | OClear | OSwap _ _ => True
  | OSetPoint _ data => length data = l_size l
  | OSetPointRange s e data => range_ok n s e /\ length data = (e - s) * l_size l
  | OSetAttribute a _ data => length data = dt_size (ad_type a)
  | OSetAttributeRange a s e data => range_ok n s e /\ length data = (e - s) * dt_size (ad_type a)
  | OAppend o => any_inv o
  | OAppendInterleaved o => vb_inv o
  | OAppendColumnar o => hb_inv o
  end.
Fixpoint history_ok (l : layout) (pts : list rec) (ops : list op) : Prop :=
  match ops with
  | [] => True
  | o :: ops' => op_ok l (length pts) o
                 /\ match spec_step l pts o with Some pts' => history_ok l pts' ops' | None => True end
  end.

(* The operations on the two buffers. *)
Definition vb_step (b : vbuf) (o : op) : res vbuf :=
  match o with
  | OPush bytes => vb_push_points b bytes
  | OResize n => Ok (vb_resize b n)
  | OClear => Ok (vb_clear b)
  | OSetPoint i data => vb_set_point b i data
  | OSetPointRange s e data => vb_set_point_range b s e data
  | OSetAttribute a i data => vb_set_attribute b a i data
  | OSetAttributeRange a s e data => vb_set_attribute_range b a s e data
  | OSwap i j => vb_swap b i j
  | OAppend o => vb_append b o
  | OAppendInterleaved o => vb_append_interleaved b o
  | OAppendColumnar o => vb_append_columnar b o
  end.
Definition hb_step (b : hbuf) (o : op) : res hbuf :=
  match o with
  | OPush bytes => hb_push_points b bytes
  | OResize n => Ok (hb_resize b n)
  | OClear => Ok (hb_clear b)
  | OSetPoint i data => hb_set_point b i data
  | OSetPointRange s e data => hb_set_point_range b s e data
  | OSetAttribute a i data => hb_set_attribute b a i data
  | OSetAttributeRange a s e data => hb_set_attribute_range b a s e data
  | OSwap i j => hb_swap b i j
  | OAppend o => hb_append b o
  | OAppendInterleaved o => hb_append_interleaved b o
  | OAppendColumnar o => hb_append_columnar b o
  end.

(* What can be observed of a buffer that holds the points pts: its length, the outcome of every read, including
   the panic of every read out of range or of an attribute the layout does not have. `into` says what reading one
   point into given memory produces: the point itself, or for a columnar buffer the overlay. *)
Definition reads_as (l : layout) (pts : list rec) (into : rec -> list Z -> list Z) (len : nat)
           (get_point : nat -> list Z -> res (list Z))
           (get_point_range : nat -> nat -> list Z -> res (list Z))
           (get_attribute : attr_def -> nat -> list Z -> res (list Z))
           (get_attribute_range : attr_def -> nat -> nat -> list Z -> res (list Z)) : Prop :=
  len = length pts
  /\ (forall i data, length data = l_size l ->
        get_point i data = match nth_error pts i with Some r => Ok (into r data) | None => Panic end)
  /\ (forall s e data, range_ok (length pts) s e -> length data = (e - s) * l_size l ->
        get_point_range s e data =
        if Nat.leb e (length pts)
        then Ok (concat (map (fun k => into (nth (s + k) pts []) (sub data (k * l_size l) (l_size l)))
                             (seq 0 (e - s))))
        else Panic)
  /\ (forall a i data, length data = dt_size (ad_type a) ->
        get_attribute a i data =
        match member_of l a, nth_error pts i with Some m, Some r => Ok (attr_value m r) | _, _ => Panic end)
  /\ (forall a s e data, range_ok (length pts) s e -> length data = (e - s) * dt_size (ad_type a) ->
        get_attribute_range a s e data =
        match member_of l a with
        | Some m => if Nat.leb e (length pts)
                    then Ok (concat (map (fun k => attr_value m (nth (s + k) pts [])) (seq 0 (e - s)))) else Panic
        | None => Panic
        end).

Definition vb_reads_as (b : vbuf) (pts : list rec) : Prop :=
  reads_as (vb_layout b) pts (fun r _ => r) (vb_len b)
           (vb_get_point b) (vb_get_point_range b) (vb_get_attribute b) (vb_get_attribute_range b).
Definition hb_reads_as (b : hbuf) (pts : list rec) : Prop :=
  reads_as (hb_layout b) pts (overlay (hb_layout b)) (hb_len b)
           (hb_get_point b) (hb_get_point_range b) (hb_get_attribute b) (hb_get_attribute_range b).
