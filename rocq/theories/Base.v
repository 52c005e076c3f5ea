(* Shared vocabulary of the model: outcomes of calls and a few list operations. *)
From Coq Require Import String List ZArith Lia Bool Arith.
Import ListNotations.
Set Implicit Arguments.

(* Outcome of a call: a value, a returned error (Result::Err / anyhow error) or a panic. *)
Inductive res (A : Type) : Type :=
| Ok (a : A)
| Err
| Panic.
Arguments Ok {A} a.
Arguments Err {A}.
Arguments Panic {A}.

Definition bind {A B : Type} (r : res A) (f : A -> res B) : res B :=
  match r with
  | Ok a => f a
  | Err => Err
  | Panic => Panic
  end.

Notation "'let*' x ':=' e 'in' f" := (bind e (fun x => f))
  (at level 200, x name, e at level 100, f at level 200, right associativity).
Notation "'let*' ' p ':=' e 'in' f" := (bind e (fun x => match x with p => f end))
  (at level 200, p strict pattern, e at level 100, f at level 200, right associativity).

(* assert!(b) / if !b { panic!() } *)
Definition assert (b : bool) : res unit := if b then Ok tt else Panic.

(* Option::expect / unwrap *)
Definition unwrap {A : Type} (o : option A) : res A :=
  match o with Some a => Ok a | None => Panic end.

Definition is_ok {A : Type} (r : res A) : bool :=
  match r with Ok _ => true | _ => false end.

(* The subslice l[off .. off+n]; shorter if l ends earlier, so every use in the model is
   guarded by an explicit bounds check. *)
Definition sub {A : Type} (l : list A) (off n : nat) : list A := firstn n (skipn off l).

(* l with the elements from off on overwritten by bs (copy_from_slice on l[off..off+len bs]);
   uses are guarded by an explicit bounds check. *)
Definition blit {A : Type} (l : list A) (off : nat) (bs : list A) : list A :=
  firstn off l ++ bs ++ skipn (off + length bs) l.

(* All results Ok, in order (collect::<Result<..>>; a panic or error of an earlier element wins). *)
Fixpoint mapM {A B : Type} (f : A -> res B) (l : list A) : res (list B) :=
  match l with
  | [] => Ok []
  | a :: l' => let* b := f a in let* bs := mapM f l' in Ok (b :: bs)
  end.

(* for x in l { state = f(state, x)? } *)
Fixpoint foldM {A S : Type} (f : S -> A -> res S) (l : list A) (s : S) : res S :=
  match l with
  | [] => Ok s
  | a :: l' => let* s' := f s a in foldM f l' s'
  end.
