(* Independent specification of struct layouts, disjointness and rounding. Uses only the record types
   of the model (attribute lists), none of its functions. *)
From Coq Require Import String List ZArith Lia Bool Arith.
From Verif Require Import Base LayoutModel.
Import ListNotations.

(* n is the smallest number satisfying P *)
Definition least (P : nat -> Prop) (n : nat) : Prop := P n /\ forall m, P m -> n <= m.

Definition power_of_two (n : nat) : Prop := exists k, n = 2 ^ k.

(* A member occupies the byte b of a point. *)
Definition occupies (m : member) (b : nat) : Prop := m_offset m <= b < m_offset m + m_size m.

(* No byte belongs to two different members of the list. *)
Definition disjoint_members (ms : list member) : Prop :=
  forall i j mi mj b, i <> j -> nth_error ms i = Some mi -> nth_error ms j = Some mj ->
                      occupies mi b -> occupies mj b -> False.

(* Each member ends before every later one starts. *)
Definition increasing_members (ms : list member) : Prop :=
  forall i j mi mj, i < j -> nth_error ms i = Some mi -> nth_error ms j = Some mj ->
                    m_offset mi + m_size mi <= m_offset mj.

(* The Rust reference on #[repr(C)]: fields are (size, alignment) pairs; each field is put at the
   least multiple of its alignment that is not before the end of the previous field (`cur`). *)
Inductive placed : nat -> list (nat * nat) -> list nat -> nat -> Prop :=
| placed_nil : forall cur, placed cur [] [] cur
| placed_cons : forall cur size align fields o os e,
    least (fun x => Nat.divide align x /\ cur <= x) o ->
    placed (o + size) fields os e ->
    placed cur ((size, align) :: fields) (o :: os) e.

(* The alignment of the struct is the largest alignment of its fields, at least min_align. *)
Definition struct_alignment (min_align : nat) (aligns : list nat) (a : nat) : Prop :=
  min_align <= a /\ (forall b, In b aligns -> b <= a) /\ (a = min_align \/ In a aligns).

(* #[repr(C, align(min_align))] struct; min_align = 1 is plain #[repr(C)]. *)
Definition c_struct_aligned (min_align : nat) (fields : list (nat * nat))
           (offsets : list nat) (size align : nat) : Prop :=
  exists e, placed 0 fields offsets e
            /\ struct_alignment min_align (map snd fields) align
            /\ least (fun s => Nat.divide align s /\ e <= s) size.

Definition c_struct := c_struct_aligned 1.

(* #[repr(C, packed(n))]: as repr(C) with every field alignment capped at n. *)
Definition packed_struct (n : nat) (fields : list (nat * nat)) :=
  c_struct (map (fun f => (fst f, Nat.min n (snd f))) fields).

(* Size and alignment of the Rust type of a field: `n` components of `w` bytes, aligned to w. *)
Definition rust_components (p : prim_type) : nat * nat :=
  match p with
  | PtU8 | PtI8 => (1, 1)
  | PtU16 | PtI16 => (1, 2)
  | PtU32 | PtI32 | PtF32 => (1, 4)
  | PtU64 | PtI64 | PtF64 => (1, 8)
  | PtVec3u8 => (3, 1)
  | PtVec3u16 => (3, 2)
  | PtVec3i32 | PtVec3f32 => (3, 4)
  | PtVec3f64 => (3, 8)
  | PtVec4u8 => (4, 1)
  end.
Definition rust_field (p : prim_type) : nat * nat :=
  (fst (rust_components p) * snd (rust_components p), snd (rust_components p)).

(* Size and alignment of the fields under the packing the macro detected. *)
Definition sml_cap (sml : struct_member_layout) (a : nat) : nat :=
  match sml with SmlC => a | SmlPacked n => Nat.min n a end.

Definition rust_fields (sml : struct_member_layout) (fields : list field_desc) : list (nat * nat) :=
  map (fun f => (fst (rust_field (fd_type f)), sml_cap sml (snd (rust_field (fd_type f))))) fields.

(* The layouts a program can obtain from the public API of PointLayout. *)
Inductive api_layout : layout -> Prop :=
| api_default : api_layout layout_default
| api_from_attributes : forall attrs l, from_attributes attrs = Ok l -> api_layout l
| api_from_packed : forall attrs n l, from_attributes_packed attrs n = Ok l -> api_layout l
| api_from_members : forall ms al l,
    (forall m, In m ms -> m_size m = dt_size (m_type m)) ->
    from_members_and_alignment ms al = Ok l -> api_layout l
| api_add : forall l a fa l', api_layout l -> add_attribute l a fa = Ok l' -> api_layout l'.

(* The memory layout Rust gives to a struct with #[repr(C, args..)] and these fields. *)
Inductive rust_struct (args : list repr_arg) (fields : list field_desc) (offsets : list nat)
          (size align : nat) : Prop :=
| rs_c :
    In ReprC args -> (forall n, ~ In (ReprPacked n) args) -> (forall n, ~ In (ReprAlign n) args) ->
    c_struct (map (fun f => rust_field (fd_type f)) fields) offsets size align ->
    rust_struct args fields offsets size align
| rs_packed : forall n,
    In ReprC args -> In (ReprPacked n) args -> (forall n', In (ReprPacked n') args -> n' = n) ->
    packed_struct n (map (fun f => rust_field (fd_type f)) fields) offsets size align ->
    rust_struct args fields offsets size align
| rs_align : forall n,
    In ReprC args -> (forall n, ~ In (ReprPacked n) args) -> In (ReprAlign n) args ->
    (forall n', In (ReprAlign n') args -> n' = n) ->
    c_struct_aligned n (map (fun f => rust_field (fd_type f)) fields) offsets size align ->
    rust_struct args fields offsets size align.
