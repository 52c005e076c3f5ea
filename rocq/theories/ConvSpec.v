(* What converters between layouts should do, in terms of attribute values. *)
From Coq Require Import String List ZArith Bool Arith.
From Verif Require Import Base LayoutModel LayoutSpec BufferModel BufferSpec TraitModel TraitSpec NumModel ConvModel.
Import ListNotations.
Open Scope nat_scope.

(* The number type of a scalar datatype, and of the components of a 3-vector datatype *)
Definition scalar_type (d : datatype) : option prim :=
  match d with
  | U8 => Some PU8 | U16 => Some PU16 | U32 => Some PU32 | U64 => Some PU64
  | I8 => Some PI8 | I16 => Some PI16 | I32 => Some PI32 | I64 => Some PI64
  | F32 => Some PF32 | F64 => Some PF64 | _ => None
  end.
Definition vector_type (d : datatype) : option prim :=
  match d with
  | Vec3u8 => Some PU8 | Vec3u16 => Some PU16 | Vec3i32 => Some PI32 | Vec3f32 => Some PF32 | Vec3f64 => Some PF64 | _ => None
  end.

(* both scalars, or both 3-vectors *)
Definition supported (from to : datatype) : Prop :=
  (scalar_type from <> None /\ scalar_type to <> None) \/ (vector_type from <> None /\ vector_type to <> None).

(* The value v of datatype from as a value of datatype to: unchanged, cast with `as` (its meaning is C25), or cast
   component by component. *)
Definition value_as (from to : datatype) (v : list Z) : option (list Z) :=
  if datatype_eqb from to then Some v
  else match scalar_type from, scalar_type to, vector_type from, vector_type to with
       | Some f, Some t, _, _ => Some (convert_scalar_using_as f t v)
       | _, _, Some f, Some t =>
           let component k := convert_scalar_using_as f t (sub v (k * prim_size f) (prim_size f)) in
           Some (component 0 ++ component 1 ++ component 2)
       | _, _, _, _ => None
       end.

(* ---- building a converter ---- *)

(* Calls of set_custom_mapping, and of set_custom_mapping_with_transformation with a function on the type with datatype t
   that is applied before (source = true) or after the conversion *)
Inductive call : Type :=
| Plain (from to : attr_def)
| Transformed (t : datatype) (from to : attr_def) (f : list Z -> list Z) (source : bool).
Definition call_to (c : call) : attr_def := match c with Plain _ t => t | Transformed _ _ t _ _ => t end.
Definition call_from (c : call) : attr_def := match c with Plain f _ => f | Transformed _ f _ _ _ => f end.

Definition apply_call (c : converter) (k : call) : res converter :=
  match k with
  | Plain f t => set_custom_mapping c f t
  | Transformed d f t g source => set_custom_mapping_with_transformation c d f t g source
  end.
(* for_layouts (strict = true) or for_layouts_with_default, then the calls *)
Definition build (strict : bool) (from to : layout) (calls : list call) : res converter :=
  let* c := (if strict then for_layouts from to else for_layouts_with_default from to) in
  foldM apply_call calls c.

(* A Rust function T -> T: bytes of a T to bytes of a T *)
Definition typed (k : call) : Prop :=
  match k with
  | Plain _ _ => True
  | Transformed d _ _ f _ => forall v, length v = dt_size d -> length (f v) = dt_size d
  end.

(* Where a target attribute gets its value from: the last call for it decides, otherwise the source attribute of the same name. *)
Definition mapped_from (from : layout) (calls : list call) (tm : member) : option (member * option call) :=
  match find (fun k => attr_def_eqb (call_to k) (m_def tm)) (rev calls) with
  | Some k => option_map (fun sm => (sm, Some k)) (member_of from (call_from k))
  | None => option_map (fun sm => (sm, None)) (find (fun sm => String.eqb (m_name sm) (m_name tm)) (l_attrs from))
  end.

(* Value of target attribute tm for the source point p and the previous target value old *)
Definition converted (from : layout) (calls : list call) (tm : member) (p : list Z) (old : list Z) : option (list Z) :=
  match mapped_from from calls tm with
  | None => Some old
  | Some (sm, Some (Transformed _ _ _ f true)) => value_as (m_type sm) (m_type tm) (f (attr_value sm p))
  | Some (sm, Some (Transformed _ _ _ f false)) => option_map f (value_as (m_type sm) (m_type tm) (attr_value sm p))
  | Some (sm, _) => value_as (m_type sm) (m_type tm) (attr_value sm p)
  end.

(* The calls that are accepted *)
Definition convertible (from to : datatype) : Prop := from = to \/ supported from to.
Definition call_ok (from to : layout) (k : call) : Prop :=
  exists sm tm, In sm (l_attrs from) /\ m_def sm = call_from k /\ In tm (l_attrs to) /\ m_def tm = call_to k
    /\ convertible (m_type sm) (m_type tm)
    /\ match k with
       | Transformed d _ _ _ true => d = m_type sm
       | Transformed d _ _ _ false => d = m_type tm
       | Plain _ _ => True
       end.
Definition layouts_ok (strict : bool) (from to : layout) : Prop :=
  forall tm, In tm (l_attrs to) ->
    (exists sm, In sm (l_attrs from) /\ m_name sm = m_name tm /\ convertible (m_type sm) (m_type tm))
    \/ (strict = false /\ forall sm, In sm (l_attrs from) -> m_name sm <> m_name tm).

(* tb' is tb after converting the points [s, e) of sb into the points [ts, te) of tb, for a converter from layout `from` to layout `to`
   with the given calls. The points of the buffer that a slice tb belongs to are the points of mb_root. *)
Definition converts (from to : layout) (calls : list call) (sb : buffer) (s : nat) (tb : mbuf) (ts te : nat) (tb' : mbuf) : Prop :=
  mb_wf tb' /\ mb_layout tb' = to /\ mb_len tb' = mb_len tb
  /\ mb_off tb' = mb_off tb /\ mb_len (mb_root tb') = mb_len (mb_root tb)
  (* the target range gets its values from the source range *)
  /\ (forall i p r, ts + i < te -> nth_error (bf_points sb) (s + i) = Some p -> nth_error (mb_points tb) (ts + i) = Some r ->
        exists r', nth_error (mb_points tb') (ts + i) = Some r'
          /\ (forall tm, In tm (l_attrs to) -> converted from calls tm p (attr_value tm r) = Some (attr_value tm r'))
          /\ (forall q, (forall tm, In tm (l_attrs to) -> q < m_offset tm \/ m_offset tm + m_size tm <= q) ->
                nth_error r' q = nth_error r q))
  (* everything else is left alone *)
  /\ (forall k, k < ts \/ te <= k -> nth_error (mb_points tb') k = nth_error (mb_points tb) k)
  /\ (forall q, q < mb_off tb \/ mb_off tb + mb_len tb <= q ->
        nth_error (mb_points (mb_root tb')) q = nth_error (mb_points (mb_root tb)) q).
