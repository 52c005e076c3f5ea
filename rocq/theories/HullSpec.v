(* Vocabulary for the properties of the convex hull. *)
From Coq Require Import String Ascii List ZArith Lia Bool Arith SpecFloat Permutation Reals.
From Verif Require Import Base MathModel SegModel SegSpec HullModel.
Import ListNotations.
Open Scope nat_scope.
Set Implicit Arguments.

(* sets can be iterated in any order *)
Definition any_edge_order (order : nat -> list edge -> list edge) : Prop := forall i s, Permutation (order i s) s.
Definition any_collect (collect : list nat -> list nat) : Prop := forall s, Permutation (collect s) s.
(* the index is a corner of one of the triangles *)
Definition corner (ts : list (nat * nat * nat)) (v : nat) : Prop := exists i j k, In (i, j, k) ts /\ (v = i \/ v = j \/ v = k).

(* exact real arithmetic *)
Definition r_hops : hops R :=
  mk_hops r_ops (fun x y => if Rle_dec x y then true else false) (fun x y => if Req_EM_T x y then true else false) Rmin 0%R.
(* six times the signed volume of the tetrahedron a b c q: positive if q is on the side to which (b - a) x (c - a) points *)
Definition volume (a b c q : p3 R) : R :=
  ((px q - px a) * ((py b - py a) * (pz c - pz a) - (pz b - pz a) * (py c - py a))
   + (py q - py a) * ((pz b - pz a) * (px c - px a) - (px b - px a) * (pz c - pz a))
   + (pz q - pz a) * ((px b - px a) * (py c - py a) - (py b - py a) * (px c - px a)))%R.
Definition point (ps : list (p3 R)) (i : nat) : p3 R := nth i ps (mk_p3 0 0 0)%R.
Definition distinct3 (i j k : nat) : Prop := i <> j /\ j <> k /\ k <> i.
(* at least four points, no four of which are in a plane *)
Definition general_position (ps : list (p3 R)) : Prop :=
  4 <= length ps
  /\ forall i j k l, i < length ps -> j < length ps -> k < length ps -> l < length ps -> distinct3 i j k -> l <> i -> l <> j -> l <> k ->
     volume (point ps i) (point ps j) (point ps k) (point ps l) <> 0%R.
(* A facet of the convex hull, seen from outside: all other points are behind the plane of the three. *)
Definition facet (ps : list (p3 R)) (i j k : nat) : Prop :=
  i < length ps /\ j < length ps /\ k < length ps /\ distinct3 i j k
  /\ forall l, l < length ps -> l <> i -> l <> j -> l <> k -> (volume (point ps i) (point ps j) (point ps k) (point ps l) < 0)%R.
(* the same triangle, starting from another corner *)
Definition rotated (t u : nat * nat * nat) : Prop :=
  let '(i, j, k) := t in u = (i, j, k) \/ u = (j, k, i) \/ u = (k, i, j).
(* the edges of triangles, with their directions *)
Definition directed (ts : list (nat * nat * nat)) : list (nat * nat) := flat_map (fun t => let '(i, j, k) := t in [(i, j); (j, k); (k, i)]) ts.
(* a closed surface: every edge belongs to two triangles, in opposite directions *)
Definition closed_surface (ts : list (nat * nat * nat)) : Prop := NoDup (directed ts) /\ forall i j, In (i, j) (directed ts) -> In (j, i) (directed ts).
Definition indices {T} (ts : list (triangle T)) : list (nat * nat * nat) := map (fun t => (t_a t, t_b t, t_c t)) ts.
(* the segment between two points, and the triangle with three corners *)
Definition segment (a b q : p3 R) : Prop :=
  exists t, (0 <= t <= 1 /\ px q = px a + t * (px b - px a) /\ py q = py a + t * (py b - py a) /\ pz q = pz a + t * (pz b - pz a))%R.
Definition in_triangle (a b c q : p3 R) : Prop :=
  exists r s t, (0 <= r /\ 0 <= s /\ 0 <= t /\ r + s + t = 1
    /\ px q = r * px a + s * px b + t * px c /\ py q = r * py a + s * py b + t * py c /\ pz q = r * pz a + s * pz b + t * pz c)%R.
(* points in a plane, no three of them on a line *)
Definition in_a_plane (ps : list (p3 R)) : Prop :=
  (forall i j k l, i < length ps -> j < length ps -> k < length ps -> l < length ps -> volume (point ps i) (point ps j) (point ps k) (point ps l) = 0%R)
  /\ forall i j k, i < length ps -> j < length ps -> k < length ps -> distinct3 i j k -> not_collinear (point ps i) (point ps j) (point ps k).
(* A vertex of the convex hull of points in a plane is in no triangle of the other points. *)
Definition hull_corner (ps : list (p3 R)) (v : nat) : Prop :=
  v < length ps /\ forall i j k, i < length ps -> j < length ps -> k < length ps -> i <> v -> j <> v -> k <> v -> ~ in_triangle (point ps i) (point ps j) (point ps k) (point ps v).
