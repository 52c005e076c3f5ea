(* Model of the convex hull (pasture-algorithms/src/convexhull.rs). Definitions only.
   The arithmetic is a parameter, as in SegModel. HashSets and HashMaps are lists; the only set that is iterated is outer_edges, its
   order is an input. Edge::hash multiplies two indices; the overflow of this product (indices of 2^32) is not modelled. *)
From Coq Require Import String Ascii List ZArith Lia Bool Arith SpecFloat.
From Verif Require Import Base LayoutModel BufferModel TraitModel NumModel ConvModel MathModel SegModel.
Import ListNotations.
Open Scope nat_scope.
Set Implicit Arguments.

(* further operations of f64: <=, ==, f64::min, 0.0 *)
Record hops (T : Type) := mk_hops { h_ops : ops T; h_le : T -> T -> bool; h_eq : T -> T -> bool; h_min : T -> T -> T; h_zero : T }.
(* f64::min ignores a NaN *)
Definition f64_min (x y : spec_float) : spec_float :=
  match x, y with
  | S754_nan, _ => y
  | _, S754_nan => x
  | _, _ => if SFltb y x then y else x
  end.
Definition f64_hops : hops spec_float := mk_hops f64_ops SFleb SFeqb f64_min (S754_zero false).

(* struct Edge, convexhull.rs:16-26: equal in both directions *)
Record edge := mk_edge { e_a : nat; e_b : nat }.
Definition edge_eqb (e f : edge) : bool :=
  (Nat.eqb (e_a e) (e_a f) && Nat.eqb (e_b e) (e_b f)) || (Nat.eqb (e_a e) (e_b f) && Nat.eqb (e_b e) (e_a f)).
(* HashSet::insert keeps an element that is there *)
Definition set_has (s : list edge) (e : edge) : bool := existsb (edge_eqb e) s.
Definition set_add (s : list edge) (e : edge) : list edge := if set_has s e then s else s ++ [e].
Definition set_del (s : list edge) (e : edge) : list edge := filter (fun f => negb (edge_eqb e f)) s.
(* add_edge_to_outer_or_inner_edges, convexhull.rs:439-450 *)
Definition add_edge (sets : list edge * list edge) (e : edge) : list edge * list edge :=
  let '(outer, inner) := sets in
  if set_has outer e then (set_del outer e, set_add inner e) else (set_add outer e, inner).

(* HashMap with usize keys *)
Fixpoint map_get {V} (m : list (nat * V)) (k : nat) : option V :=
  match m with [] => None | (k', v) :: m => if Nat.eqb k k' then Some v else map_get m k end.
Definition map_del {V} (m : list (nat * V)) (k : nat) : list (nat * V) := filter (fun kv => negb (Nat.eqb k (fst kv))) m.
Definition map_put {V} (m : list (nat * V)) (k : nat) (v : V) : list (nat * V) := (k, v) :: map_del m k.

(* Vec::remove *)
Definition vec_remove {A} (l : list A) (i : nat) : res (list A) :=
  let* _ := assert (Nat.ltb i (length l)) in Ok (firstn i l ++ skipn (S i) l).
(* indexing *)
Definition vec_at {A} (l : list A) (i : nat) : res A := unwrap (nth_error l i).

Section Hull.
Variable T : Type.
Variable h : hops T.
Let o := h_ops h.

(* struct Triangle, convexhull.rs:8-14 *)
Record triangle := mk_tri { t_a : nat; t_b : nat; t_c : nat; t_n : p3 T }.

(* nalgebra: negation, magnitude_squared, normalize *)
Definition v_neg (u : p3 T) : p3 T := mk_p3 (o_neg o (px u)) (o_neg o (py u)) (o_neg o (pz u)).
Definition v_sq (u : p3 T) : T := v_dot o u u.
Definition v_normalize (u : p3 T) : p3 T := let n := v_norm o u in mk_p3 (o_div o (px u) n) (o_div o (py u) n) (o_div o (pz u) n).
(* x > y and x >= y *)
Definition gt_ (x y : T) : bool := o_lt o y x.
Definition ge_ (x y : T) : bool := h_le h y x.

(* calc_normal, convexhull.rs:456-460 *)
Definition calc_normal (a b c : p3 T) : p3 T := v_cross o (v_sub o b a) (v_sub o c a).
(* dist_point_to_edge, convexhull.rs:398-408 *)
Definition dist_point_to_edge (p a b n : p3 T) : T :=
  let pa := v_sub o a p in
  let ab := v_sub o b a in
  v_dot o (v_cross o n ab) pa.
(* dist_point_to_line_segment, convexhull.rs:414-432 *)
Definition dist_point_to_line_segment (p a b : p3 T) : T :=
  let ab := v_sub o b a in
  let ap := v_sub o p a in
  if h_le h (v_dot o ap ab) (h_zero h) then v_norm o ap
  else
    let bp := v_sub o p b in
    if ge_ (v_dot o bp ab) (h_zero h) then v_norm o bp
    else o_div o (v_norm o (v_cross o ab ap)) (v_norm o ab).

(* buffer.view_attribute(&POSITION_3D).at(i) *)
Variable pos : nat -> res (p3 T).

(* convexhull.rs:136-172: the hull is still a line or a point *)
Definition grow_line (id : nat) (p : p3 T) (first : triangle) : res (list triangle) :=
  let with_a a := mk_tri a (t_b first) (t_c first) (t_n first) in
  let with_b b := mk_tri (t_a first) b (t_c first) (t_n first) in
  if Nat.eqb id 1 then Ok [with_b id]
  else
    let* first_a := pos (t_a first) in
    let* first_b := pos (t_b first) in
    let ab := v_sub o first_b first_a in
    let ab_mag_sqr := v_sq ab in
    if h_eq h ab_mag_sqr (h_zero h) then Ok [with_b id]
    else
      let ac := v_sub o p first_a in
      let ab_norm := v_normalize ab in
      let projected := v_dot o ac ab_norm in
      if h_eq h (o_abs o projected) (v_norm o ac) then
        if ge_ projected (h_zero h) then
          if gt_ (v_sq ac) ab_mag_sqr then Ok [with_b id] else Ok [first]
        else Ok [with_a id]
      else
        let n := calc_normal first_a first_b p in
        Ok [mk_tri (t_a first) (t_b first) id n; mk_tri (t_a first) id (t_b first) (v_neg n)].

(* triangles.retain, convexhull.rs:178-191: the triangles that stay, the two sets of edges, the triangles in a plane with the point *)
Record visible := mk_visible { vi_kept : list triangle; vi_edges : list edge * list edge; vi_planar : list triangle }.
Definition retain_step (p : p3 T) (s : visible) (t : triangle) : res visible :=
  let* ta := pos (t_a t) in
  let d := v_dot o (v_sub o ta p) (t_n t) in
  if o_lt o d (h_zero h) then
    Ok (mk_visible (vi_kept s)
          (add_edge (add_edge (add_edge (vi_edges s) (mk_edge (t_a t) (t_b t))) (mk_edge (t_b t) (t_c t))) (mk_edge (t_c t) (t_a t)))
          (vi_planar s))
  else if h_eq h d (h_zero h) then Ok (mk_visible (vi_kept s ++ [t]) (vi_edges s) (vi_planar s ++ [t]))
  else Ok (mk_visible (vi_kept s ++ [t]) (vi_edges s) (vi_planar s)).
Definition retain (p : p3 T) (ts : list triangle) : res visible := foldM (retain_step p) ts (mk_visible [] ([], []) []).

(* convexhull.rs:194-203 *)
Definition add_faces (id : nat) (p : p3 T) (edges : list edge) (ts : list triangle) : res (list triangle) :=
  foldM (fun ts e =>
           let* a := pos (e_a e) in
           let* b := pos (e_b e) in
           Ok (ts ++ [mk_tri (e_a e) (e_b e) id (calc_normal a b p)])) edges ts.

(* convexhull.rs:214-217, 219-222, 224-227 *)
Definition add_facing (i : nat) (d : T) (e : edge) (s : list edge * list nat) : list edge * list nat :=
  if ge_ d (h_zero h) then (fst s ++ [e], snd s ++ [i]) else s.
(* convexhull.rs:206-232: the edges that face the point, each with the number of its triangle *)
Fixpoint facing (p : p3 T) (i : nat) (planar : list triangle) (edges : list edge) (ids : list nat) : res (list edge * list nat) :=
  match planar with
  | [] => Ok (edges, ids)
  | t :: planar =>
      let* a := pos (t_a t) in
      let* b := pos (t_b t) in
      let* c := pos (t_c t) in
      let d_ab := dist_point_to_edge p a b (t_n t) in
      let d_bc := dist_point_to_edge p b c (t_n t) in
      let d_ca := dist_point_to_edge p c a (t_n t) in
      let '(edges, ids) :=
        add_facing i d_ca (mk_edge (t_c t) (t_a t))
          (add_facing i d_bc (mk_edge (t_b t) (t_c t)) (add_facing i d_ab (mk_edge (t_a t) (t_b t)) (edges, ids))) in
      if o_lt o d_ab (h_zero h) && o_lt o d_bc (h_zero h) && o_lt o d_ca (h_zero h) then Ok ([], ids)
      else facing p (S i) planar edges ids
  end.

(* one round of the loop over the other edges, convexhull.rs:246-304: does the other edge occlude this one? *)
Definition occludes (p ea eb n oa ob on : p3 T) : bool :=
  if gt_ (v_dot o n on) (h_zero h) then
    let pa := v_sub o oa p in
    let pb := v_sub o ob p in
    let na := v_cross o on pa in
    let nb := v_cross o on pb in
    let ea_oea := v_dot o na (v_sub o ea oa) in
    let eb_oea := v_dot o na (v_sub o eb oa) in
    let ea_oeb := v_dot o nb (v_sub o ea ob) in
    let eb_oeb := v_dot o nb (v_sub o eb ob) in
    let neg x := o_lt o x (h_zero h) in
    let positive x := gt_ x (h_zero h) in
    let nearest_end := h_min h (v_sq pa) (v_sq pb) in
    (neg ea_oea && positive ea_oeb && gt_ (v_sq (v_sub o ea p)) nearest_end)
    || (neg eb_oea && positive eb_oeb && gt_ (v_sq (v_sub o eb p)) nearest_end)
    || (((neg ea_oea && positive eb_oeb) || (neg eb_oea && positive ea_oeb))
        && gt_ (dist_point_to_line_segment p ea eb) (dist_point_to_line_segment p oa ob))
  else false.
(* the inner loop, convexhull.rs:246-304, over the numbers of the other edges *)
Fixpoint occluded (p : p3 T) (planar : list triangle) (edges : list edge) (ids : list nat) (i : nat) (ea eb n : p3 T) (others : list nat) : res bool :=
  match others with
  | [] => Ok false
  | k :: others =>
      if Nat.eqb k i then occluded p planar edges ids i ea eb n others
      else
        let* id := vec_at ids k in
        let* ot := vec_at planar id in
        let* oe := vec_at edges k in
        let* oa := pos (e_a oe) in
        let* ob := pos (e_b oe) in
        if occludes p ea eb n oa ob (t_n ot) then Ok true else occluded p planar edges ids i ea eb n others
  end.
(* convexhull.rs:235-311, for the edges below number k, from the last to the first *)
Fixpoint remove_occluded (p : p3 T) (planar : list triangle) (k : nat) (edges : list edge) (ids : list nat) (normals : list (p3 T))
    : res (list edge * list (p3 T)) :=
  match k with
  | 0 => Ok (edges, normals)
  | S i =>
      let* e := vec_at edges i in
      let* ea := pos (e_a e) in
      let* eb := pos (e_b e) in
      let* id := vec_at ids i in
      let* t := vec_at planar id in
      let* gone := occluded p planar edges ids i ea eb (t_n t) (seq 0 (length edges)) in
      if gone then
        let* edges := vec_remove edges i in
        let* ids := vec_remove ids i in
        remove_occluded p planar i edges ids normals
      else remove_occluded p planar i edges ids (v_neg (t_n t) :: normals)
  end.

(* convexhull.rs:317-337: the vertices that are the start, or the end, of two different edges. Of the values in the maps only the
   other vertex is used. *)
Record ends := mk_ends { en_start : list (nat * nat); en_end : list (nat * nat); en_two : list nat }.
Definition note_edge (s : ends) (e : edge) : ends :=
  let s :=
    match map_get (en_start s) (e_a e) with
    | Some b => if Nat.eqb b (e_b e) then mk_ends (map_put (en_start s) (e_a e) (e_b e)) (en_end s) (en_two s)
                else mk_ends (map_del (en_start s) (e_a e)) (en_end s) (e_a e :: en_two s)
    | None => mk_ends (map_put (en_start s) (e_a e) (e_b e)) (en_end s) (en_two s)
    end in
  match map_get (en_end s) (e_b e) with
  | Some a => if Nat.eqb a (e_a e) then mk_ends (en_start s) (map_put (en_end s) (e_b e) (e_a e)) (en_two s)
              else mk_ends (en_start s) (map_del (en_end s) (e_b e)) (e_b e :: en_two s)
  | None => mk_ends (en_start s) (map_put (en_end s) (e_b e) (e_a e)) (en_two s)
  end.
(* convexhull.rs:338-371: the triangles with such a vertex go, the opposite edges come in, the adjacent edges are to be removed *)
Record opened := mk_opened { op_kept : list triangle; op_edges : list edge; op_normals : list (p3 T); op_remove : list edge }.
Definition open_step (two : list nat) (s : opened) (t : triangle) : opened :=
  let has v := existsb (Nat.eqb v) two in
  let ab := mk_edge (t_a t) (t_b t) in
  let bc := mk_edge (t_b t) (t_c t) in
  let ca := mk_edge (t_c t) (t_a t) in
  let swap (cond : bool) (new r1 r2 : edge) (s : opened) :=
    if cond then mk_opened (op_kept s) (op_edges s ++ [new]) (op_normals s ++ [t_n t]) (set_add (set_add (op_remove s) r1) r2) else s in
  if has (t_a t) || has (t_b t) || has (t_c t) then
    swap (has (t_a t)) bc ca ab (swap (has (t_b t)) ca ab bc (swap (has (t_c t)) ab bc ca s))
  else mk_opened (op_kept s ++ [t]) (op_edges s) (op_normals s) (op_remove s).
(* convexhull.rs:372-377 *)
Fixpoint remove_listed (listed : list edge) (k : nat) (edges : list edge) (normals : list (p3 T)) : res (list edge * list (p3 T)) :=
  match k with
  | 0 => Ok (edges, normals)
  | S i =>
      let* e := vec_at edges i in
      if set_has listed e then
        let* edges := vec_remove edges i in
        let* normals := vec_remove normals i in
        remove_listed listed i edges normals
      else remove_listed listed i edges normals
  end.
(* convexhull.rs:380-388 *)
Definition add_planar (id : nat) (edges : list edge) (normals : list (p3 T)) (ts : list triangle) : res (list triangle) :=
  foldM (fun ts i =>
           let* e := vec_at edges i in
           let* n := vec_at normals i in
           Ok (ts ++ [mk_tri (e_a e) (e_b e) id n])) (seq 0 (length edges)) ts.
(* convexhull.rs:204-389: no triangle is seen from the point *)
Definition grow_planar (id : nat) (p : p3 T) (planar ts : list triangle) : res (list triangle) :=
  let* '(edges, ids) := facing p 0 planar [] [] in
  let* '(edges, normals) := remove_occluded p planar (length edges) edges ids [] in
  if Nat.ltb 2 (length edges) then
    let two := en_two (fold_left note_edge edges (mk_ends [] [] [])) in
    let s := fold_left (open_step two) ts (mk_opened [] edges normals []) in
    let* '(edges, normals) := remove_listed (op_remove s) (length (op_edges s)) (op_edges s) (op_normals s) in
    add_planar id edges normals (op_kept s)
  else add_planar id edges normals ts.

(* iteration, convexhull.rs:123-391 *)
Definition iteration (order : list edge -> list edge) (ts : list triangle) (id : nat) (p : p3 T) : res (list triangle) :=
  if Nat.eqb id 0 then Ok (ts ++ [mk_tri 0 0 0 p])
  else
    match ts with
    | [first] => grow_line id p first
    | _ =>
        let* s := retain p ts in
        let '(outer, inner) := vi_edges s in
        match outer, inner with
        | [], [] => grow_planar id p (vi_planar s) (vi_kept s)
        | _, _ => add_faces id p (order outer) (vi_kept s)
        end
    end.
(* the loops of create_convex_hull, convexhull.rs:98-101, 103-109 *)
Fixpoint iterate (order : nat -> list edge -> list edge) (id : nat) (ps : list (p3 T)) (ts : list triangle) : res (list triangle) :=
  match ps with
  | [] => Ok ts
  | p :: ps => let* ts := iteration (order id) ts id p in iterate order (S id) ps ts
  end.
End Hull.

(* create_convex_hull, convexhull.rs:84-112. The values of the view are read before the iterations, which makes a difference only
   for a read that panics. *)
Definition create_convex_hull (order : nat -> list edge -> list edge) (b : buffer) : res (list (triangle spec_float)) :=
  let* m := unwrap (get_attribute_by_name (bf_layout b) (ad_name POSITION_3D)) in
  let* vs :=
    if datatype_eqb (m_type m) (ad_type POSITION_3D) then
      let* _ := attribute_view (bf_layout b) POSITION_3D Vec3f64 in
      view_values b (attribute_view_at b POSITION_3D Vec3f64)
    else
      let* _ := match converting_view (bf_layout b) POSITION_3D Vec3f64 with Ok v => Ok v | _ => Panic end in
      view_values b (converting_view_at b POSITION_3D Vec3f64) in
  iterate f64_hops (position_at b) order 0 (map vec3_f64 vs) [].
(* convex_hull_as_triangle_mesh, convexhull.rs:41-55 *)
Definition convex_hull_as_triangle_mesh (order : nat -> list edge -> list edge) (b : buffer) : res (list (nat * nat * nat)) :=
  let* ts := create_convex_hull order b in
  if Nat.ltb (length ts) 2 then Err else Ok (map (fun t => (t_a t, t_b t, t_c t)) ts).
(* convex_hull_as_points, convexhull.rs:63-82; collect: the order in which the HashSet is iterated *)
Definition convex_hull_as_points (order : nat -> list edge -> list edge) (collect : list nat -> list nat) (b : buffer) : res (list nat) :=
  let* ts := create_convex_hull order b in
  if Nat.ltb 1 (length ts) then Ok (collect (nodup Nat.eq_dec (flat_map (fun t => [t_a t; t_b t; t_c t]) ts)))
  else
    let* t := vec_at ts 0 in
    Ok (collect (nodup Nat.eq_dec (t_a t :: t_b t :: if Nat.eqb (t_c t) 0 then [] else [t_c t]))).
