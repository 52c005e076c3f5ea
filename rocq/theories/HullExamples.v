(* Small point clouds, used to show that the hypotheses of the theorems about the convex hull can be met, and what the code does for
   some degenerate inputs. *)
From Coq Require Import String Ascii List ZArith Lia Bool Arith SpecFloat Permutation Reals Lra.
From Verif Require Import Base LayoutModel LayoutSpec LayoutProofs BufferModel BufferSpec ListLemmas BufferProofs BufferSteps BufferSteps2 BufferSteps3
  TraitModel TraitSpec TraitProofs2 NumModel MathModel SegModel SegSpec SegExamples HullModel HullSpec NumProofs.
Import ListNotations.
Open Scope nat_scope.

(* a buffer of positions with integer coordinates *)
Definition cloud (zs : list (Z * Z * Z)) : buffer :=
  Of (VecB (mk_vbuf (concat (map (fun z => let '(x, y, z) := z in vec_bytes x y z) zs)) g_layout (length zs))).
Definition at_z (zs : list (Z * Z * Z)) (i : nat) : Z * Z * Z := nth i zs (0, 0, 0)%Z.
(* the point v is the only farthest one in the direction d: it is a vertex of the convex hull *)
Definition farthest (zs : list (Z * Z * Z)) (d : Z * Z * Z) (v : nat) : Prop :=
  let dot i := (let '(dx, dy, dz) := d in let '(x, y, z) := at_z zs i in dx * x + dy * y + dz * z)%Z in
  v < length zs /\ forall w, w < length zs -> w <> v -> (dot w < dot v)%Z.

Lemma length_vec_bytes x y z : length (vec_bytes x y z) = 24.
Proof. unfold vec_bytes. rewrite !app_length. unfold enc_num. cbn [kind]. rewrite !NumProofs.le_enc_length. reflexivity. Qed.
Lemma cloud_positions zs : has_positions (cloud zs) g_pos.
Proof.
  split; [|split; [vm_compute; auto|vm_compute; reflexivity]]. split; [exact g_layout_good|].
  cbn [vb_len vb_layout vb_storage]. induction zs as [|((x, y), z) zs IH]; [reflexivity|].
  cbn [map concat length]. rewrite app_length, IH, length_vec_bytes. reflexivity.
Qed.

(* exact coordinates *)
Definition real_point (z : Z * Z * Z) : p3 R := let '(x, y, z) := z in mk_p3 (IZR x) (IZR y) (IZR z).
Definition z_volume (a b c q : Z * Z * Z) : Z :=
  (let '(ax, ay, az) := a in let '(bx, by_, bz) := b in let '(cx, cy, cz) := c in let '(qx, qy, qz) := q in
   (qx - ax) * ((by_ - ay) * (cz - az) - (bz - az) * (cy - ay)) + (qy - ay) * ((bz - az) * (cx - ax) - (bx - ax) * (cz - az))
   + (qz - az) * ((bx - ax) * (cy - ay) - (by_ - ay) * (cx - ax)))%Z.
Lemma real_volume a b c q : volume (real_point a) (real_point b) (real_point c) (real_point q) = IZR (z_volume a b c q).
Proof.
  destruct a as ((ax, ay), az), b as ((bx, by_), bz), c as ((cx, cy), cz), q as ((qx, qy), qz). unfold volume, real_point, z_volume. cbn [px py pz].
  repeat first [rewrite plus_IZR | rewrite minus_IZR | rewrite mult_IZR]. reflexivity.
Qed.
Lemma real_at zs i : point (map real_point zs) i = real_point (at_z zs i).
Proof. unfold point, at_z. change (mk_p3 0 0 0)%R with (real_point (0, 0, 0)%Z). apply map_nth. Qed.
Definition z_general (zs : list (Z * Z * Z)) : bool :=
  let ix := seq 0 (length zs) in
  Nat.leb 4 (length zs)
  && forallb (fun i => forallb (fun j => forallb (fun k => forallb (fun l =>
       Nat.eqb i j || Nat.eqb j k || Nat.eqb k i || Nat.eqb l i || Nat.eqb l j || Nat.eqb l k
       || negb (Z.eqb (z_volume (at_z zs i) (at_z zs j) (at_z zs k) (at_z zs l)) 0)) ix) ix) ix) ix.
Lemma z_general_ok zs : z_general zs = true -> general_position (map real_point zs).
Proof.
  unfold z_general. rewrite andb_true_iff, Nat.leb_le. intros (L & H). unfold general_position. rewrite map_length. split; auto.
  intros i j k l Hi Hj Hk Hl (D1 & D2 & D3) N1 N2 N3. rewrite !real_at, real_volume. apply not_0_IZR.
  rewrite forallb_forall in H. specialize (H i (proj2 (in_seq _ _ _) (conj (Nat.le_0_l _) Hi))). rewrite forallb_forall in H. specialize (H j (proj2 (in_seq _ _ _) (conj (Nat.le_0_l _) Hj))).
  rewrite forallb_forall in H. specialize (H k (proj2 (in_seq _ _ _) (conj (Nat.le_0_l _) Hk))). rewrite forallb_forall in H. specialize (H l (proj2 (in_seq _ _ _) (conj (Nat.le_0_l _) Hl))).
  apply Nat.eqb_neq in D1, D2, D3, N1, N2, N3. rewrite D1, D2, D3, N1, N2, N3 in H. cbn [orb] in H. apply negb_true_iff, Z.eqb_neq in H. exact H.
Qed.

(* a tetrahedron, a point in it and two points outside *)
Definition solid : list (Z * Z * Z) := [(0, 0, 0); (4, 0, 0); (0, 4, 0); (0, 0, 4); (1, 1, 1); (5, 6, 7); (-3, 1, 2)]%Z.
Lemma solid_general : general_position (map real_point solid).
Proof. apply z_general_ok. vm_compute. reflexivity. Qed.
(* the positions of a file with f32 coordinates *)
Definition POSITION_32 : attr_def := mk_def (ad_name POSITION_3D) Vec3f32.
Definition layout_32 : layout := match from_attributes [POSITION_32] with Ok l => l | _ => layout_default end.
Definition buf_32 : buffer := Of (VecB (mk_vbuf (repeat 0%Z 36) layout_32 3)).
Definition pos_32 : member := nth 0 (l_attrs layout_32) (mk_member INTENSITY 0 0).
Lemma layout_32_good : good_layout layout_32.
Proof.
  apply (grown_good [(POSITION_32, Default)]).
  - vm_compute. reflexivity.
  - discriminate.
  - intros a fa [H|[]]; injection H as <- <-; vm_compute; lia.
Qed.
Lemma buf_32_wf : bf_wf buf_32.
Proof. split; [exact layout_32_good|vm_compute; reflexivity]. Qed.

Definition line : list (Z * Z * Z) := [(0, 3, 0); (-1, 2, 0); (-2, 1, 0); (-3, 0, 0)]%Z.
Lemma line_panics order collect : convex_hull_as_points order collect (cloud line) = Panic.
Proof. vm_compute. reflexivity. Qed.
Definition twice : list (Z * Z * Z) := [(-1, -1, 0); (1, 1, 0); (1, 1, 0); (1, 0, 0)]%Z.
Lemma twice_panics order collect : convex_hull_as_points order collect (cloud twice) = Panic.
Proof. vm_compute. reflexivity. Qed.
Definition flat : list (Z * Z * Z) := [(-1, 0, 0); (1, 1, 0); (-1, -1, 0); (0, 1, 0); (0, 0, 0)]%Z.
Lemma flat_mesh order : convex_hull_as_triangle_mesh order (cloud flat) = Ok [(2, 0, 4); (0, 2, 4); (3, 0, 4); (0, 3, 4)].
Proof. vm_compute. reflexivity. Qed.
Lemma flat_corner : farthest flat (1, 0, 0)%Z 1.
Proof. split; [vm_compute; lia|]. intros w L N. cbn in L. destruct w as [|[|[|[|[|]]]]]; try lia; vm_compute; reflexivity. Qed.
Lemma flat_missing order : exists ts, convex_hull_as_triangle_mesh order (cloud flat) = Ok ts /\ ~ corner ts 1.
Proof. eexists. split; [apply flat_mesh|]. intros (i & j & k & I & E). cbn in I. repeat (destruct I as [I|I]; [injection I; lia|]). contradiction. Qed.
Lemma solid_mesh : convex_hull_as_triangle_mesh (fun _ s => s) (cloud solid)
  = Ok [(0, 2, 1); (0, 1, 3); (1, 2, 5); (3, 1, 5); (2, 0, 6); (0, 3, 6); (3, 5, 6); (5, 2, 6)].
Proof. vm_compute. reflexivity. Qed.

(* five points in a plane, no three on a line: the fourth is the centre of the second, the third and the fifth *)
Definition pentagon : list (Z * Z * Z) := [(1, 1, 0); (-1, 3, 0); (1, 0, 0); (0, 1, 0); (0, 0, 0)]%Z.
Lemma pentagon_mesh order : convex_hull_as_triangle_mesh order (cloud pentagon) = Ok [(0, 1, 2); (0, 2, 1); (1, 2, 3); (2, 1, 3); (2, 3, 4); (3, 2, 4)].
Proof. vm_compute. reflexivity. Qed.
Lemma flat_cross (a b c : p3 R) : ((px b - px a) * (py c - py a) - (py b - py a) * (px c - px a) <> 0)%R -> not_collinear a b c.
Proof. intros H l (_ & (t & A1 & A2 & _) & (u & B1 & B2 & _) & (v & C1 & C2 & _)). apply H. rewrite A1, A2, B1, B2, C1, C2. ring. Qed.
Lemma flat_points zs : Forall (fun z => let '(_, _, z) := z in z = 0%Z) zs ->
  (forall i j k, i < length zs -> j < length zs -> k < length zs -> distinct3 i j k -> let '(a, b, _) := at_z zs i in let '(c, d, _) := at_z zs j in let '(e, f, _) := at_z zs k in ((c - a) * (f - b) - (d - b) * (e - a) <> 0)%Z) ->
  in_a_plane (map real_point zs).
Proof.
  intros F H. assert (P : forall i, i < length zs -> point (map real_point zs) i = real_point (at_z zs i)).
  { intros i I. unfold point, at_z. rewrite (nth_indep _ _ (real_point (0, 0, 0)%Z)) by (rewrite map_length; exact I). apply map_nth. }
  assert (Z : forall i, i < length zs -> pz (point (map real_point zs) i) = 0%R).
  { intros i I. rewrite (P i I). unfold at_z. pose proof (proj1 (Forall_forall _ _) F _ (nth_In zs (0, 0, 0)%Z I)) as E. destruct (nth i zs (0, 0, 0)%Z) as ((x, y), z). cbn in *. now rewrite E. }
  split; rewrite map_length.
  - intros i j k l I J K L. unfold volume. rewrite !Z by assumption. ring.
  - intros i j k I J K D. rewrite !P by assumption. specialize (H i j k I J K D). destruct (at_z zs i) as ((a, b), a'), (at_z zs j) as ((c, d), c'), (at_z zs k) as ((e, f), e'). apply flat_cross. cbn [real_point px py]. rewrite <- !minus_IZR, <- !mult_IZR, <- minus_IZR. now apply not_0_IZR.
Qed.
Lemma pentagon_plane : in_a_plane (map real_point pentagon).
Proof.
  apply flat_points; [repeat constructor|]. intros i j k I J K (D1 & D2 & D3). cbn in I, J, K.
  destruct i as [|[|[|[|[|]]]]]; try lia; destruct j as [|[|[|[|[|]]]]]; try lia; destruct k as [|[|[|[|[|]]]]]; try lia; vm_compute; discriminate.
Qed.
Lemma pentagon_inner : ~ hull_corner (map real_point pentagon) 3.
Proof.
  intros (_ & H). apply (H 1 2 4); try (cbn; lia). exists (/ 3)%R, (/ 3)%R, (/ 3)%R. cbn [point map nth pentagon]. unfold real_point. cbn [px py pz]. repeat split; lra.
Qed.
(* four points in a plane, no three on a line *)
Definition dart : list (Z * Z * Z) := [(0, 0, 0); (4, 0, 0); (0, 4, 0); (1, 1, 0)]%Z.
Lemma dart_plane : in_a_plane (map real_point dart).
Proof.
  apply flat_points; [repeat constructor|]. intros i j k I J K (D1 & D2 & D3). cbn in I, J, K.
  destruct i as [|[|[|[|]]]]; try lia; destruct j as [|[|[|[|]]]]; try lia; destruct k as [|[|[|[|]]]]; try lia; vm_compute; discriminate.
Qed.
(* five vertices of a convex pentagon, and the corners the code finds in f64 arithmetic *)
Definition five : list (Z * Z * Z) := [(3, 0, 0); (0, -3, 0); (2, 5, 0); (3, -2, 0); (-4, -4, 0)]%Z.
Definition has_corner (v : nat) (t : nat * nat * nat) : bool := let '(i, j, k) := t in Nat.eqb v i || Nat.eqb v j || Nat.eqb v k.
Lemma has_corner_ok ts v : existsb (has_corner v) ts = true -> corner ts v.
Proof.
  intros H. apply existsb_exists in H. destruct H as (((i, j), k) & I & E). exists i, j, k. split; [exact I|]. unfold has_corner in E.
  rewrite !orb_true_iff, !Nat.eqb_eq in E. tauto.
Qed.
Lemma five_mesh order : exists ts, convex_hull_as_triangle_mesh order (cloud five) = Ok ts /\ forall v, v < 5 -> corner ts v.
Proof.
  eexists. split; [vm_compute; reflexivity|]. intros v L. apply has_corner_ok. do 5 (destruct v as [|v]; [reflexivity|]). lia.
Qed.
