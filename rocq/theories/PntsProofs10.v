(* The PNTS reader as a cursor, and the centre. *)
From Coq Require Import String List ZArith Lia Bool Arith SpecFloat.
From Verif Require Import Base LayoutModel LayoutSpec LayoutProofs BufferModel BufferSpec ListLemmas BufferProofs BufferSteps BufferSteps2
  TraitModel TraitSpec TraitProofs2 TraitProofs3 NumModel NumSpec NumProofs ConvModel ConvSpec ConvProofs5 MathModel LasIoModel LasIoProofs PntsModel PntsSpec PntsProofs2 PntsProofs9.
Import ListNotations.
Open Scope nat_scope.

Definition float_prim (p : prim) : Prop := p = PF32 \/ p = PF64.
Lemma shift_coordinate_spec p c v : float_prim p -> exists x, as_cast PF64 (dec_num p v) = NFlt x
  /\ shift_coordinate p c v = enc_num p (as_cast p (NFlt (SFadd 53 1024 x c))) /\ length (shift_coordinate p c v) = prim_size p.
Proof.
  intros FP. assert (X : exists x, as_cast PF64 (dec_num p v) = NFlt x) by (destruct FP as [-> | ->]; eexists; reflexivity).
  destruct X as [x X]. exists x. unfold shift_coordinate. rewrite X. split; [reflexivity|]. split; [reflexivity|].
  destruct FP as [-> | ->]; apply le_enc_length.
Qed.
Lemma shift_moved t p c v : position_prim t = Some p -> length v = dt_size t -> moved_by c t v (shift_position p c v) /\ length (shift_position p c v) = dt_size t.
Proof.
  intros P L. assert (FP : float_prim p) by (unfold float_prim; destruct t; cbn in P; try discriminate P; injection P as <-; auto).
  assert (DS : dt_size t = 3 * prim_size p) by (destruct t; cbn in P; try discriminate P; injection P as <-; reflexivity).
  unfold shift_position. set (v0 := sub v (0 * prim_size p) (prim_size p)). set (v1 := sub v (1 * prim_size p) (prim_size p)). set (v2 := sub v (2 * prim_size p) (prim_size p)).
  destruct (shift_coordinate_spec p (px c) v0 FP) as (x0 & X0 & E0 & L0). destruct (shift_coordinate_spec p (py c) v1 FP) as (x1 & X1 & E1 & L1). destruct (shift_coordinate_spec p (pz c) v2 FP) as (x2 & X2 & E2 & L2).
  set (s0 := shift_coordinate p (px c) v0) in *. set (s1 := shift_coordinate p (py c) v1) in *. set (s2 := shift_coordinate p (pz c) v2) in *. set (k := prim_size p) in *.
  assert (LL : length (s0 ++ s1 ++ s2) = 3 * k) by (rewrite !app_length; lia). split; [|lia]. exists p. split; [exact P|]. split; [exact LL|]. fold k.
  assert (S0 : sub (s0 ++ s1 ++ s2) (0 * k) k = s0) by (unfold sub; cbn [Nat.mul skipn]; rewrite <- L0, firstn_app, Nat.sub_diag, firstn_O, app_nil_r; apply firstn_all).
  assert (S1 : sub (s0 ++ s1 ++ s2) (1 * k) k = s1).
  { unfold sub. rewrite skipn_app, skipn_all2 by lia. replace (1 * k - length s0) with 0 by lia. cbn [skipn app]. rewrite <- L1, firstn_app, Nat.sub_diag, firstn_O, app_nil_r. apply firstn_all. }
  assert (S2 : sub (s0 ++ s1 ++ s2) (2 * k) k = s2).
  { unfold sub. rewrite skipn_app, skipn_all2 by lia. cbn [app]. rewrite skipn_app, skipn_all2 by lia. replace (2 * k - length s0 - length s1) with 0 by lia. cbn [skipn app]. rewrite <- L2. apply firstn_all. }
  intros j x ck Hc HX. destruct j as [|[|[|j]]]; cbn [nth_error] in Hc.
  - injection Hc as <-. rewrite S0, E0. fold v0 in HX. rewrite X0 in HX. now injection HX as ->.
  - injection Hc as <-. rewrite S1, E1. fold v1 in HX. rewrite X1 in HX. now injection HX as ->.
  - injection Hc as <-. rewrite S2, E2. fold v2 in HX. rewrite X2 in HX. now injection HX as ->.
  - destruct j; discriminate Hc.
Qed.

(* every position of the buffer is moved *)
Lemma centre_moves r b c : mb_wf b -> pr_rtc r = Some c ->
  (forall tm, In tm (l_attrs (mb_layout b)) -> m_name tm = "Position3D"%string -> position_prim (m_type tm) <> None) ->
  exists b', apply_rtc_center_offset r b = Ok b' /\ mb_wf b' /\ same_outside b b' /\ length (mb_points b') = length (mb_points b)
    /\ (forall k p q, nth_error (mb_points b) k = Some p -> nth_error (mb_points b') k = Some q -> point_moved (mb_layout b) c p q)
    /\ ((forall tm, In tm (l_attrs (mb_layout b)) -> m_name tm <> "Position3D"%string) -> b' = b).
Proof.
  intros W RC PP. pose proof (wf_good b W) as G. unfold apply_rtc_center_offset. rewrite RC. change (ad_name POSITION_3D) with "Position3D"%string.
  destruct (get_attribute_by_name (mb_layout b) "Position3D"%string) as [m|] eqn:GN.
  - apply get_by_name_spec in GN; [|exact (proj1 (proj2 G))]. destruct GN as (Hm & NM). specialize (PP m Hm NM). destruct (good_member _ _ G Hm) as (M0 & M1 & M2). change (ad_type (m_def m)) with (m_type m) in M1.
    assert (X : exists p, position_prim (m_type m) = Some p /\ (match m_type m with
      | Vec3f32 => transform_attribute b (m_def m) Vec3f32 (fun _ => shift_position PF32 c)
      | Vec3f64 => transform_attribute b (m_def m) Vec3f64 (fun _ => shift_position PF64 c)
      | _ => Err end) = transform_attribute b (m_def m) (m_type m) (fun _ => shift_position p c)).
    { destruct (m_type m); cbn [position_prim] in *; try (destruct (PP eq_refl)); eexists; split; reflexivity. }
    destruct X as (p & P & ->). destruct (transform_points b m (fun _ => shift_position p c) W Hm) as (b' & E & W' & EL & EN & EP & ER & OUT).
    { intros i v LV. rewrite M1. apply (shift_moved (m_type m) p c v P). congruence. }
    exists b'. split; [exact E|]. split; [exact W'|]. split; [repeat split; auto|]. split; [rewrite EP; apply length_mapi|]. split.
    + intros k q q' Hq Hq'. rewrite EP, nth_error_mapi, Hq in Hq'. cbn [option_map] in Hq'. injection Hq' as <-. intros tm Ht.
      destruct (bf_points_uniform (Of b) W) as [U _]. pose proof (uniform_nth _ _ _ _ U Hq) as LQ.
      assert (LA : length (attr_value m q) = dt_size (m_type m)) by (rewrite (length_attr_value (mb_layout b) m q G Hm LQ); exact M1). destruct (shift_moved (m_type m) p c _ P LA) as (MV & LS).
      destruct (String.eqb_spec (m_name tm) "Position3D") as [NT|NT].
      * assert (tm = m) as -> by (apply (good_name_inj (mb_layout b)); auto; congruence). rewrite (attr_value_with_same (mb_layout b)); auto. congruence.
      * apply (attr_value_with_other (mb_layout b)); auto; [|congruence]. intros <-. contradiction.
    + intros NO. destruct (NO m Hm NM).
  - exists b. split; [reflexivity|]. split; [exact W|]. split; [apply same_outside_refl|]. split; [reflexivity|]. split; [|auto]. intros k p q H1 H2. rewrite H1 in H2. injection H2 as <-. intros tm Ht.
    destruct (String.eqb_spec (m_name tm) "Position3D") as [NT|NT]; [|reflexivity].
    assert (Y : get_attribute_by_name (mb_layout b) "Position3D"%string = Some tm) by (apply get_by_name_spec; [exact (proj1 (proj2 G))|auto]). congruence.
Qed.

Definition after_read (r : pnts_reader) (n : nat) : pnts_reader := mk_pr (pr_bytes r) (pr_num r) (pr_rtc r) (pr_layout r) (pr_index r + n) (pr_offsets r) (pr_mode r).

(* all that one read does *)
Lemma read_into_ok r b count : reader_ok r -> let n := Nat.min (pr_num r - pr_index r) count in 0 < n -> fits r (pr_mode r) n b ->
  exists b', read_into r b count = Ok (n, b', after_read r n) /\ mb_wf b' /\ same_outside b b' /\ length (mb_points b') = length (mb_points b)
    /\ forall k old q, nth_error (mb_points b) k = Some old -> nth_error (mb_points b') k = Some q ->
       exists p, (k < n -> point_read r (mb_layout b) (pr_index r + k) old p) /\ (n <= k -> p = old)
         /\ match centre_added r (pr_mode r) with
            | Some c => point_moved (mb_layout b) c p q /\ ((forall tm, In tm (l_attrs (mb_layout b)) -> m_name tm <> "Position3D"%string) -> q = p)
            | None => q = p end.
Proof.
  intros RO n N0 (W & LB & RD & PP). unfold read_into. fold n. destruct (Nat.eqb_spec n 0) as [|_]; [lia|].
  assert (NB : pr_index r + n <= pr_num r) by (destruct RO as (_ & _ & B); unfold n; lia).
  destruct (read_attributes_ok r RO n NB b W LB RD) as (b1 & E1 & W1 & S1 & O1 & L1 & V1). rewrite E1. cbn [bind]. fold (after_read r n).
  assert (PLAIN : centre_added r (pr_mode r) = None -> match pr_mode r with Absolute => apply_rtc_center_offset r b1 | RelativeToCenter => Ok b1 end = Ok b1).
  { unfold centre_added, apply_rtc_center_offset. destruct (pr_mode r); [reflexivity|]. intros ->. reflexivity. }
  destruct (centre_added r (pr_mode r)) as [c|] eqn:CA.
  - assert (MC : pr_mode r = Absolute /\ pr_rtc r = Some c) by (unfold centre_added in CA; destruct (pr_mode r); [discriminate CA|auto]). destruct MC as (MA & RC). rewrite MA.
    destruct S1 as (SL & SN & SR & SO). destruct (centre_moves r b1 c W1 RC) as (b2 & E2 & W2 & (SL2 & SN2 & SR2 & SO2) & L2 & V2 & NP).
    { rewrite SL. apply PP. discriminate. }
    rewrite E2. cbn [bind]. exists b2. split; [reflexivity|]. split; [exact W2|]. split.
    { split; [congruence|]. split; [congruence|]. split; [congruence|]. intros q Hq. rewrite SO2, SO; auto. rewrite O1, SN. exact Hq. }
    split; [congruence|]. intros k old q H1 H2. destruct (nth_error_get (mb_points b1) k) as [p Hp]; [apply nth_error_lt in H2; lia|]. exists p.
    destruct (V1 k old p H1 Hp) as (A & B). split; [exact A|]. split; [exact B|]. rewrite <- SL. split; [exact (V2 k p q Hp H2)|]. intros NO. rewrite (NP NO) in H2. congruence.
  - rewrite (PLAIN eq_refl). cbn [bind]. exists b1. split; [reflexivity|]. split; [exact W1|]. split; [exact S1|]. split; [exact L1|].
    intros k old q H1 H2. exists q. destruct (V1 k old q H1 H2) as (A & B). auto.
Qed.
Lemma read_into_end r b count : Nat.min (pr_num r - pr_index r) count = 0 -> read_into r b count = Err.
Proof. intros E. unfold read_into. rewrite E. reflexivity. Qed.

Definition at_point (r : pnts_reader) (i : nat) (m : read_mode) : pnts_reader := mk_pr (pr_bytes r) (pr_num r) (pr_rtc r) (pr_layout r) i (pr_offsets r) m.

Lemma seek_ok r i m s : seek_fits (pr_num r) i s -> (Z.of_nat (pr_num r) < 2 ^ 63)%Z -> i <= pr_num r ->
  seek_point (at_point r i m) s = match target (pr_num r) i s with Some j => Ok (j, at_point r j m) | None => Err end.
Proof.
  intros F B I. unfold seek_point, target. cbn [at_point pr_num pr_index pr_bytes pr_rtc pr_layout pr_offsets pr_mode]. unfold add_to_index, i64_add.
  assert (MM : forall z, (0 <= z)%Z -> Z.to_nat (Z.min z (Z.of_nat (pr_num r))) = Nat.min (pr_num r) (Z.to_nat z)) by (intros z Z0; lia).
  destruct s as [k|k|k]; cbn [seek_fits] in F.
  - cbn [bind]. destruct (Z.ltb_spec k 0); [lia|]. rewrite MM by lia. reflexivity.
  - destruct (Z.ltb_spec (Z.of_nat (pr_num r)) (2 ^ 63)); [|lia]. destruct (Z.leb_spec (- 2 ^ 63) (Z.of_nat (pr_num r) + k)); [|lia]. destruct (Z.ltb_spec (Z.of_nat (pr_num r) + k) (2 ^ 63)); [|lia]. cbn [andb bind].
    destruct (Z.ltb_spec (Z.of_nat (pr_num r) + k) 0); [reflexivity|]. rewrite MM by lia. reflexivity.
  - destruct (Z.ltb_spec (Z.of_nat i) (2 ^ 63)); [|lia]. destruct (Z.leb_spec (- 2 ^ 63) (Z.of_nat i + k)); [|lia]. destruct (Z.ltb_spec (Z.of_nat i + k) (2 ^ 63)); [|lia]. cbn [andb bind].
    destruct (Z.ltb_spec (Z.of_nat i + k) 0); [reflexivity|]. rewrite MM by lia. reflexivity.
Qed.
Lemma target_le num i s j : target num i s = Some j -> j <= num.
Proof. unfold target. destruct (_ <? 0)%Z; [discriminate|]. intros [= <-]. lia. Qed.

Lemma reader_ok_at r i m : reader_ok r -> i <= pr_num r -> reader_ok (at_point r i m).
Proof. intros (G & C & _) I. split; [exact G|]. split; [exact C|exact I]. Qed.

Lemma reads_like_cursor r calls : reader_ok r -> (Z.of_nat (pr_num r) < 2 ^ 63)%Z -> forall i m, i <= pr_num r -> calls_fit r i m calls ->
  exists es last m', run_calls (at_point r i m) calls = Ok (at_point r last m', es) /\ last <= pr_num r /\ cursor_history r i m calls es last m'.
Proof.
  intros RO B. induction calls as [|k calls IH]; intros i m I F.
  - exists [], i, m. cbn [run_calls cursor_history]. auto.
  - cbn [run_calls]. destruct k as [s|b count|x]; cbn [calls_fit] in F.
    + destruct F as (FS & F). cbn [reader_step]. rewrite (seek_ok r i m s FS B I). destruct (target (pr_num r) i s) as [j|] eqn:T; cbn [bind].
      * destruct (IH j m (target_le _ _ _ _ T) F) as (es & last & m' & E & LL & H). rewrite E. cbn [bind]. exists (RAt j :: es), last, m'. split; [reflexivity|]. split; [exact LL|]. cbn [cursor_history]. auto.
      * destruct (IH i m I F) as (es & last & m' & E & LL & H). rewrite E. cbn [bind]. exists (RFailed :: es), last, m'. split; [reflexivity|]. split; [exact LL|]. cbn [cursor_history]. auto.
    + cbv zeta in F. set (n := Nat.min (pr_num r - i) count) in *. destruct F as (FR & F). assert (NI : i + n <= pr_num r) by (unfold n; lia). destruct (IH (i + n) m NI F) as (es & last & m' & E & LL & H). cbn [reader_step].
      destruct (Nat.eq_dec n 0) as [Z|NZ].
      * rewrite read_into_end by exact Z. cbn [bind]. rewrite Z, Nat.add_0_r in E, H. rewrite E. cbn [bind]. exists (RFailed :: es), last, m'. split; [reflexivity|]. split; [exact LL|]. cbn [cursor_history]. auto.
      * destruct (FR ltac:(lia)) as (FT & NR). destruct (read_into_ok (at_point r i m) b count (reader_ok_at r i m RO I)) as (b' & RE & W' & S' & L' & V); [cbn [at_point pr_num pr_index]; fold n; lia|exact FT|].
        cbn [at_point pr_num pr_index] in RE, V. fold n in RE, V. rewrite RE. cbn [bind]. change (after_read (at_point r i m) n) with (at_point r (i + n) m). rewrite E. cbn [bind].
        exists (RGot n b' :: es), last, m'. split; [reflexivity|]. split; [exact LL|]. cbn [cursor_history]. split; [reflexivity|]. split; [lia|]. split; [|exact H].
        split; [exact W'|]. split; [exact S'|]. split; [exact L'|]. intros k old q H1 H2. destruct (V k old q H1 H2) as (p & A & Bk & C).
        change (centre_added (at_point r i m) (pr_mode (at_point r i m))) with (centre_added r m) in C.
        change (point_read (at_point r i m)) with (point_read r) in A.
        split.
        -- intros Hk. destruct (centre_added r m) as [c|] eqn:CA; [exists p; destruct C; auto|]. rewrite C. now apply A.
        -- intros Hk. specialize (Bk Hk). subst p. destruct (centre_added r m) as [c|] eqn:CA; [|exact C].
           destruct FT as (W & _). pose proof (wf_good b W) as G.
           destruct (bf_points_uniform (Of b) W) as [U LU]. cbn [bf_points bf_layout bf_len] in U, LU.
           destruct (get_attribute_by_name (mb_layout b) "Position3D"%string) as [tm|] eqn:GN.
           ++ apply get_by_name_spec in GN; [|exact (proj1 (proj2 G))]. unfold no_rest in NR. rewrite CA in NR. specialize (NR ltac:(discriminate) (ex_intro _ tm GN)).
              exfalso. apply nth_error_lt in H1. change (bf_points (Of b)) with (mb_points b) in LU. lia.
           ++ destruct C as (_ & C). apply C. intros tm Ht NT. assert (Y : get_attribute_by_name (mb_layout b) "Position3D"%string = Some tm) by (apply get_by_name_spec; [exact (proj1 (proj2 G))|auto]). congruence.
    + cbn [reader_step bind]. change (set_read_positions_mode (at_point r i m) x) with (at_point r i x). destruct (IH i x I F) as (es & last & m' & E & LL & H). rewrite E. cbn [bind]. exists (RDone :: es), last, m'. split; [reflexivity|]. split; [exact LL|exact H].
Qed.
