(* A codec that meets the assumptions about serde_json, and a history of a writer. The format is not JSON: an object is the number of its
   fields, then for each field the length and characters of its key and a tagged value of fixed-size numbers. *)
From Coq Require Import String Ascii List ZArith Lia Bool Arith SpecFloat.
From Verif Require Import Base LayoutModel LayoutSpec LayoutProofs BufferModel BufferSpec ListLemmas BufferProofs
  TraitModel TraitSpec NumModel NumSpec NumProofs ConvModel ConvSpec MathModel LasIoModel PntsModel PntsSpec PntsProofs11.
Import ListNotations.
Open Scope nat_scope.

Definition f64_bytes (f : spec_float) : list Z := le_enc 8 (bits_of_float 53 1024 64 f).
Definition f64_of_bytes (bs : list Z) : spec_float := float_of_bits 53 1024 64 (le_dec bs).
Definition ex_reread (f : spec_float) : spec_float := f64_of_bytes (f64_bytes f).
Definition key_bytes (k : string) : list Z := Z.of_nat (String.length k) :: map (fun a => Z.of_nat (nat_of_ascii a)) (list_ascii_of_string k).
Definition value_bytes (v : json) : list Z :=
  match v with
  | JInt z => 1%Z :: le_enc 8 z
  | JObj [(_, JInt z)] => 2%Z :: le_enc 8 z
  | JArr l => 3%Z :: Z.of_nat (List.length l) :: flat_map (fun x => match x with JFloat f => f64_bytes f | _ => [] end) l
  | _ => [0%Z]
  end.
Definition ex_text (v : json) : list Z :=
  match v with
  | JObj fields => Z.of_nat (List.length fields) :: flat_map (fun e => key_bytes (fst e) ++ value_bytes (snd e)) fields
  | _ => []
  end.

Fixpoint parse_floats (k : nat) (bs : list Z) : list json * list Z :=
  match k with
  | 0 => ([], bs)
  | S k => let (l, rest) := parse_floats k (skipn 8 bs) in (JFloat (f64_of_bytes (firstn 8 bs)) :: l, rest)
  end.
Definition parse_value (bs : list Z) : option (json * list Z) :=
  match bs with
  | tag :: bs =>
      if (tag =? 1)%Z then Some (JInt (le_dec (firstn 8 bs)), skipn 8 bs)
      else if (tag =? 2)%Z then Some (JObj [("byteOffset"%string, JInt (le_dec (firstn 8 bs)))], skipn 8 bs)
      else if (tag =? 3)%Z then match bs with k :: bs => let (l, rest) := parse_floats (Z.to_nat k) bs in Some (JArr l, rest) | [] => None end
      else None
  | [] => None
  end.
Definition parse_key (bs : list Z) : option (string * list Z) :=
  match bs with
  | k :: bs => Some (string_of_list_ascii (map (fun z => ascii_of_nat (Z.to_nat z)) (firstn (Z.to_nat k) bs)), skipn (Z.to_nat k) bs)
  | [] => None
  end.
Fixpoint parse_fields (k : nat) (bs : list Z) : option (list (string * json)) :=
  match k with
  | 0 => Some []
  | S k =>
      match parse_key bs with
      | Some (key, bs) =>
          match parse_value bs with
          | Some (v, bs) => option_map (cons (key, v)) (parse_fields k bs)
          | None => None
          end
      | None => None
      end
  end.
Definition ex_parse (bs : list Z) : option json :=
  match bs with
  | k :: bs => option_map JObj (parse_fields (Z.to_nat k) bs)
  | [] => None
  end.
Definition ex_codec : json_codec := mk_codec ex_text ex_parse.

Lemma firstn_exact {A} (a b : list A) n : length a = n -> firstn n (a ++ b) = a.
Proof. intros <-. rewrite firstn_app, Nat.sub_diag, firstn_O, app_nil_r. apply firstn_all. Qed.
Lemma skipn_exact {A} (a b : list A) n : length a = n -> skipn n (a ++ b) = b.
Proof. intros <-. rewrite skipn_app, Nat.sub_diag, skipn_all. reflexivity. Qed.
Lemma length_f64_bytes f : length (f64_bytes f) = 8.
Proof. apply le_enc_length. Qed.

Lemma parse_floats_ok fs rest : parse_floats (length fs) (flat_map (fun x => match x with JFloat f => f64_bytes f | _ => [] end) (map JFloat fs) ++ rest)
  = (map (fun f => JFloat (ex_reread f)) fs, rest).
Proof.
  induction fs as [|f fs IH]; [reflexivity|]. cbn [length parse_floats map flat_map]. rewrite <- app_assoc, (skipn_exact _ _ 8 (length_f64_bytes f)), (firstn_exact _ _ 8 (length_f64_bytes f)), IH. reflexivity.
Qed.
Lemma parse_value_ok v rest : table_entry v -> parse_value (value_bytes v ++ rest) = Some (reread_entry ex_reread v, rest).
Proof.
  intros T. destruct T as [z Z0|z Z0|fs F].
  - cbn [value_bytes app parse_value]. rewrite Z.eqb_refl. rewrite (firstn_exact (le_enc 8 z)), (skipn_exact (le_enc 8 z)) by apply le_enc_length.
    rewrite le_dec_enc, Z.mod_small by (change (256 ^ Z.of_nat 8)%Z with (2 ^ 64)%Z; lia). reflexivity.
  - cbn [value_bytes app parse_value]. change (2 =? 1)%Z with false. rewrite Z.eqb_refl. cbv iota. rewrite (firstn_exact (le_enc 8 z)), (skipn_exact (le_enc 8 z)) by apply le_enc_length.
    rewrite le_dec_enc, Z.mod_small by (change (256 ^ Z.of_nat 8)%Z with (2 ^ 64)%Z; lia). reflexivity.
  - cbn [value_bytes]. rewrite map_length. cbn [app parse_value]. change (3 =? 1)%Z with false. change (3 =? 2)%Z with false. rewrite Z.eqb_refl. cbv iota. rewrite Nat2Z.id, parse_floats_ok.
    cbn [reread_entry]. rewrite map_map. reflexivity.
Qed.
Lemma parse_key_ok k rest : parse_key (key_bytes k ++ rest) = Some (k, rest).
Proof.
  unfold key_bytes. cbn [app parse_key]. assert (L : length (map (fun a => Z.of_nat (nat_of_ascii a)) (list_ascii_of_string k)) = String.length k).
  { rewrite map_length. induction k as [|a k IH]; [reflexivity|]. cbn. now rewrite IH. }
  rewrite Nat2Z.id, (firstn_exact _ _ _ L), (skipn_exact _ _ _ L), map_map. do 2 f_equal.
  transitivity (string_of_list_ascii (list_ascii_of_string k)); [|apply string_of_list_ascii_of_string]. f_equal. rewrite <- (map_id (list_ascii_of_string k)) at 2. apply map_ext.
  intros a. rewrite Nat2Z.id. apply ascii_nat_embedding.
Qed.
Lemma parse_fields_ok fields rest : Forall (fun e => table_entry (snd e)) fields ->
  parse_fields (length fields) (flat_map (fun e => key_bytes (fst e) ++ value_bytes (snd e)) fields ++ rest) = Some (map (fun e => (fst e, reread_entry ex_reread (snd e))) fields).
Proof.
  induction fields as [|[k v] fields IH]; intros F; [reflexivity|]. inversion F as [|? ? T F']; subst. cbn [length parse_fields flat_map map fst snd] in *. rewrite <- !app_assoc.
  rewrite parse_key_ok, (parse_value_ok v _ T), (IH F'). reflexivity.
Qed.

Lemma ex_codec_ok : json_ok ex_codec ex_reread.
Proof.
  intros fields k ND F. exists (map (fun e => (fst e, reread_entry ex_reread (snd e))) fields). split.
  - cbn [ex_codec json_parse json_text ex_text app ex_parse]. rewrite Nat2Z.id, (parse_fields_ok fields _ F). reflexivity.
  - split; [rewrite map_map; exact ND|]. intros key. unfold assoc. clear. induction fields as [|[k v] fields IH]; cbn [map find fst snd]; [reflexivity|]. destruct (String.eqb k key); [reflexivity|exact IH].
Qed.

Lemma ex_codec_within : tables_within ex_codec 300.
Proof.
  intros fields ND F A3 INC. assert (L6 : length fields <= 6).
  { rewrite <- (map_length fst). change 6 with (length ["POSITION"; "RGB"; "RGBA"; "NORMAL"; "POINTS_LENGTH"; "RTC_CENTER"]%string). now apply NoDup_incl_length. }
  assert (X : length (flat_map (fun e => key_bytes (fst e) ++ value_bytes (snd e)) fields) <= 40 * length fields).
  { clear ND L6. induction fields as [|[k v] fields IH]; [cbn; lia|]. inversion F as [|? ? T F']; subst. cbn [flat_map length fst snd]. rewrite !app_length.
    assert (LK : length (key_bytes k) <= 14).
    { assert (I : In k ["POSITION"; "RGB"; "RGBA"; "NORMAL"; "POINTS_LENGTH"; "RTC_CENTER"]%string) by (apply INC; now left). cbn [In] in I. destruct I as [<-|[<-|[<-|[<-|[<-|[<-|[]]]]]]]; cbn; lia. }
    assert (LV : length (value_bytes v) <= 26).
    { cbn [snd] in T. destruct T as [z Z0|z Z0|fs FF]; [cbn; lia|cbn; lia|]. pose proof (A3 k (map JFloat fs) (or_introl eq_refl)) as L3. rewrite map_length in L3.
      destruct fs as [|f1 [|f2 [|f3 [|f4 fs]]]]; try discriminate L3. cbn [map value_bytes flat_map length]. rewrite !app_length, !length_f64_bytes. cbn [length]. lia. }
    specialize (IH F'). assert (IH' := IH (fun key x H => A3 key x (or_intror H)) (fun x Hx => INC x (or_intror Hx))). lia. }
  cbn [ex_codec json_text ex_text length]. lia.
Qed.

(* ---- points, a history and its file ---- *)
Definition t_layout : layout := Eval vm_compute in match from_attributes [POSITION_3D; COLOR_RGB; INTENSITY] with Ok l => l | _ => layout_default end.
(* positions (1, 2, 3) and (0, -1, 2), colours (10, 20, 30) and (1, 2, 258) *)
Definition t_one (k : Z) : spec_float := match as_cast PF64 (NInt k) with NFlt f => f | NInt _ => S754_nan end.
Definition t_point (x y z r g b i : Z) : list Z :=
  f64_bytes (t_one x) ++ f64_bytes (t_one y) ++ f64_bytes (t_one z) ++ le_enc 2 r ++ le_enc 2 g ++ le_enc 2 b ++ le_enc 2 i.
Definition t_bytes : list Z := Eval vm_compute in t_point 1 2 3 10 20 30 7 ++ t_point 0 (-1) 2 1 2 258 9.
Definition t_points : mbuf := VecB (mk_vbuf t_bytes t_layout 2).
Definition t_empty (n : nat) : mbuf := VecB (mk_vbuf (repeat 0%Z (n * l_size t_layout)) t_layout n).
Definition t_center : p3 spec_float := mk_p3 (t_one 5) (t_one 0) (t_one 0).
Definition t_writer : pnts_writer := match writer_new (fun x => x) t_layout with Ok w => w | _ => mk_pw [] t_layout t_layout (hb_new t_layout) [] None true end.
Definition t_calls : list writer_call := [Write (Of t_points); SetCenter t_center; Write (Of t_points)].
Definition t_done (calls : list writer_call) : pnts_writer := match run_and_drop ex_codec t_writer calls with Ok w => w | _ => t_writer end.
Definition t_file : list Z := Eval vm_compute in pw_out (t_done t_calls).
Definition t_reader : pnts_reader := Eval vm_compute in match from_read ex_codec t_file with Ok r => r | _ => mk_pr [] 0 None t_layout 0 [] Absolute end.

Lemma t_good : good_layout t_layout.
Proof.
  apply (grown_good (map (fun a => (a, Default)) [POSITION_3D; COLOR_RGB; INTENSITY])).
  - rewrite <- from_attributes_history. vm_compute. reflexivity.
  - discriminate.
  - intros a fa I. cbn [map In] in I. destruct I as [E|[E|[E|[]]]]; injection E as <- <-; vm_compute; lia.
Qed.
Lemma t_points_wf : mb_wf t_points.
Proof. split; [exact t_good|reflexivity]. Qed.
Lemma t_empty_wf n : mb_wf (t_empty n).
Proof. split; [exact t_good|]. cbn [vb_storage vb_len vb_layout]. apply repeat_length. Qed.
Lemma t_ready : pnts_ready t_layout.
Proof.
  split.
  - exists (mk_member POSITION_3D 0 24), "POSITION"%string, Vec3f32. split; [vm_compute; auto|]. left. reflexivity.
  - intros m key t Hm S. cbn [t_layout l_attrs In] in Hm. destruct Hm as [<-|[<-|[<-|[]]]]; cbn [m_name m_def ad_name] in S;
    destruct S as [E|[E|[E|[E|[]]]]]; try discriminate E; injection E as _ <-; right; right; split; vm_compute; discriminate.
Qed.
Lemma t_calls_ok : Forall (call_ok t_layout) t_calls.
Proof.
  constructor; [split; [exact t_points_wf|reflexivity]|]. constructor; [split; [exact I|split; exact I]|]. constructor; [split; [exact t_points_wf|reflexivity]|constructor].
Qed.
Lemma t_runs : writer_new (fun x => x) t_layout = Ok t_writer /\ run_and_drop ex_codec t_writer t_calls = Ok (t_done t_calls)
  /\ pw_out (t_done t_calls) = t_file /\ from_read ex_codec t_file = Ok t_reader.
Proof. vm_compute. repeat split. Qed.
Lemma t_reader_ok : reader_ok t_reader /\ holds t_reader t_layout (written t_calls) /\ pr_rtc t_reader <> None.
Proof.
  destruct t_runs as (N & R & O & F). destruct (reopened ex_codec ex_reread t_layout (fun x => x) t_calls t_writer (t_done t_calls) ex_codec_ok) as (r & E & RO & H & _); auto.
  - exact t_good.
  - exact t_ready.
  - exact t_calls_ok.
  - rewrite O, F in E. injection E as <-. split; [exact RO|]. split; [exact H|discriminate].
Qed.

(* points written after a flush *)
Definition t_lost : list writer_call := [Write (Of t_points); Flush; Write (Of t_points)].
Lemma t_lost_runs : exists r, run_and_drop ex_codec t_writer t_lost = Ok (t_done t_lost) /\ from_read ex_codec (pw_out (t_done t_lost)) = Ok r
  /\ pr_num r = 2 /\ length (written t_lost) = 4.
Proof. eexists. split; [vm_compute; reflexivity|]. split; [vm_compute; reflexivity|]. split; reflexivity. Qed.

(* one point read into a buffer of two in absolute mode: the position of the other one is moved as well *)
Definition t_read : mbuf := match read_into t_reader (t_empty 2) 1 with Ok (_, b, _) => b | _ => t_empty 0 end.
Lemma t_read_runs : exists r' old q, read_into t_reader (t_empty 2) 1 = Ok (1, t_read, r')
  /\ nth_error (mb_points (t_empty 2)) 1 = Some old /\ nth_error (mb_points t_read) 1 = Some q /\ q <> old.
Proof. eexists. eexists. eexists. split; [vm_compute; reflexivity|]. split; [vm_compute; reflexivity|]. split; [vm_compute; reflexivity|]. discriminate. Qed.
Lemma t_fits : fits t_reader Absolute 1 (t_empty 1) /\ no_rest t_reader Absolute 1 (t_empty 1) /\ file_readable t_layout.
Proof.
  assert (FR : file_readable t_layout).
  { intros tm key t Ht S. cbn [t_layout l_attrs In] in Ht. destruct Ht as [<-|[<-|[<-|[]]]]; cbn [m_name m_def ad_name] in S;
    destruct S as [E|[E|[E|[E|[]]]]]; try discriminate E; injection E as _ <-; right; right; split; vm_compute; discriminate. }
  split; [|split; [|exact FR]].
  - split; [apply t_empty_wf|]. split; [cbn; lia|]. split.
    + intros m tm Hm Ht NM. destruct t_reader_ok as (_ & (_ & _ & HR) & _). destruct (HR m Hm) as (sm & key & _ & NS & S). rewrite NS, NM in S. destruct (FR tm key _ Ht S) as [E|E]; [left; now symmetry|right; exact E].
    + intros _ tm Ht NT. cbn [t_empty mb_layout vb_layout t_layout l_attrs In] in Ht. destruct Ht as [<-|[<-|[<-|[]]]]; [discriminate|discriminate NT|discriminate NT].
  - intros _ _. reflexivity.
Qed.
Lemma t_fits_n m n k : n <= k -> fits t_reader m n (t_empty k).
Proof.
  intros L. destruct t_fits as ((_ & _ & RD & PP) & _). split; [apply t_empty_wf|]. split; [exact L|]. split; [exact RD|]. intros _. apply PP. discriminate.
Qed.
Lemma t_history : reader_ok t_reader /\ pr_num t_reader = 4 /\ pr_rtc t_reader <> None
  /\ calls_fit t_reader (pr_index t_reader) (pr_mode t_reader)
       [RRead (t_empty 1) 1; RSeek (FromEnd (-2)); RRead (t_empty 2) 5; RRead (t_empty 1) 1; RSeek (FromCurrent (-9)); RMode RelativeToCenter; RSeek (FromStart 1); RRead (t_empty 7) 2].
Proof.
  split; [exact (proj1 t_reader_ok)|]. split; [reflexivity|]. split; [discriminate|]. change (pr_index t_reader) with 0. change (pr_mode t_reader) with Absolute. cbn [calls_fit]. change (pr_num t_reader) with 4.
  change (target 4 (0 + Nat.min (4 - 0) 1) (FromEnd (-2))) with (Some 2). cbv iota. change (2 + Nat.min (4 - 2) 5 + Nat.min (4 - (2 + Nat.min (4 - 2) 5)) 1) with 4.
  change (target 4 4 (FromCurrent (-9))) with (@None nat). cbv iota. change (target 4 4 (FromStart 1)) with (Some 1). cbv iota. cbn [Nat.min Nat.sub Nat.add].
  split; [intros _; split; [apply t_fits_n; lia|intros _ _; reflexivity]|]. split; [cbn; lia|].
  split; [intros _; split; [apply t_fits_n; lia|intros _ _; reflexivity]|]. split; [intros; lia|]. split; [cbn; lia|]. split; [cbn; lia|].
  split; [|exact I]. intros _. split; [apply t_fits_n; lia|]. intros X. destruct X. reflexivity.
Qed.

(* ---- a feature table with an offset that is no offset in any file ---- *)
Definition huge_table : json := JObj [("POINTS_LENGTH"%string, JInt 1); ("POSITION"%string, JObj [("byteOffset"%string, JInt (2 ^ 64 - 1))])].
Definition huge_file : list Z := Eval vm_compute in
  map (fun c => Z.of_nat (nat_of_ascii c)) (list_ascii_of_string "pnts") ++ le_enc 4 1 ++ le_enc 4 (28 + 42) ++ le_enc 4 42 ++ le_enc 4 0 ++ le_enc 4 0 ++ le_enc 4 0
  ++ json_text ex_codec huge_table.
Lemma huge_panics : length huge_file = 70 /\ json_parse ex_codec (skipn 28 huge_file) = Some huge_table /\ from_read ex_codec huge_file = Panic.
Proof.
  split; [reflexivity|]. split; [vm_compute; reflexivity|]. unfold from_read.
  assert (H : exists h, read_header huge_file = Ok h /\ ph_ft_json h = 42%Z) by (eexists; split; [vm_compute; reflexivity|reflexivity]). destruct H as (h & -> & E). cbn [bind]. rewrite E.
  unfold deser_feature_table_header, read_json_header. replace (Z.to_nat 42 <=? length (skipn HEADER_LENGTH huge_file)) with true by (vm_compute; reflexivity).
  replace (json_parse ex_codec (firstn (Z.to_nat 42) (skipn HEADER_LENGTH huge_file))) with (Some huge_table) by (vm_compute; reflexivity).
  set (big := Z.to_nat (2 ^ 64 - 1)). assert (HB : Z.of_nat big = (2 ^ 64 - 1)%Z) by (unfold big; apply Z2Nat.id; lia).
  assert (M : mapM (fun e => let* v := ft_value_of_json (snd e) in Ok (fst e, v)) [("POINTS_LENGTH"%string, JInt 1); ("POSITION"%string, JObj [("byteOffset"%string, JInt (2 ^ 64 - 1))])]
    = Ok [("POINTS_LENGTH"%string, SingleValue (JInt 1)); ("POSITION"%string, DataReference big None)]) by (unfold big; lazy -[Z.to_nat]; reflexivity).
  cbn [bind huge_table]. rewrite M. cbn [bind]. clearbody big.
  assert (L : exists l, layout_from_feature_table_header [("POINTS_LENGTH"%string, SingleValue (JInt 1)); ("POSITION"%string, DataReference big None)] = Ok (l, [("Position3D"%string, big)]))
    by (eexists; lazy; reflexivity). destruct L as (l & ->). cbn [bind].
  assert (D : metadata_from_feature_table_header [("POINTS_LENGTH"%string, SingleValue (JInt 1)); ("POSITION"%string, DataReference big None)] = Ok (1, None)) by (lazy; reflexivity).
  rewrite D. cbn [bind snd fst mapM]. unfold offset_add. rewrite HB. reflexivity.
Qed.

(* ---- a file without its last 20 bytes ---- *)
Definition t_cut : list Z := Eval vm_compute in firstn (length t_file - 20) t_file.
Definition t_cut_reader : pnts_reader := Eval vm_compute in match from_read ex_codec t_cut with Ok r => r | _ => mk_pr [] 0 None t_layout 0 [] Absolute end.
Lemma t_cut_ok :
  (forall fields o, feature_table ex_codec t_cut fields -> stated_offset fields o -> (o < 2 ^ 62)%Z)
  /\ from_read ex_codec t_cut = Ok t_cut_reader /\ pr_num t_cut_reader = 4 /\ fits t_cut_reader Absolute 4 (t_empty 4)
  /\ read_into t_cut_reader (t_empty 4) 4 = Err /\ from_read ex_codec (firstn 40 t_file) = Err.
Proof.
  split.
  - intros fields o F (key & fs & I & A & B). unfold feature_table in F. vm_compute in F. injection F as <-.
    destruct I as [<-|[<-|[<-|[<-|[]]]]]; vm_compute in A; try discriminate A; injection A as <-; vm_compute in B; injection B as <-; reflexivity.
  - split; [vm_compute; reflexivity|]. split; [reflexivity|]. split; [|split; vm_compute; reflexivity].
    exact (t_fits_n Absolute 4 4 (le_n 4)).
Qed.
