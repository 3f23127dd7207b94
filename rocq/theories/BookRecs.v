(** The saved Workbook stream as a list of records (type, payload), unit by unit, and the
    fact that the framing-only reader of SpecBiff recovers exactly that list. *)
From Coq Require Import ZArith List Bool Lia ZifyBool ZifyNat.
From Verif Require Import Bytes UnitModel SpecBuf BufProofs UnitProofs RecModel SheetModel XfModel WbModel
  RecProofs RecFrames XfProofs SheetProofs SheetTrace GlobTrace WbProofs SpecBiff.
Import ListNotations.
Local Open Scope Z_scope.

(* ------------------------------------------------------------------ *)
(** * Splitting frames *)

Lemma le_value2 v : 0 <= v < 65536 -> le_value [byte_k 0 v; byte_k 1 v] = v.
Proof. intro H. change [byte_k 0 v; byte_k 1 v] with (le16 v). rewrite le16_value. apply Z.mod_small. exact H. Qed.

Definition rec_fits (r : brec) : Prop := 0 <= fst r < 65536 /\ zlen (snd r) <= 8224.

Lemma split_one f t p rest : 0 <= t < 65536 -> zlen p <= 8224 ->
  split_records (S f) (frame t p ++ rest) =
  match split_records f rest with Some rs => Some ((t, p) :: rs) | None => None end.
Proof.
  intros Ht Hp. pose proof (zlen_nonneg _ p). pose proof (zlen_nonneg _ rest).
  unfold frame, le16. cbn [app split_records]. rewrite !le_value2 by lia. rewrite zlen_app.
  replace ((8224 <? zlen p) || (zlen p + zlen rest <? zlen p))%bool with false by lia.
  unfold zlen. rewrite Nat2Z.id, skipn_app, skipn_all, Nat.sub_diag, skipn_O. cbn [app].
  rewrite firstn_app, firstn_all, Nat.sub_diag, firstn_O, app_nil_r. reflexivity.
Qed.
Lemma split_frame_all rs : Forall rec_fits rs -> forall f, (length (frame_all rs) <= f)%nat ->
  split_records f (frame_all rs) = Some rs.
Proof.
  induction 1 as [|[t p] rs (Ht & Hp) F IH]; intros f Hf.
  - destruct f; reflexivity.
  - unfold frame_all in *. cbn [flat_map fst snd] in *. rewrite app_length in Hf.
    pose proof (frame_length t p) as L. pose proof (zlen_nonneg _ p). unfold zlen in *.
    destruct f as [|f]; [lia|]. rewrite split_one by assumption. rewrite IH by lia. reflexivity.
Qed.
Theorem records_frame_all rs : Forall rec_fits rs -> records (frame_all rs) = Some rs.
Proof. intro H. apply split_frame_all; auto. Qed.

(* ------------------------------------------------------------------ *)
(** * Units as records *)

Definition is_unit (u : bunit) (rs : list brec) : Prop := bu_bytes u = frame_all rs.

(** What is stored for a unit: a single oversized record is cut and continued. *)
Definition conts (p : list Z) : list brec := map (fun q => (RT_CONTINUE, q)) (pieces (S (length p)) p).
Definition rx (rs : list brec) : list brec :=
  match rs with
  | [(t, p)] => if 8224 <? zlen p then (t, firstn M p) :: conts (skipn M p) else rs
  | _ => rs
  end.
(** Oversized units consist of a single record; the others fit. *)
Definition unit_fits (u : bunit) (rs : list brec) : Prop :=
  Forall (fun r => 0 <= fst r < 65536) rs /\
  (oversized u = true -> exists t p, rs = [(t, p)]) /\
  (bu_cont u = true -> Forall rec_fits rs).

Lemma frame_all_le rs : forall r, In r rs -> zlen (snd r) + 4 <= zlen (frame_all rs).
Proof.
  induction rs as [|a rs IH]; intros r H; [destruct H|]. unfold frame_all in *. cbn [flat_map]. rewrite zlen_app, frame_length.
  destruct H as [->|H].
  - pose proof (zlen_nonneg _ (flat_map (fun r : Z * list Z => frame (fst r) (snd r)) rs)). lia.
  - apply IH in H. pose proof (zlen_nonneg _ (snd a)). lia.
Qed.
Lemma concat_frames l : concat (map (fun r => frame (fst r) (snd r)) l) = frame_all l.
Proof. unfold frame_all. rewrite flat_map_concat_map. reflexivity. Qed.
Lemma pieces_fit f : forall l, Forall (fun q : list Z => zlen q <= 8224) (pieces f l).
Proof.
  induction f; intro l; cbn [pieces]; [constructor|]. destruct l; constructor; auto.
  unfold zlen. rewrite firstn_length. unfold M. lia.
Qed.
Lemma skip_hdr n t p : skipn (4 + n) (frame t p) = skipn n p.
Proof. unfold frame, le16. cbn [app skipn Nat.add]. reflexivity. Qed.
Lemma first_hdr n a b p : firstn (4 + n) (le16 a ++ le16 b ++ p) = le16 a ++ le16 b ++ firstn n p.
Proof. unfold le16. cbn [app firstn Nat.add]. reflexivity. Qed.
Lemma M_hdr : Z.to_nat 8228 = (4 + M)%nat.
Proof. unfold M. lia. Qed.
Lemma firstn_M (p : list Z) : 8224 < zlen p -> zlen (firstn M p) = 8224.
Proof. intro H. unfold zlen in *. rewrite firstn_length. unfold M. lia. Qed.
Lemma clip_frame t p : 8224 < zlen p -> clip (frame t p) = frame t (firstn M p).
Proof.
  intro H. unfold clip. change (MAX_RECORD_SIZE + RECORD_HEADER_SIZE) with 8228. rewrite M_hdr.
  unfold frame at 1. cbn [arun_ops arun_op amap bind]. rewrite aset16_2. cbn [bind].
  rewrite first_hdr. unfold frame. rewrite firstn_M by exact H. reflexivity.
Qed.

Lemma concat_app_nil {A} (l : list (list A)) : concat l = flat_map (fun x => x) l.
Proof. rewrite flat_map_concat_map, map_id. reflexivity. Qed.

Lemma conts_frames p : concat (continues p) = frame_all (conts p).
Proof.
  unfold continues, conts. rewrite <- concat_frames, map_map. reflexivity.
Qed.

Lemma expand_recs u rs : is_unit u rs -> unit_fits u rs ->
  concat (expand u) = frame_all (rx rs) /\ Forall rec_fits (rx rs).
Proof.
  intros E (T & O & C). unfold is_unit in E. unfold expand. destruct (oversized u) eqn:Eo.
  - destruct (O eq_refl) as (t & p & ->). rewrite frame_all_one in E. unfold oversized in Eo. apply andb_prop in Eo.
    destruct Eo as [_ Eo]. unfold bu_size in Eo. rewrite E, frame_length in Eo.
    cbn [rx]. replace (8224 <? zlen p) with true by lia. rewrite E, clip_frame by lia. rewrite M_hdr, skip_hdr.
    cbn [concat]. rewrite conts_frames. split; [unfold frame_all; reflexivity|].
    apply Forall_cons.
    + split; [|cbn [snd]; rewrite firstn_M; lia]. apply Forall_inv in T. exact T.
    + unfold conts. apply Forall_forall. intros r H. apply in_map_iff in H. destruct H as (q & <- & H).
      split; [cbn; unfold RT_CONTINUE; lia|]. cbn [snd].
      pose proof (pieces_fit (S (length (skipn M p))) (skipn M p)) as F. rewrite Forall_forall in F. auto.
  - cbn [concat]. rewrite app_nil_r, E. 
    assert (F : Forall rec_fits rs).
    { unfold oversized in Eo. destruct (bu_cont u); [auto|]. cbn [negb andb] in Eo. unfold bu_size in Eo. rewrite E in Eo.
      apply Forall_forall. intros r H. rewrite Forall_forall in T. split; [auto|]. apply frame_all_le in H. lia. }
    assert (R : rx rs = rs).
    { unfold rx. destruct rs as [|[t p] [|? ?]]; auto. apply Forall_inv in F. destruct F as [_ F]. cbn [snd] in F.
      replace (8224 <? zlen p) with false by lia. reflexivity. }
    rewrite R. auto.
Qed.

Lemma expand_all us rss : Forall2 is_unit us rss -> Forall2 unit_fits us rss ->
  concat (flat_map expand us) = frame_all (flat_map rx rss) /\ Forall rec_fits (flat_map rx rss).
Proof.
  intro A. induction A as [|u rs us rss E A IH]; intro B; [split; constructor|].
  inversion B; subst. cbn [flat_map]. destruct (expand_recs _ _ E H2) as [X Y]. destruct (IH H4) as [X' Y'].
  rewrite concat_app, X, X', frame_all_app. split; [reflexivity|]. apply Forall_app; auto.
Qed.

(* ------------------------------------------------------------------ *)
(** * The records of each unit *)

Lemma ubuild_eq ops u : build ops = Ok u -> ubuild ops = u.
Proof. unfold ubuild. intros ->. reflexivity. Qed.
(** A unit with its records. *)
Definition uok (u : bunit) (rs : list brec) : Prop := is_unit u rs /\ unit_fits u rs.
Lemma uok_one u t p : bu_bytes u = frame t p -> bu_cont u = false -> 0 <= t < 65536 -> uok u [(t, p)].
Proof.
  intros E C T. split; [unfold is_unit; rewrite frame_all_one; exact E|]. split; [|split].
  - constructor; [exact T|constructor].
  - intros _. eauto.
  - rewrite C. discriminate.
Qed.
Lemma uok_build ops t p : build ops = Ok (mkBU (frame t p) false) -> 0 <= t < 65536 -> uok (ubuild ops) [(t, p)].
Proof. intros E T. rewrite (ubuild_eq _ _ E). apply uok_one; auto. Qed.
Lemma unit_rec t body : app_only body -> 0 <= t < 65536 -> uok (ubuild (record t body)) [(t, pl body)].
Proof. intros H T. apply uok_build; [apply build_rec; exact H|exact T]. Qed.
Ltac ty := vm_compute; split; [discriminate|reflexivity].
Ltac urec := apply unit_rec; [unfold app_only; cbn; discriminate|ty].

Definition colinfo_bytes (c : colinfo) : list Z :=
  le16 (ci_col c) ++ le16 (ci_col c) ++ le16 (ci_width c)
  ++ le16 (match ci_xf c with Some i => i | None => 15 end) ++ le16 0 ++ le16 0.
Definition dim_bytes (s : sheet) : list Z :=
  le32 (sh_minr s) ++ le32 (sh_maxr s + 1) ++ le16 (sh_minc s) ++ le16 (sh_maxc s + 1) ++ le16 0.
Definition bof_bytes (k : Z) : list Z := le16 1536 ++ le16 k ++ le16 7519 ++ le16 1997 ++ le32 0 ++ le32 1536.
Definition window2_bytes (b : bool) : list Z :=
  pl [OAdd16 (if b then 1726 else 190); OAdd16 0; OAdd16 0; OAdd16 64; OAdd16 0; OAdd16 0; OAdd16 0; OAdd32 0].
Definition index_bytes (pos : Z) (s : sheet) : list Z :=
  let sb := sblocks (sh_cells s) in
  let off0 := pos + (20 + 4 * zlen sb) + 8 + 16 * zlen (sh_cols s) in
  le32 0 ++ le32 (rb_fr (rb_total sb)) ++ le32 (rb_lr (rb_total sb) + 1)
  ++ offs32 (off0 :: index_offs sb 0 (off0 + 6 + 18)).

(** [pos]: position just after the BOF record. *)
Definition head_recs (pos : Z) (s : sheet) : list (list brec) :=
  [[(RT_BOF, bof_bytes 16)]; [(RT_INDEX, index_bytes pos s)];
   [(RT_DEFAULTROWHEIGHT, le16 (if sh_defrh s =? 15 then 0 else 1) ++ le16 (sh_defrh s * 20))]]
  ++ map (fun c => [(RT_COLINFO, colinfo_bytes c)]) (sh_cols s)
  ++ [[(RT_DEFCOLWIDTH, le16 (sh_defcw s))]; [(RT_DIMENSIONS, dim_bytes s)]].

Definition cell_head (c : cell) : list Z := le16 (c_row c) ++ le16 (c_col c) ++ le16 (c_xf c).
Definition sst_pos (ls : labels) (id : Z) : Z := match label_index ls id 0 with Ok i => i | _ => 0 end.
Definition cell_recs (ls : labels) (c : cell) : list brec :=
  match c_val c with
  | VBlank => [(RT_BLANK, cell_head c)]
  | VBool b => [(RT_BOOLERR, cell_head c ++ [if b then 1 else 0; 0])]
  | VErr e => [(RT_BOOLERR, cell_head c ++ [byte_k 0 e; 1])]
  | VInt n => [(RT_RK, cell_head c ++ le32 (Z.lor ((n * 4) mod 4294967296) 2))]
  | VDouble bits => [(RT_NUMBER, cell_head c ++ le64 bits)]
  | VLabel id s =>
      if in_sst s then [(RT_LABELSST, cell_head c ++ le32 (sst_pos ls id))]
      else [(RT_LABEL, cell_head c ++ ustr_bytes s LEN2)]
  | VFormula arr toks _ e => fml_recs (c_row c) (c_col c) (c_xf c) arr toks e
  end.
Definition dbcell_bytes (ls : labels) (b : block) : list Z :=
  le32 (20 * zlen (k_rows b) + sizes ls (k_cells b))
  ++ offs16 (20 * zlen (k_rows b) :: map (fun c => bu_size (cu ls c)) (tl (k_cells b))).
Definition block_recs (ls : labels) (b : block) : list (list brec) :=
  map (fun r => [(RT_ROW, row_bytes r)]) (k_rows b) ++ map (cell_recs ls) (k_cells b)
  ++ [[(RT_DBCELL, dbcell_bytes ls b)]].
Definition body_recs (ls : labels) (s : sheet) : list (list brec) :=
  match sheet_blocks s with Some bl => flat_map (block_recs ls) bl | None => [] end.
Fixpoint drawings_recs (ns : list note) (sheet count i spid : Z) : list (list brec) :=
  match ns with
  | [] => []
  | n :: t => drawing_recs (renote n i) sheet spid count
              :: drawings_recs t sheet count ((i + 1) mod 65536) (w32 (spid + spid_step i))
  end.
Definition pane_bytes (r c : Z) : list Z :=
  le16 c ++ le16 r ++ le16 r ++ le16 c ++ le16 (if r =? 0 then 1 else if c =? 0 then 2 else 0).
Definition merged_bytes (rs : list range) : list Z := le16 (zlen rs) ++ flat_map range_bytes rs.
Definition dval_bytes (n : Z) : list Z := le16 0 ++ le32 0 ++ le32 0 ++ le32 4294967295 ++ le32 n.
Definition tail_recs (ac : Z) (s : sheet) : list (list brec) :=
  drawings_recs (sh_notes s) (sh_index s) (zlen (sh_notes s) mod 65536) 0 (sh_spid s)
  ++ map (fun n => [(RT_NOTE, note_bytes n)]) (number_notes (sh_notes s) 0)
  ++ map (fun rs => [(RT_MERGEDCELLS, merged_bytes rs)]) (chunks (sh_merged s))
  ++ [[(RT_WINDOW2, window2_bytes (sh_index s =? ac))]]
  ++ (if ((sh_rsplit s =? 0) && (sh_csplit s =? 0))%bool then []
      else [[(RT_PANE, pane_bytes (sh_rsplit s) (sh_csplit s))]])
  ++ map (fun h => [(RT_HLINK, hlink_bytes h)]) (sh_links s)
  ++ match sh_dvs s with
     | [] => []
     | dvs => [(RT_DVAL, dval_bytes (zlen dvs))] :: map (fun v => [(RT_DV, dv_bytes v)]) dvs
     end
  ++ [[(RT_EOF, [])]].
Definition sheet_recs (ls : labels) (ac pos : Z) (s : sheet) : list (list brec) :=
  head_recs (pos + 20) s ++ body_recs ls s ++ tail_recs ac s.

Definition font_bytes (f : font) : list Z :=
  pl [OAdd16 (fo_height f); OAdd16 (fo_attr f); OAdd16 (fo_color f); OAdd16 (fo_bold f);
   OAdd16 (fo_script f); OAdd8 (fo_under f); OAdd8 (fo_family f); OAdd8 (fo_charset f);
   OAdd8 0; OStr (fo_name f) LEN1].
Definition format_bytes (f : format) : list Z := pl [OAdd16 (fm_index f); OStr (fm_str f) LEN2].
Definition palette_bytes (l : list (Z * Z * Z)) : list Z :=
  pl [OAdd16 56; OArray (flat_map (fun c => match c with (r, g, b) => [r; g; b; 0] end) l)].
Definition ghead_recs (g : globals) : list (list brec) :=
  [[(RT_BOF, bof_bytes 5)]; [(RT_CODEPAGE, le16 1200)];
   [(RT_WINDOW1, pl [OAdd16 (w1_horz (g_w1 g) * 20); OAdd16 (w1_vert (g_w1 g) * 20);
       OAdd16 (w1_width (g_w1 g) * 20); OAdd16 (w1_height (g_w1 g) * 20); OAdd16 56;
       OAdd16 (w1_active (g_w1 g)); OAdd16 (w1_first (g_w1 g)); OAdd16 1; OAdd16 (w1_tabwidth (g_w1 g))])];
   [(RT_DATEMODE, le16 0)]]
  ++ map (fun f => [(RT_FONT, font_bytes (fo_val f))]) (fs_dfonts (g_fs g))
  ++ map (fun f => [(RT_FONT, font_bytes (fo_val f))]) (fs_fonts (g_fs g))
  ++ map (fun f => [(RT_FORMAT, format_bytes f)]) (indexed_formats (fs_formats (g_fs g)) 164)
  ++ map (fun x => [(RT_XF, xbytes (xstate x))]) (fs_dxfs (g_fs g))
  ++ map (fun x => [(RT_XF, xbytes (xstate x))]) (fs_xfs (g_fs g))
  ++ map (fun s => [(RT_STYLE, le16 (Z.lor (st_xf s) 32768) ++ [byte_k 0 (st_builtin s)] ++ [byte_k 0 (st_level s)])]) default_styles
  ++ [[(RT_PALETTE, palette_bytes (g_palette g))]].
Definition bs_payload (p : Z) (name : list Z) : list Z := le32 p ++ le16 0 ++ ustr_bytes name LEN1.
Definition bs_recs (ps : list Z) (names : list (list Z)) : list brec :=
  map (fun pn => (RT_BOUNDSHEET, bs_payload (fst pn) (snd pn))) (combine ps names).
Definition gtail_recs (g : globals) : list (list brec) :=
  [[(RT_SUPBOOK, le16 (zlen (g_bs g)) ++ [1; 4])];
   [(RT_EXTERNSHEET, le16 (Z.of_nat (length (g_bs g))) ++ flat_map ext_bytes (seq 0 (length (g_bs g))))]]
  ++ match noted_sheets (g_bs g) 0 with [] => [] | l => [[(RT_MSODRAWINGGROUP, group_bytes l)]] end
  ++ match g_labels g with [] => [] | _ => [sst_recs (map snd (g_labels g))] end
  ++ [[(RT_EOF, [])]].

Lemma F2_app {A B} (P : A -> B -> Prop) a b c d : Forall2 P a b -> Forall2 P c d -> Forall2 P (a ++ c) (b ++ d).
Proof. apply Forall2_app. Qed.
Lemma F2_map {A B C} (P : B -> C -> Prop) (f : A -> B) (g : A -> C) l : (forall x, In x l -> P (f x) (g x)) ->
  Forall2 P (map f l) (map g l).
Proof.
  induction l as [|x l IH]; intro H; cbn [map]; constructor.
  - apply H. left. reflexivity.
  - apply IH. intros y I. apply H. right. exact I.
Qed.
Ltac f2 := repeat first [apply Forall2_nil | apply Forall2_cons].

Lemma head_units pos s : Forall2 uok (sheet_head pos s) (head_recs pos s).
Proof.
  unfold sheet_head, head_recs. apply F2_app; [f2|apply F2_app].
  - urec.
  - unfold index_unit, index_bytes. cbv zeta. apply uok_build; [apply build_index|ty].
  - apply uok_build; [apply build_defrowheight|ty].
  - apply F2_map. intros c _. urec.
  - f2; [apply uok_build; [apply build_defcolwidth|ty]|urec].
Qed.

Lemma ok_inj {A} (a b : A) : Ok a = Ok b -> a = b.
Proof. congruence. Qed.
Lemma cell_is_unit ls c : cell_unit ls c = Ok (cu ls c) ->
  (forall arr toks n e, c_val c = VFormula arr toks n e -> zlen toks < 4294900000) ->
  is_unit (cu ls c) (cell_recs ls c) /\ bu_cont (cu ls c) = false.
Proof.
  unfold is_unit, cell_unit, cell_ops, cell_recs, sst_pos. intros E T. destruct (c_val c) as [|bo|er|nn|bi|id s|arr toks fs est] eqn:V; cbn [bind] in E.
  all: try (unfold rec_blank, rec_boolean, rec_err, rec_rk, rec_number in E; rewrite build_rec in E by (unfold app_only; cbn; discriminate);
    apply ok_inj in E; rewrite <- E; split; [|reflexivity]; cbn [bu_bytes]; rewrite frame_all_one; unfold pl; cbn [appended op_bytes];
    rewrite ?app_nil_r; unfold cell_head; rewrite <- ?app_assoc; try destruct bo; reflexivity).
  - destruct (in_sst s).
    + destruct (label_index ls id 0) as [i| |]; cbn [bind] in E; try discriminate.
      unfold rec_labelsst in E. rewrite build_rec in E by (unfold app_only; cbn; discriminate). apply ok_inj in E. rewrite <- E.
      split; [|reflexivity]. cbn [bu_bytes]. rewrite frame_all_one. unfold pl. cbn [appended op_bytes]. rewrite ?app_nil_r.
      unfold cell_head. rewrite <- ?app_assoc. reflexivity.
    + cbn [bind] in E. unfold rec_label in E. rewrite build_rec in E by (unfold app_only; cbn; discriminate). apply ok_inj in E. rewrite <- E.
      split; [|reflexivity]. cbn [bu_bytes]. rewrite frame_all_one. unfold pl. cbn [appended op_bytes]. rewrite ?app_nil_r.
      unfold cell_head. rewrite <- ?app_assoc. reflexivity.
  - assert (E' : build (rec_formula (c_row c) (c_col c) (c_xf c) arr toks est) = Ok (cu ls c)).
    { destruct (fe_str est) as [s|]; [|exact E]. destruct (zlen s <? 256); cbn [xl_assert bind] in E; [exact E|discriminate]. }
    rewrite build_formula in E' by (eapply T; reflexivity). apply ok_inj in E'. rewrite <- E'. split; reflexivity.
Qed.

(** A FORMULA with an ARRAY or STRING record is one unit: it must fit one record's space. *)
Definition cell_fits (ls : labels) (c : cell) : Prop :=
  match c_val c with
  | VFormula arr toks _ e =>
      zlen toks < 4294900000 /\
      (arr = true \/ fe_str e <> None -> zlen (frame_all (cell_recs ls c)) <= 8228)
  | _ => True
  end.
Lemma fml_types row col xf arr toks e : Forall (fun r : brec => 0 <= fst r < 65536) (fml_recs row col xf arr toks e).
Proof.
  unfold fml_recs. apply Forall_app. split.
  - destruct arr; repeat apply Forall_cons; try apply Forall_nil; ty.
  - destruct (fe_str e); repeat apply Forall_cons; try apply Forall_nil; ty.
Qed.
Lemma cell_uok ls c : cell_unit ls c = Ok (cu ls c) -> cell_fits ls c -> uok (cu ls c) (cell_recs ls c).
Proof.
  intros E F.
  assert (T : forall arr toks n e, c_val c = VFormula arr toks n e -> zlen toks < 4294900000).
  { intros arr toks n e V. unfold cell_fits in F. rewrite V in F. apply F. }
  destruct (cell_is_unit ls c E T) as [U C]. split; [exact U|]. unfold unit_fits. rewrite C.
  split; [|split; [|discriminate]].
  - unfold cell_recs. destruct (c_val c); try (repeat apply Forall_cons; try apply Forall_nil; ty).
    + destruct (in_sst s); repeat apply Forall_cons; try apply Forall_nil; ty.
    + apply fml_types.
  - intro O. unfold oversized, bu_size in O. rewrite C, U in O. cbn [negb andb] in O.
    unfold cell_fits in F. unfold cell_recs in *. destruct (c_val c); try (eexists; eexists; reflexivity).
    + destruct (in_sst s); eexists; eexists; reflexivity.
    + destruct F as [_ F]. unfold fml_recs in *. destruct arr; [lia|]. destruct (fe_str est) as [s|].
      * assert (K : Some s <> None) by discriminate. specialize (F (or_intror K)). lia.
      * eexists; eexists; reflexivity.
Qed.

Lemma block_uok ls b : Forall (fun c => cell_unit ls c = Ok (cu ls c)) (k_cells b) -> Forall (cell_fits ls) (k_cells b) ->
  Forall2 uok (block_units ls b) (block_recs ls b).
Proof.
  intros E F. unfold block_units, block_recs. apply F2_app; [|apply F2_app].
  - apply F2_map. intros r _. apply uok_one; [reflexivity|reflexivity|ty].
  - apply F2_map. intros c I. rewrite Forall_forall in E, F. apply cell_uok; auto.
  - f2. apply uok_one; [reflexivity|reflexivity|ty].
Qed.
Lemma flat_F2 {A B C} (P : B -> C -> Prop) (f : A -> list B) (g : A -> list C) l :
  (forall x, In x l -> Forall2 P (f x) (g x)) -> Forall2 P (flat_map f l) (flat_map g l).
Proof.
  induction l as [|x l IH]; intro H; cbn [flat_map]; [constructor|]. apply F2_app.
  - apply H. left. reflexivity.
  - apply IH. intros y I. apply H. right. exact I.
Qed.

(** The blocks hold exactly the cells, in order. *)
Lemma blocks_cells fuel : forall cells rh bl, blocks_of fuel cells rh = Some bl -> flat_map k_cells bl = cells.
Proof.
  induction fuel; intros cells rh bl H; cbn [blocks_of] in H; [discriminate|].
  destruct cells as [|c t]. { injection H as <-. reflexivity. }
  set (cur := c :: t) in *. destruct (rows_of 16 cur rh) as [[rs rest] rh1] eqn:Er.
  destruct (rows_of_suffix 16 _ _ _ _ _ Er) as [pre Hpre].
  destruct (Nat.eqb _ 0) eqn:E0; [discriminate|]. rewrite Hpre, app_length in H.
  destruct (at_last rest) eqn:Ea.
  - injection H as <-. cbn [flat_map k_cells]. rewrite app_nil_r, Hpre.
    destruct rest as [|x [|? ?]]; try discriminate. cbn [length].
    replace (length pre + 1 - 1 + 1)%nat with (length (pre ++ [x])) by (rewrite app_length; cbn; lia). apply firstn_all.
  - destruct (blocks_of fuel rest rh1) as [bl'|] eqn:Eb; [|discriminate]. injection H as <-.
    cbn [flat_map k_cells]. rewrite (IHfuel _ _ _ Eb).
    replace (length pre + length rest - length rest + 0)%nat with (length pre) by lia.
    rewrite Hpre, firstn_app, firstn_all, Nat.sub_diag, firstn_O, app_nil_r. reflexivity.
Qed.

Definition note_fits (n : note) : Prop := zlen (note_full n) <= 3000.
Lemma drawing_uok n sheet spid count : note_fits n -> uok (ubuild (rec_drawing n sheet spid count)) (drawing_recs n sheet spid count).
Proof.
  intro F. rewrite (ubuild_eq _ _ (build_drawing n sheet spid count)). split; [reflexivity|]. split; [|split; [|discriminate]].
  - unfold drawing_recs. repeat apply Forall_cons; try apply Forall_nil; ty.
  - intro O. exfalso. unfold oversized, bu_size in O. cbn [bu_cont bu_bytes negb andb] in O. unfold drawing_recs in O.
    rewrite !frame_all_cons in O. change (frame_all []) with (@nil Z) in O. rewrite app_nil_r, !zlen_app, !frame_length in O. cbn [fst snd] in O. rewrite draw_length in O. unfold draw_len in O.
    assert (L : zlen (ustr_bytes (note_full n) NOLEN) <= 1 + 2 * zlen (note_full n)).
    { rewrite unicode_length_ok. unfold unicode_string_length. pose proof (zlen_nonneg _ (note_full n)). 
      destruct (is_ascii _); lia. }
    unfold note_fits in F.
    change (zlen (obj_bytes (no_idx n))) with 26 in O. change (zlen (pl (draw_hdr 0 0 61453 0))) with 8 in O.
    change (zlen (txo_bytes (zlen (note_full n)))) with 18 in O.
    change (zlen (runs_bytes (zlen (no_author n) + 2) (zlen (note_full n)))) with 24 in O.
    destruct (no_idx n =? 0); lia.
Qed.
Lemma note_full_renote n i : note_full (renote n i) = note_full n.
Proof. reflexivity. Qed.
Lemma drawings_uok ns : Forall note_fits ns -> forall sheet count i spid,
  Forall2 uok (drawing_units ns sheet count i spid) (drawings_recs ns sheet count i spid).
Proof.
  induction 1 as [|n t F Ft IH]; intros sheet count i spid; cbn [drawing_units drawings_recs]; constructor; auto.
  apply drawing_uok. exact F.
Qed.

Lemma tail_uok ac s : Forall note_fits (sh_notes s) -> Forall2 uok (sheet_tail ac s) (tail_recs ac s).
Proof.
  intro F. unfold sheet_tail, tail_recs.
  apply F2_app; [apply drawings_uok; exact F|].
  apply F2_app; [apply F2_map; intros n _; apply uok_build; [apply build_note|ty]|].
  apply F2_app; [apply F2_map; intros n _; apply uok_build; [apply build_merged|ty]|].
  apply F2_app; [f2; urec|].
  apply F2_app. { destruct (_ && _)%bool; f2. apply uok_build; [apply build_pane|ty]. }
  apply F2_app; [apply F2_map; intros n _; apply uok_build; [apply build_hlink|ty]|].
  apply F2_app; [|f2; urec].
  destruct (sh_dvs s) as [|v dvs]; [constructor|]. apply Forall2_cons; [apply uok_build; [apply build_dval|ty]|].
  apply F2_map; intros n _; apply uok_build; [apply build_dv|ty].
Qed.

Definition sheet_fits (ls : labels) (s : sheet) : Prop :=
  Forall (cell_fits ls) (sh_cells s) /\ Forall note_fits (sh_notes s).
Lemma flat_map_In {A B} (f : A -> list B) x l y : In x l -> In y (f x) -> In y (flat_map f l).
Proof. intros. apply in_flat_map. eauto. Qed.
Lemma sheet_uok ls ac pos s : sheet_ok ls s -> sheet_fits ls s ->
  Forall2 uok (sheet_units ls ac pos s) (sheet_recs ls ac pos s).
Proof.
  intros (Hb & Hc & _) (Fc & Fn). unfold sheet_units, sheet_recs.
  apply F2_app; [apply head_units|]. apply F2_app; [|apply tail_uok; exact Fn].
  unfold sheet_body, body_recs, sheet_blocks in *. destruct (blocks_of _ _ _) as [bl|] eqn:E; [|congruence].
  apply blocks_cells in E. apply flat_F2. intros b I.
  assert (Sub : forall c, In c (k_cells b) -> In c (sh_cells s)).
  { intros c J. rewrite <- E. eapply flat_map_In; eauto. }
  rewrite Forall_forall in Hc, Fc.
  apply block_uok; apply Forall_forall; auto.
Qed.

Lemma sst_str_le s : zlen (ustr_bytes (sst_str s) LEN2) <= 8224.
Proof.
  rewrite str_len_bytes. unfold str_len, sst_str. destruct (MAX_RECORD_SIZE <? unicode_string_length s LEN2) eqn:E.
  - vm_compute. discriminate.
  - unfold MAX_RECORD_SIZE in E. lia.
Qed.
Lemma sst_fit ls : forall t p, 0 <= t < 65536 -> zlen p <= 8224 -> Forall rec_fits (sst_frames t p ls).
Proof.
  induction ls as [|s ls IH]; intros t p Ht Hp; cbn [sst_frames].
  - constructor; [split; auto|constructor].
  - pose proof (sst_str_le s). destruct (MAX_RECORD_SIZE <? _) eqn:E; unfold MAX_RECORD_SIZE in E.
    + constructor; [split; auto|]. apply IH; [ty|assumption].
    + apply IH; [assumption|]. rewrite zlen_app. lia.
Qed.
Lemma sst_recs_fit ls : Forall rec_fits (sst_recs ls).
Proof. apply sst_fit; [ty|]. vm_compute. discriminate. Qed.
Lemma ghead_uok g : Forall2 uok (g_head g) (ghead_recs g).
Proof.
  unfold g_head, ghead_recs. 
  apply F2_app; [f2; urec|].
  apply F2_app; [apply F2_map; intros f _; urec|].
  apply F2_app; [apply F2_map; intros f _; urec|].
  apply F2_app; [apply F2_map; intros f _; urec|].
  apply F2_app; [apply F2_map; intros f _; apply uok_build; [apply build_xf|ty]|].
  apply F2_app; [apply F2_map; intros f _; apply uok_build; [apply build_xf|ty]|].
  apply F2_app; [apply F2_map; intros f _; urec|].
  f2. urec.
Qed.
Lemma gtail_uok g : zlen (frame_all (sst_recs (map snd (g_labels g)))) < 4294967000 ->
  Forall2 uok (g_tail g) (gtail_recs g).
Proof.
  intro H. unfold g_tail, gtail_recs.
  apply F2_app; [f2; (apply uok_build; [first [apply build_supbook | apply build_externsheet]|ty])|].
  apply F2_app; [destruct (noted_sheets _ _); f2; apply uok_build; [apply build_group|ty]|].
  apply F2_app; [|f2; urec]. destruct (g_labels g) as [|x l] eqn:El; f2. rewrite <- El in *.
  unfold sst_unit. rewrite (ubuild_eq _ _ (build_sst _ H)). cbn [bu_bytes]. split; [reflexivity|].
  pose proof (sst_recs_fit (map snd (g_labels g))) as F. split; [|split].
  - eapply Forall_impl; [|exact F]. intros r K. apply K.
  - intro O. discriminate.
  - intros _. exact F.
Qed.

Fixpoint sheets_recs (g : globals) (ac pos : Z) (ss : list sheet) : list (list brec) :=
  match ss with
  | [] => []
  | s :: t => let us := sheet_units (g_labels g) ac pos s in
              flat_map rx (sheet_recs (g_labels g) ac pos s) :: sheets_recs g ac (pos + adv_all sadv us) t
  end.
Definition globals_recs (g : globals) (ps : list Z) : list brec :=
  flat_map rx (ghead_recs g) ++ bs_recs ps (names_of g) ++ flat_map rx (gtail_recs g).
Definition book_records (g : globals) (ac : Z) (ss : list sheet) : list brec :=
  globals_recs g (sheet_starts g ac (g_size g) ss) ++ concat (sheets_recs g ac (g_size g) ss).

Lemma expand_uok us rss : Forall2 uok us rss ->
  concat (flat_map expand us) = frame_all (flat_map rx rss) /\ Forall rec_fits (flat_map rx rss).
Proof.
  intro H. apply expand_all; induction H as [|u rs us rss K F IH]; constructor; auto; apply K.
Qed.
Lemma bs_frames ps names : Forall (fun n : list Z => zlen n <= 4108) names ->
  concat (bs_bytes ps names) = frame_all (bs_recs ps names) /\ Forall rec_fits (bs_recs ps names).
Proof.
  intro H. unfold bs_bytes, bs_recs. revert ps. induction H as [|n names Hn H IH]; intros [|p ps]; cbn [combine map];
    try (split; [reflexivity|constructor]).
  destruct (IH ps) as [A B]. cbn [concat fst snd]. rewrite frame_all_cons, A.
  assert (Eb : bu_bytes (bs_unit p n) = frame RT_BOUNDSHEET (bs_payload p n)).
  { unfold bs_unit, rec_bsheet. erewrite ubuild_eq; [|apply build_rec; unfold app_only; cbn; discriminate]. cbn [bu_bytes].
    unfold bs_payload, pl. cbn [appended op_bytes]. rewrite !app_nil_r. reflexivity. }
  split.
  - rewrite Eb. reflexivity.
  - constructor; [|exact B]. split; [ty|]. cbn [snd]. unfold bs_payload. rewrite !zlen_app, zlen_le32, zlen_le16, unicode_length_ok.
    unfold unicode_string_length. pose proof (zlen_nonneg _ n). destruct (is_ascii n); lia.
Qed.

Lemma sheets_frames g ac : forall ss pos, Forall (sheet_ok (g_labels g)) ss -> Forall (sheet_fits (g_labels g)) ss ->
  concat (flat_map expand (sheets_units g ac pos ss)) = frame_all (concat (sheets_recs g ac pos ss))
  /\ Forall rec_fits (concat (sheets_recs g ac pos ss)).
Proof.
  induction ss as [|s t IH]; intros pos F G; cbn [sheets_units sheets_recs]; [split; [reflexivity|constructor]|].
  cbv zeta. inversion F; inversion G; subst. cbn [concat]. rewrite flat_map_app, concat_app, frame_all_app.
  destruct (expand_uok _ _ (sheet_uok (g_labels g) ac pos s ltac:(assumption) ltac:(assumption))) as [A B].
  destruct (IH (pos + adv_all sadv (sheet_units (g_labels g) ac pos s)) ltac:(assumption) ltac:(assumption)) as [C D].
  rewrite A, C. split; [reflexivity|]. apply Forall_app. auto.
Qed.

Theorem book_frames g ac ss : book_ok g ac ss -> Forall (sheet_fits (g_labels g)) ss ->
  concat (book_store g ac ss) = frame_all (book_records g ac ss) /\ Forall rec_fits (book_records g ac ss).
Proof.
  intros [Bg Bn Bl Bne Bc Bs Bz] F. unfold book_store, book_records, globals_recs.
  destruct (expand_uok _ _ (ghead_uok g)) as [A1 A2].
  destruct (expand_uok _ _ (gtail_uok g (proj2 (proj2 Bg)))) as [B1 B2].
  destruct (bs_frames (sheet_starts g ac (g_size g) ss) (names_of g)) as [C1 C2].
  { unfold names_of. apply Forall_forall. intros n I. apply in_map_iff in I. destruct I as (b & <- & I).
    rewrite Forall_forall in Bn. auto. }
  destruct (sheets_frames g ac ss (g_size g) Bs F) as [D1 D2].
  rewrite !concat_app, A1, B1, C1, D1, !frame_all_app, <- !app_assoc. split; [reflexivity|].
  apply Forall_app. split; [exact A2|]. apply Forall_app. split; [exact C2|]. apply Forall_app. auto.
Qed.
(** The framing-only reader recovers the records of the stream. *)
Theorem book_split g ac ss : book_ok g ac ss -> Forall (sheet_fits (g_labels g)) ss ->
  records (concat (book_store g ac ss)) = Some (book_records g ac ss).
Proof. intros B F. destruct (book_frames g ac ss B F) as [E R]. rewrite E. apply records_frame_all. exact R. Qed.
