(** Calls that only change the looks of notes: they commute with everything else. *)
From Coq Require Import ZArith List Bool Lia ZifyBool ZifyNat Sorted Permutation.
From Verif Require Import Bytes UnitModel SpecBuf RecModel SheetModel XfModel WbModel XfInv ApiModel SpecBiff BookRecs ApiInv SpecApi ApiEff
  RecFrames SheetProofs SheetTrace GlobTrace WbProofs SaveOk SaveRecs SpecSaved FsBound Lookups SaveMeans DocLimits SavedView NoteModel SpecNote.
Import ListNotations.
Local Open Scope Z_scope.

(* ------------------------------------------------------------------ *)
(** * Without looks *)

Definition strip_note (n : note) : note :=
  mkNote (no_row n) (no_col n) (no_author n) (no_text n) (mkNoteRec 0 0 0 0 0 0 0 0 0) 0 (no_idx n).
Definition strip_sheet (s : sheet) : sheet := with_notes s (map strip_note (sh_notes s)).
Definition strip (w : wb) : wb := up_sheets w (map strip_sheet (wb_sheets w)).
Definition mapr {A B} (f : A -> B) (r : res A) : res B := match r with Ok x => Ok (f x) | Throw => Throw | UB => UB end.
Definition strips (x : wb * sheet) : wb * sheet := (up_sheets (fst x) [], strip_sheet (snd x)).
Lemma mapr_bind {A B} (r : res A) (f : A -> res B) : bind r f = match r with Ok x => f x | Throw => Throw | UB => UB end.
Proof. reflexivity. Qed.

Lemma strip_sheet_twice s : strip_sheet (strip_sheet s) = strip_sheet s.
Proof. unfold strip_sheet, with_notes. cbn. rewrite map_map. reflexivity. Qed.
Lemma map_strip_twice l : map strip_sheet (map strip_sheet l) = map strip_sheet l.
Proof. rewrite map_map. apply map_ext. apply strip_sheet_twice. Qed.
Lemma strip_twice w : strip (strip w) = strip w.
Proof. unfold strip, up_sheets. cbn. rewrite map_strip_twice. reflexivity. Qed.
Lemma map_upd {A B} (f : A -> B) k x l : map f (upd k x l) = upd k (f x) (map f l).
Proof. unfold upd. revert k. induction l; intros [|k]; cbn; f_equal; auto. Qed.
Lemma on_sheet_strip w k f g :
  (forall s, nth_error (wb_sheets w) k = Some s -> mapr strips (g (strip_sheet s)) = mapr strips (f s)) ->
  mapr strip (on_sheet (strip w) k g) = mapr strip (on_sheet w k f).
Proof.
  intro H. unfold on_sheet. change (wb_sheets (strip w)) with (map strip_sheet (wb_sheets w)). rewrite nth_error_map.
  destruct (nth_error (wb_sheets w) k) as [s|] eqn:E; cbn [option_map]; [|reflexivity]. specialize (H s eq_refl).
  destruct (g (strip_sheet s)) as [[w1 s1]| |], (f s) as [[w2 s2]| |]; cbn [mapr bind] in *; try discriminate H; try reflexivity.
  apply ok_inj in H. pose proof (f_equal fst H) as A. pose proof (f_equal snd H) as B. clear H. unfold strips in A, B. cbn [fst snd] in A, B. f_equal.
  assert (U : forall v l, strip (up_sheets v l) = up_sheets (up_sheets v []) (map strip_sheet l)) by reflexivity.
  rewrite !U, !map_upd, map_strip_twice, A, B. reflexivity.
Qed.
Lemma add_cell_strip s x : add_cell (strip_sheet s) x = mapr (fun y => (fst y, strip_sheet (snd y))) (add_cell s x).
Proof.
  unfold add_cell. change (sh_cells (strip_sheet s)) with (sh_cells s). destruct (set_insert x (sh_cells s)); [reflexivity|].
  destruct (set_erase _ _ _) as [old l1]. destruct (set_insert x l1); reflexivity.
Qed.
Lemma note_put_strip x l : map strip_note (note_put x (map strip_note l)) = map strip_note (note_put x l).
Proof.
  induction l as [|y l IH]; [reflexivity|]. cbn [map note_put strip_note no_row no_col].
  destruct (key_lt (no_row x) _ _ _); [cbn [map]; f_equal; cbn [map]; f_equal; rewrite map_map; reflexivity|].
  destruct (key_lt (no_row y) _ _ _); cbn [map]; [f_equal; exact IH|]. f_equal. rewrite map_map. reflexivity.
Qed.
Lemma find_note_strip r c l : match find (fun n => ((no_row n =? r) && (no_col n =? c))%bool) (map strip_note l) with Some _ => true | None => false end
  = match find (fun n => ((no_row n =? r) && (no_col n =? c))%bool) l with Some _ => true | None => false end.
Proof. induction l as [|y l IH]; [reflexivity|]. cbn [map find strip_note no_row no_col]. destruct (_ && _)%bool; [reflexivity|exact IH]. Qed.
Lemma cell_delete_strip w c : cell_delete (up_sheets w []) c = up_sheets (cell_delete w c) [].
Proof. unfold cell_delete. destruct (c_val c); try reflexivity. destruct (in_sst s); reflexivity. Qed.
Lemma sst_add_strip w v : sst_add (up_sheets w []) v = up_sheets (sst_add w v) [].
Proof. unfold sst_add. destruct v; try reflexivity. destruct (in_sst s); reflexivity. Qed.

Lemma cell_strip w k r c v p : mapr strip (api_cell (strip w) k r c v p) = mapr strip (api_cell w k r c v p).
Proof.
  unfold api_cell. apply on_sheet_strip. intros s E. change (wb_fs (strip w)) with (wb_fs w). change (wb_next (strip w)) with (wb_next w).
  destruct (negb (xf_valid (wb_fs w) p)); [reflexivity|]. rewrite add_cell_strip.
  destruct (add_cell s _) as [[old s1]| |]; cbn [mapr bind]; try reflexivity. f_equal. unfold strips. cbn [fst snd]. rewrite strip_sheet_twice. f_equal.
  assert (Q : up_sheets (sst_add (bump_next (up_fs (strip w) (xf_mark (wb_fs w) (cell_xf p)))) (make_val (wb_next w) v)) []
    = up_sheets (sst_add (bump_next (up_fs w (xf_mark (wb_fs w) (cell_xf p)))) (make_val (wb_next w) v)) []) by (rewrite <- !sst_add_strip; reflexivity).
  destruct old as [x|]; [|exact Q]. rewrite <- !cell_delete_strip. f_equal. exact Q.
Qed.
Lemma note_strip w k r c a t : mapr strip (api_note (strip w) k r c a t) = mapr strip (api_note w k r c a t).
Proof.
  unfold api_note. set (f := fun s => Ok _). set (g := fun s => Ok (up_fs w _, _)).
  assert (S : mapr strip (on_sheet (strip w) k f) = mapr strip (on_sheet w k g)).
  { apply on_sheet_strip. intros s E. unfold f, g. cbn [mapr]. f_equal. unfold strips. cbn [fst snd]. change (wb_fs (strip w)) with (wb_fs w). f_equal.
    - change (sh_notes (strip_sheet s)) with (map strip_note (sh_notes s)). pose proof (find_note_strip r c (sh_notes s)) as F.
      destruct (find _ (map strip_note (sh_notes s))), (find _ (sh_notes s)); try discriminate F; reflexivity.
    - unfold strip_sheet, add_note, with_notes. cbn. rewrite note_put_strip. reflexivity. }
  change (wb_sheets (strip w)) with (map strip_sheet (wb_sheets w)). change (wb_bs (strip w)) with (wb_bs w). rewrite nth_error_map.
  destruct (on_sheet (strip w) k f) as [w1| |], (on_sheet w k g) as [w2| |]; cbn [mapr bind] in *; try discriminate S; try reflexivity.
  apply ok_inj in S. destruct (nth_error (wb_sheets w) k) as [s|]; cbn [option_map]; [|reflexivity].
  change (sh_index (strip_sheet s)) with (sh_index s). destruct (nth_error (wb_bs w) _) as [b|]; [|reflexivity]. cbn [mapr]. f_equal.
  assert (U : forall v i, strip (up_bs v (upd i (bump_notes b) (wb_bs v))) = up_bs (strip v) (upd i (bump_notes b) (wb_bs (strip v)))) by reflexivity.
  rewrite !U, S. reflexivity.
Qed.
Lemma cellop_strip w k r c o : mapr strip (api_cellop (strip w) k r c o) = mapr strip (api_cellop w k r c o).
Proof.
  unfold api_cellop, on_cell. apply on_sheet_strip. intros s E. change (find_cell (strip_sheet s) r c) with (find_cell s r c).
  destruct (find_cell s r c) as [x|]; [|reflexivity]. change (wb_fs (strip w)) with (wb_fs w). destruct (cellop_apply o (wb_fs w) (c_xf x)) as [[fs q]| |]; try reflexivity.
  cbn [bind mapr]. f_equal. unfold strips. cbn [fst snd]. f_equal. unfold strip_sheet, set_cells, with_notes. cbn. rewrite map_map. reflexivity.
Qed.
Lemma mapr_eq (f : wb -> res wb) : (forall w, mapr strip (f (strip w)) = mapr strip (f w)) -> forall a b, strip a = strip b -> mapr strip (f a) = mapr strip (f b).
Proof. intros H a b E. rewrite <- H, E. apply H. Qed.
Lemma bind_strip (f g : wb -> res wb) : (forall w, mapr strip (f (strip w)) = mapr strip (f w)) -> (forall w, mapr strip (g (strip w)) = mapr strip (g w)) ->
  forall w, mapr strip (bind (f (strip w)) g) = mapr strip (bind (f w) g).
Proof.
  intros F G w. specialize (F w). destruct (f (strip w)) as [a| |], (f w) as [b| |]; cbn [mapr bind] in *; try discriminate F; try reflexivity.
  apply (mapr_eq g G). apply ok_inj in F. exact F.
Qed.
Lemma blank_strip w k r c : mapr strip (find_or_blank (strip w) k r c) = mapr strip (find_or_blank w k r c).
Proof.
  unfold find_or_blank. change (wb_sheets (strip w)) with (map strip_sheet (wb_sheets w)). rewrite nth_error_map.
  destruct (nth_error (wb_sheets w) k) as [s|]; cbn [option_map]; [|reflexivity]. change (find_cell (strip_sheet s) r c) with (find_cell s r c).
  destruct (find_cell s r c); [cbn [mapr]; rewrite strip_twice; reflexivity|apply cell_strip].
Qed.
Lemma fold_strip {A} (f : wb -> A -> res wb) l : (forall w a, mapr strip (f (strip w) a) = mapr strip (f w a)) ->
  forall w, mapr strip (fold_res f l (strip w)) = mapr strip (fold_res f l w).
Proof.
  intro H. induction l as [|a l IH]; intro w; cbn [fold_res]; [cbn [mapr]; rewrite strip_twice; reflexivity|].
  apply (bind_strip (fun w => f w a) (fold_res f l)); auto.
Qed.
Lemma call_strip w q : mapr strip (api_call (strip w) q) = mapr strip (api_call w q).
Proof.
  destruct q; cbn [api_call].
  - cbn [mapr]. f_equal. unfold strip, api_sheet, up_sheets, up_bs. cbn. rewrite !map_app, map_strip_twice. unfold zlen. rewrite map_length. reflexivity.
  - apply cell_strip.
  - apply note_strip.
  - apply cellop_strip.
  - unfold api_range. destruct (negb _); [reflexivity|]. destruct (_ || _)%bool; [reflexivity|]. apply fold_strip. intros w' [r c]. cbn [fst snd].
    apply (bind_strip (fun w => find_or_blank w k r c) (fun w => api_cellop w k r c o)); intro; [apply blank_strip|apply cellop_strip].
  - apply on_sheet_strip. intros s E. cbn [mapr]. f_equal. unfold strips. cbn [fst snd]. f_equal. unfold sheet_merge, strip_sheet, set_merged, with_notes. cbn. rewrite map_map. reflexivity.
  - apply on_sheet_strip. intros s E. change (wb_fs (strip w)) with (wb_fs w). destruct (negb _); [reflexivity|]. cbn [mapr]. f_equal. unfold strips. cbn [fst snd]. f_equal.
    unfold sheet_colwidth, strip_sheet, set_cols, with_notes. cbn. rewrite map_map. reflexivity.
  - apply on_sheet_strip. intros s E. change (wb_fs (strip w)) with (wb_fs w). destruct (negb _); [reflexivity|]. cbn [mapr]. f_equal. unfold strips. cbn [fst snd]. f_equal.
    unfold sheet_rowheight, strip_sheet, set_heights, with_notes. cbn. rewrite map_map. reflexivity.
  - apply on_sheet_strip. intros s E. cbn [mapr]. f_equal. unfold strips. cbn [fst snd]. f_equal. unfold strip_sheet, set_defaults, with_notes. cbn. rewrite map_map. reflexivity.
  - apply on_sheet_strip. intros s E. cbn [mapr]. f_equal. unfold strips. cbn [fst snd]. f_equal. unfold strip_sheet, set_defaults, with_notes. cbn. rewrite map_map. reflexivity.
  - apply on_sheet_strip. intros s E. cbn [mapr]. f_equal. unfold strips. cbn [fst snd]. f_equal. unfold strip_sheet, set_defaults, with_notes. cbn. rewrite map_map. reflexivity.
  - change (wb_sheets (strip w)) with (map strip_sheet (wb_sheets w)). rewrite nth_error_map.
    destruct (nth_error (wb_sheets w) k) as [s|]; cbn [option_map]; [|reflexivity]. change (find_cell (strip_sheet s) row col) with (find_cell s row col).
    destruct (find_cell s row col); [|reflexivity].
    apply on_sheet_strip. intros s' E. cbn [mapr]. f_equal. unfold strips. cbn [fst snd]. f_equal. unfold sheet_hyperlink, strip_sheet, set_links, with_notes. cbn. rewrite map_map. reflexivity.
  - apply on_sheet_strip. intros s E. cbn [mapr]. f_equal. unfold strips. cbn [fst snd]. f_equal. unfold sheet_validate, strip_sheet, set_dvs, with_notes. cbn. rewrite map_map. reflexivity.
  - change (wb_sheets (strip w)) with (map strip_sheet (wb_sheets w)). rewrite nth_error_map.
    destruct (nth_error (wb_sheets w) k) as [s|]; cbn [option_map]; [|reflexivity]. cbn [mapr]. f_equal. unfold strip, up_w1, up_sheets. cbn. rewrite map_strip_twice. reflexivity.
  - unfold api_setcolor. change (wb_palette (strip w)) with (wb_palette w). destruct (colors_set _ _ _ _ _) as [[|] pal]; cbn [mapr]; f_equal; [|apply strip_twice].
    unfold strip, up_pal, up_sheets. cbn. rewrite map_strip_twice. reflexivity.
  - cbn [mapr]. f_equal. unfold strip, up_w1, up_sheets. cbn. rewrite map_strip_twice. reflexivity.
  - cbn [mapr]. f_equal. unfold strip, up_w1, up_sheets. cbn. rewrite map_strip_twice. reflexivity.
  - cbn [mapr]. f_equal. unfold strip, up_w1, up_sheets. cbn. rewrite map_strip_twice. reflexivity.
  - cbn [mapr]. f_equal. unfold strip, up_w1, up_sheets. cbn. rewrite map_strip_twice. reflexivity.
  - cbn [mapr]. f_equal. unfold strip, up_fs, up_sheets. cbn [wb_fs wb_sheets wb_palette wb_labels wb_w1 wb_bs wb_next]. rewrite map_strip_twice. reflexivity.
  - change (wb_fs (strip w)) with (wb_fs w). destruct (wb_fontnum (wb_fs w) n) as [[fs i]| |]; try reflexivity. cbn [bind mapr]. f_equal. unfold strip, up_fs, up_sheets. cbn [wb_fs wb_sheets wb_palette wb_labels wb_w1 wb_bs wb_next]. rewrite map_strip_twice. reflexivity.
  - cbn [mapr]. f_equal. unfold strip, up_fs, up_sheets. cbn [wb_fs wb_sheets wb_palette wb_labels wb_w1 wb_bs wb_next]. rewrite map_strip_twice. reflexivity.
  - change (wb_fs (strip w)) with (wb_fs w). destruct (wb_xformat (wb_fs w) fnt fmt) as [[fs i]| |]; try reflexivity. cbn [bind mapr]. f_equal. unfold strip, up_fs, up_sheets. cbn [wb_fs wb_sheets wb_palette wb_labels wb_w1 wb_bs wb_next]. rewrite map_strip_twice. reflexivity.
  - change (wb_fs (strip w)) with (wb_fs w). destruct (xf_user (wb_fs w) p o) as [fs| |]; try reflexivity. cbn [bind mapr]. f_equal. unfold strip, up_fs, up_sheets. cbn [wb_fs wb_sheets wb_palette wb_labels wb_w1 wb_bs wb_next]. rewrite map_strip_twice. reflexivity.
  - change (wb_fs (strip w)) with (wb_fs w). destruct (font_set (wb_fs w) i o) as [fs| |]; try reflexivity. cbn [bind mapr]. f_equal. unfold strip, up_fs, up_sheets. cbn [wb_fs wb_sheets wb_palette wb_labels wb_w1 wb_bs wb_next]. rewrite map_strip_twice. reflexivity.
Qed.

(* ------------------------------------------------------------------ *)
(** * What is kept *)

Lemma strip_eq_wb a b : strip a = strip b ->
  wb_fs a = wb_fs b /\ wb_palette a = wb_palette b /\ wb_labels a = wb_labels b /\ wb_w1 a = wb_w1 b /\ wb_bs a = wb_bs b /\ wb_next a = wb_next b
  /\ map strip_sheet (wb_sheets a) = map strip_sheet (wb_sheets b).
Proof.
  intro H. repeat split; [exact (f_equal wb_fs H)|exact (f_equal wb_palette H)|exact (f_equal wb_labels H)|exact (f_equal wb_w1 H)|exact (f_equal wb_bs H)|exact (f_equal wb_next H)|exact (f_equal wb_sheets H)].
Qed.
Record alike (s s' : sheet) : Prop := {
  al_index : sh_index s = sh_index s'; al_cells : sh_cells s = sh_cells s'; al_notes : map strip_note (sh_notes s) = map strip_note (sh_notes s');
  al_heights : sh_heights s = sh_heights s'; al_cols : sh_cols s = sh_cols s'; al_merged : sh_merged s = sh_merged s'; al_links : sh_links s = sh_links s';
  al_dvs : sh_dvs s = sh_dvs s'; al_minr : sh_minr s = sh_minr s'; al_maxr : sh_maxr s = sh_maxr s'; al_minc : sh_minc s = sh_minc s'; al_maxc : sh_maxc s = sh_maxc s';
  al_defrh : sh_defrh s = sh_defrh s'; al_defcw : sh_defcw s = sh_defcw s'; al_rsplit : sh_rsplit s = sh_rsplit s'; al_csplit : sh_csplit s = sh_csplit s';
  al_spid : sh_spid s = sh_spid s'; al_calc : sh_calc s = sh_calc s'; al_sizes : sh_sizes s = sh_sizes s' }.
Lemma strip_alike s s' : strip_sheet s = strip_sheet s' -> alike s s'.
Proof.
  intro H. constructor; [exact (f_equal sh_index H)|exact (f_equal sh_cells H)|exact (f_equal sh_notes H)|exact (f_equal sh_heights H)|exact (f_equal sh_cols H)
   |exact (f_equal sh_merged H)|exact (f_equal sh_links H)|exact (f_equal sh_dvs H)|exact (f_equal sh_minr H)|exact (f_equal sh_maxr H)|exact (f_equal sh_minc H)|exact (f_equal sh_maxc H)
   |exact (f_equal sh_defrh H)|exact (f_equal sh_defcw H)|exact (f_equal sh_rsplit H)|exact (f_equal sh_csplit H)|exact (f_equal sh_spid H)|exact (f_equal sh_calc H)|exact (f_equal sh_sizes H)].
Qed.
Lemma sheets_alike : forall l l', map strip_sheet l = map strip_sheet l' -> Forall2 alike l l'.
Proof.
  induction l as [|s l IH]; intros [|s' l'] H; cbn [map] in H; try discriminate H; constructor.
  - apply strip_alike. exact (f_equal (fun x => hd s x) H).
  - apply IH. exact (f_equal (@tl sheet) H).
Qed.
Lemma alike_refl s : alike s s.
Proof. constructor; reflexivity. Qed.
Lemma sorted_strip l : StronglySorted nlt (map strip_note l) <-> StronglySorted nlt l.
Proof.
  induction l as [|n l IH]; cbn [map]; [split; constructor|]. split; intro H; apply StronglySorted_inv in H; destruct H as [S F]; constructor; try (apply IH; exact S).
  - rewrite Forall_map in F. exact F.
  - rewrite Forall_map. exact F.
Qed.
Lemma forall_strip (P : note -> Prop) l : (forall n, P (strip_note n) <-> P n) -> (Forall P (map strip_note l) <-> Forall P l).
Proof. intro H. rewrite Forall_map. split; apply Forall_impl; intros n; apply H. Qed.
Lemma alike_inv s s' : alike s s' -> sheet_inv s -> sheet_inv s'.
Proof.
  intros A [C K N T Co H Sp]. constructor; rewrite <- ?(al_cells _ _ A), <- ?(al_calc _ _ A), <- ?(al_sizes _ _ A), <- ?(al_cols _ _ A), <- ?(al_heights _ _ A), <- ?(al_spid _ _ A); auto.
  - apply sorted_strip. rewrite <- (al_notes _ _ A). apply sorted_strip. exact N.
  - set (P := fun n => zlen (no_author n) <= 54 /\ zlen (no_text n) <= 2048) in *. assert (Q : forall n, P (strip_note n) <-> P n) by (intro; reflexivity).
    apply (forall_strip P _ Q). rewrite <- (al_notes _ _ A). apply (forall_strip P _ Q). exact T.
Qed.
Lemma alike_places s s' : alike s s' -> places s' = places s.
Proof.
  intro A. unfold places. rewrite (al_cells _ _ A). f_equal. pose proof (f_equal (map (fun n => (no_row n, no_col n))) (al_notes _ _ A)) as E. rewrite !map_map in E. symmetry. exact E.
Qed.
Lemma alike_tight s s' : alike s s' -> tight s -> tight s'.
Proof. intros A T. apply (tight_same s); auto; try (symmetry; apply A). apply alike_places. exact A. Qed.
Lemma Forall_2 {A B} (R : A -> B -> Prop) (P : A -> Prop) (Q : B -> Prop) l l' : Forall2 R l l' -> (forall a b, R a b -> P a -> Q b) -> Forall P l -> Forall Q l'.
Proof. intros F H. induction F; intro G; inversion G; subst; constructor; eauto. Qed.
Lemma nth_2 {A B} (R : A -> B -> Prop) l l' : Forall2 R l l' -> forall k b, nth_error l' k = Some b -> exists a, nth_error l k = Some a /\ R a b.
Proof. induction 1; intros [|k] c E; cbn in *; try discriminate E; eauto. injection E as <-. eauto. Qed.
Lemma len_2 {A B} (R : A -> B -> Prop) l l' : Forall2 R l l' -> length l = length l'.
Proof. induction 1; cbn; auto. Qed.
Lemma strip_inv a b : strip a = strip b -> winv2 a -> winv2 b.
Proof.
  intros E [I T]. apply strip_eq_wb in E. destruct E as (E1 & E2 & E3 & E4 & E5 & E6 & E7). apply sheets_alike in E7. destruct I as [I1 I2 I3 I4 I5 I6 I7 I8 I9 I10].
  constructor; [|eapply Forall_2; [exact E7| |exact T]; apply alike_tight]. constructor; rewrite <- ?E1, <- ?E2, <- ?E3, <- ?E5, <- ?E6; auto.
  - rewrite I1. exact (len_2 _ _ _ E7).
  - intros k s H. destruct (nth_2 _ _ _ E7 _ _ H) as (s0 & H0 & A). rewrite <- (al_index _ _ A). apply I2. exact H0.
  - eapply Forall_2; [exact E7|apply alike_inv|exact I3].
  - eapply Forall_2; [exact E7| |exact I4]. intros s s' A. unfold sheet_xfs. rewrite (al_cells _ _ A), (al_cols _ _ A), (al_heights _ _ A). auto.
  - enough (Q : flat_map slabels (wb_sheets b) = flat_map slabels (wb_sheets a)) by (rewrite Q; exact I5).
    clear - E7. induction E7 as [|s s' l l' A F IH]; [reflexivity|]. cbn [flat_map]. rewrite IH. unfold slabels. rewrite (al_cells _ _ A). reflexivity.
Qed.
Lemma strip_limits B a b : strip a = strip b -> limits B a -> limits B b.
Proof.
  intros E [L1 L2 L3 L4 L5 L6 L7 L8]. apply strip_eq_wb in E. destruct E as (E1 & E2 & E3 & E4 & E5 & E6 & E7). apply sheets_alike in E7. pose proof (len_2 _ _ _ E7) as Ln.
  constructor; rewrite <- ?E1, <- ?E2, <- ?E3, <- ?E5, <- ?E6; auto.
  - intro N. rewrite N in E7. inversion E7; subst. congruence.
  - unfold zlen in *. rewrite <- Ln. exact L3.
  - eapply Forall_2; [exact E7| |exact L8]. intros s s' A [S1 S2 S3 S4 S5]. constructor; rewrite <- ?(al_cells _ _ A), <- ?(al_heights _ _ A), <- ?(al_links _ _ A), <- ?(al_dvs _ _ A); auto.
Qed.

(* ------------------------------------------------------------------ *)
(** * The program without the looks *)

Lemma on_note_inv w k r c f w' : (forall n, strip_note (f n) = strip_note n) -> on_note w k r c f = Ok w' ->
  strip w' = strip w /\ exists s, nth_error (wb_sheets w) k = Some s /\ existsb (note_at r c) (sh_notes s) = true
    /\ wb_sheets w' = upd k (with_notes s (map (fun n => if note_at r c n then f n else n) (sh_notes s))) (wb_sheets w).
Proof.
  intros F H. unfold on_note, on_sheet in H. destruct (nth_error (wb_sheets w) k) as [s|] eqn:E; [|discriminate H].
  destruct (existsb _ _) eqn:X; [|discriminate H]. cbn [bind] in H. apply ok_inj in H. subst w'. split; [|exists s; auto].
  unfold strip, up_sheets. cbn. f_equal. rewrite map_upd.
  assert (Q : strip_sheet (with_notes s (map (fun n => if note_at r c n then f n else n) (sh_notes s))) = strip_sheet s).
  { unfold strip_sheet, with_notes. cbn. rewrite map_map. f_equal. apply map_ext. intro n. destruct (note_at r c n); auto. }
  rewrite Q. clear - E. revert k E. induction (wb_sheets w) as [|x l IH]; intros [|k] E; cbn in *; try discriminate E; [injection E as ->; reflexivity|]. f_equal. auto.
Qed.
Lemma plain_snoc p x : plain (p ++ [x]) = plain p ++ match x with NCall q => [q] | _ => [] end.
Proof. unfold plain. rewrite flat_map_app. cbn [flat_map]. rewrite app_nil_r. reflexivity. Qed.
Lemma ndoc_snoc p x w' : ndocument (p ++ [x]) = Ok w' -> exists w, ndocument p = Ok w /\ ncall_do w x = Ok w'.
Proof.
  unfold ndocument. intro H. apply bind_ok in H. destruct H as (w0 & E0 & H). rewrite fold_res_app in H.
  apply bind_ok in H. destruct H as (w & E & H). exists w. rewrite E0. cbn [bind]. split; [exact E|]. cbn [fold_res] in H.
  apply bind_ok in H. destruct H as (u & E2 & H). apply ok_inj in H. congruence.
Qed.
Lemma ndoc_app p x w w' : ndocument p = Ok w -> ncall_do w x = Ok w' -> ndocument (p ++ [x]) = Ok w'.
Proof.
  unfold ndocument. intros D C. apply bind_ok in D. destruct D as (w0 & E0 & D). rewrite E0. cbn [bind]. rewrite fold_res_app, D. cbn [bind fold_res]. rewrite C. reflexivity.
Qed.
Lemma doc_app p x w w' : document p = Ok w -> api_call w x = Ok w' -> document (p ++ [x]) = Ok w'.
Proof.
  unfold document, api_run. intros D C. apply bind_ok in D. destruct D as (w0 & E0 & D). rewrite E0. cbn [bind]. rewrite fold_res_app, D. cbn [bind fold_res]. rewrite C. reflexivity.
Qed.
Lemma ndoc_nil : ndocument [] = document [].
Proof. unfold ndocument, document, api_run. generalize wb_new. reflexivity. Qed.
Theorem ndoc_plain p w' : ndocument p = Ok w' -> exists w, document (plain p) = Ok w /\ strip w = strip w'.
Proof.
  revert w'. induction p as [|x p IH] using rev_ind; intros w' H; [exists w'; split; [rewrite <- H; symmetry; exact ndoc_nil|reflexivity]|].
  apply ndoc_snoc in H. destruct H as (w1 & H & C). destruct (IH _ H) as (w0 & D & E). rewrite plain_snoc. destruct x; cbn [ncall_do] in C.
  - pose proof (mapr_eq (fun w => api_call w q) (fun w => call_strip w q) _ _ E) as M. cbn beta in M. rewrite C in M.
    destruct (api_call w0 q) as [w2| |] eqn:C0; cbn [mapr] in M; try discriminate M. exists w2. split; [eapply doc_app; eauto|]. apply ok_inj in M. exact M.
  - rewrite app_nil_r. exists w0. split; [exact D|]. apply on_note_inv in C; [|reflexivity]. destruct C as [-> _]. exact E.
  - rewrite app_nil_r. exists w0. split; [exact D|]. apply on_note_inv in C; [|reflexivity]. destruct C as [-> _]. exact E.
Qed.
Lemma plain_typed p : Forall look_typed p -> Forall typed (plain p).
Proof. induction 1 as [|x p T F IH]; [constructor|]. unfold plain. cbn [flat_map]. destruct x; cbn [app]; auto. Qed.

(* ------------------------------------------------------------------ *)
(** * The looks *)

Definition fill_value (x : colour) : Z := match x with Scheme i => 134217728 + i | RGB r g b => Z.lor (Z.lor (Z.shiftl b 16) (Z.shiftl g 8)) r end.
Definition looked (k : nat) (p : list ncall) (n : note) : Prop :=
  no_fill n = fill_value (fill_of k p (no_row n) (no_col n))
  /\ match place_of k p (no_row n) (no_col n) with
     | Some rect => no_rect n = rect
     | None => nr_col1 (no_rect n) = (no_col n mod 65536 + 1) mod 65536 /\ nr_row1 (no_rect n) = no_row n mod 65536
     end.
Lemma fill_snoc k p x r c : fill_of k (p ++ [x]) r c = fill_step k r c (fill_of k p r c) x.
Proof. unfold fill_of. rewrite fold_left_app. reflexivity. Qed.
Lemma place_snoc k p x r c : place_of k (p ++ [x]) r c = place_step k r c (place_of k p r c) x.
Proof. unfold place_of. rewrite fold_left_app. reflexivity. Qed.
Lemma new_look r c a t : no_fill (note_new r c a t) = 134217808 /\ nr_col1 (no_rect (note_new r c a t)) = (c mod 65536 + 1) mod 65536 /\ nr_row1 (no_rect (note_new r c a t)) = r mod 65536.
Proof. unfold note_new. destruct (note_grow _ _ _). auto. Qed.
Definition elsewhere (k : nat) (n : note) (x : ncall) : Prop :=
  match x with
  | NCall (KNote k' r c _ _) | NFill k' r c _ _ _ | NRect k' r c _ => same_place k k' (no_row n) r (no_col n) c = false
  | _ => True
  end.
Lemma looked_on k p x n : elsewhere k n x -> looked k p n -> looked k (p ++ [x]) n.
Proof.
  intros E [F R]. unfold looked. rewrite fill_snoc, place_snoc. destruct x as [q| |]; cbn [elsewhere fill_step place_step] in *; [|rewrite E; auto|rewrite E; auto].
  destruct q; auto. rewrite E. auto.
Qed.
Lemma looked_call k p q n : notes_step k [] q = [] -> looked k p n -> looked k (p ++ [NCall q]) n.
Proof.
  intro N. apply looked_on. cbn [elsewhere]. destruct q; auto. cbn [notes_step] in N. unfold same_place. destruct (Nat.eqb k k0); [|reflexivity].
  exfalso. cbn [note_put] in N. discriminate N.
Qed.
Lemma looked_new k p k' r c a t : k = k' -> looked k (p ++ [NCall (KNote k' r c a t)]) (note_new r c (to16 a) (to16 t)).
Proof.
  intros <-. destruct (note_new_pos r c (to16 a) (to16 t)) as [P1 P2]. destruct (new_look r c (to16 a) (to16 t)) as (L1 & L2 & L3). unfold looked. rewrite P1, P2, fill_snoc, place_snoc.
  cbn [fill_step place_step]. assert (S : same_place k k r r c c = true) by (unfold same_place; rewrite Nat.eqb_refl; lia). rewrite S. rewrite L1, L2, L3. auto.
Qed.
Definition looks (p : list ncall) (w : wb) : Prop := forall k s n, nth_error (wb_sheets w) k = Some s -> In n (sh_notes s) -> looked k p n.
Lemma notes_step_other k l q : notes_step k [] q = [] -> notes_step k l q = l.
Proof. destruct q; cbn [notes_step]; auto. destruct (Nat.eqb k k0); auto. intro H. cbn [note_put] in H. discriminate H. Qed.
Lemma same_place_at k r c n : same_place k k (no_row n) r (no_col n) c = note_at r c n.
Proof. unfold same_place, note_at. rewrite Nat.eqb_refl. reflexivity. Qed.
Lemma looks_call p w q w' : winv2 w -> typed q -> looks p w -> api_call w q = Ok w' -> looks (p ++ [NCall q]) w'.
Proof.
  intros I T L C k s' n E' J. destruct (sheet_dec q) as [[name ->]|NS].
  - apply call_sheet in C. subst w'. change (wb_sheets (api_sheet w name)) with (wb_sheets w ++ [sheet_new (zlen (wb_sheets w) mod 65536)]) in E'.
    apply looked_call; [reflexivity|]. destruct (lt_dec k (length (wb_sheets w))) as [Lk|Lk]; [rewrite nth_error_app1 in E' by exact Lk; eapply L; eauto|].
    rewrite nth_error_app2 in E' by lia. destruct (k - length (wb_sheets w))%nat as [|m]; cbn in E'; [|destruct m; discriminate]. injection E' as <-. destruct J.
  - pose proof (call_touch _ _ _ I T NS C) as [_ T2 T3 _]. destruct (nth_error (wb_sheets w) k) as [s|] eqn:E.
    2:{ apply nth_error_None in E. assert (K : nth_error (wb_sheets w') k <> None) by congruence. apply nth_error_Some in K. lia. }
    destruct (T3 k s E) as (s2 & E2 & Ef). assert (s2 = s') by congruence. subst s2. rewrite (ef_notes _ _ _ _ Ef) in J.
    assert (Q : notes_step k [] q = [] \/ exists r c a t, q = KNote k r c a t).
    { destruct q; auto. cbn [notes_step]. destruct (Nat.eqb k k0) eqn:K; auto. apply Nat.eqb_eq in K. subst k0. right. eauto. }
    destruct Q as [Q|(r & c & a & t & ->)].
    + rewrite notes_step_other in J by exact Q. apply looked_call; [exact Q|]. eapply L; eauto.
    + cbn [notes_step] in J. rewrite Nat.eqb_refl in J. pose proof (wi_sheets _ (w2_inv _ I)) as Si. rewrite Forall_forall in Si. pose proof (si_notes _ (Si s (nth_error_In _ _ E))) as So.
      apply (note_put_iff _ _ _ So) in J. destruct J as [->|[J D]]; [apply looked_new; reflexivity|]. destruct (note_new_pos r c (to16 a) (to16 t)) as [P1 P2]. rewrite P1, P2 in D.
      apply looked_on; [|eapply L; eauto]. cbn [elsewhere]. unfold same_place. rewrite Nat.eqb_refl. destruct (Z.eqb_spec (no_row n) r), (Z.eqb_spec (no_col n) c); auto. subst. congruence.
Qed.
Lemma looks_note p w k r c f x w' : (forall n, strip_note (f n) = strip_note n) -> looks p w -> on_note w k r c f = Ok w' ->
  (forall n, looked k p n -> note_at r c n = true -> looked k (p ++ [x]) (f n)) ->
  (forall k' n, (k' <> k \/ note_at r c n = false) -> elsewhere k' n x) -> looks (p ++ [x]) w'.
Proof.
  intros F L C Y N k' s' n E' J. apply on_note_inv in C; [|exact F]. destruct C as (_ & s & E & _ & W). rewrite W in E'.
  destruct (Nat.eq_dec k' k) as [->|D].
  - assert (U : nth_error (upd k (with_notes s (map (fun n => if note_at r c n then f n else n) (sh_notes s))) (wb_sheets w)) k = Some (with_notes s (map (fun n => if note_at r c n then f n else n) (sh_notes s)))).
    { clear - E. revert k E. induction (wb_sheets w) as [|y l IH]; intros [|k] E; cbn in *; try discriminate E; auto. }
    rewrite U in E'. apply some_inj in E'. subst s'. cbn [sh_notes with_notes] in J. apply in_map_iff in J. destruct J as (m & <- & J). pose proof (L _ _ _ E J) as Lm.
    destruct (note_at r c m) eqn:A; [apply Y; auto|]. apply looked_on; auto.
  - assert (U : forall y, nth_error (upd k y (wb_sheets w)) k' = nth_error (wb_sheets w) k').
    { intro y. clear - D. revert k k' D. induction (wb_sheets w) as [|z l IH]; intros [|k] [|k'] D; cbn; auto. congruence. }
    rewrite U in E'. apply looked_on; [auto|]. eapply L; eauto.
Qed.
Lemma at_place r c n : note_at r c n = true -> no_row n = r /\ no_col n = c.
Proof. unfold note_at. lia. Qed.
Lemma same_off k k' r c n : k' <> k \/ note_at r c n = false -> same_place k' k (no_row n) r (no_col n) c = false.
Proof. unfold same_place, note_at. intros [H|H]; [apply Nat.eqb_neq in H; rewrite H; reflexivity|]. destruct (Nat.eqb k' k); [exact H|reflexivity]. Qed.
Theorem ndoc_looks p w' : Forall look_typed p -> ndocument p = Ok w' -> winv2 w' /\ looks p w'.
Proof.
  intros T H. split.
  { destruct (ndoc_plain _ _ H) as (w & D & E). apply (strip_inv w w' E). apply (mn_inv _ _ (run_means _ _ (plain_typed _ T) D)). }
  revert w' H. induction p as [|x p IH] using rev_ind; intros w' H.
  - rewrite ndoc_nil in H. apply document_nil in H. destruct (wb_new_sheets _ H) as (Es & _). intros k s n E. rewrite Es in E. destruct k; discriminate.
  - apply Forall_app in T. destruct T as [T Tx]. inversion Tx; subst. apply ndoc_snoc in H. destruct H as (w1 & H & C). specialize (IH T _ H).
    assert (I : winv2 w1). { destruct (ndoc_plain _ _ H) as (w & D & E). apply (strip_inv w w1 E). apply (mn_inv _ _ (run_means _ _ (plain_typed _ T) D)). }
    destruct x; cbn [ncall_do] in C.
    + eapply looks_call; eauto.
    + eapply looks_note; [| exact IH|exact C| |]; [reflexivity| |].
      * intros n [F R] A. apply at_place in A. destruct A as [A1 A2]. unfold looked. rewrite fill_snoc, place_snoc. cbn [fill_step place_step note_fill no_row no_col no_rect no_fill].
        assert (S : same_place k k (no_row n) row (no_col n) col = true) by (unfold same_place; rewrite Nat.eqb_refl; lia). rewrite S. split; [reflexivity|exact R].
      * intros k' n D. cbn [elsewhere]. apply same_off. exact D.
    + eapply looks_note; [| exact IH|exact C| |]; [reflexivity| |].
      * intros n [F R] A. apply at_place in A. destruct A as [A1 A2]. unfold looked. rewrite fill_snoc, place_snoc. cbn [fill_step place_step note_rect no_row no_col no_rect no_fill].
        assert (S : same_place k k (no_row n) row (no_col n) col = true) by (unfold same_place; rewrite Nat.eqb_refl; lia). rewrite S. split; [exact F|reflexivity].
      * intros k' n D. cbn [elsewhere]. apply same_off. exact D.
Qed.
