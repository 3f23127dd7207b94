(** Saving more than once: the state a save leaves behind, and what later calls and saves
    see of it. *)
From Coq Require Import ZArith List Bool Lia ZifyBool ZifyNat.
From Verif Require Import Bytes UnitModel RecModel SheetModel XfModel WbModel RecProofs RecFrames SheetProofs SheetTrace GlobTrace WbProofs ApiModel ApiInv ApiEff
  SpecApi SpecSaved SaveOk SaveRecs SaveMeans DocLimits SavedView.
Import ListNotations.
Local Open Scope Z_scope.

(* ------------------------------------------------------------------ *)
(** * The model *)

(** A history of calls and saves. *)
Inductive step := Do (q : call) | Save.
Fixpoint calls_of (h : list step) : list call :=
  match h with [] => [] | Do q :: t => q :: calls_of t | Save :: t => calls_of t end.

(** The workbook object between saves: the document and the members of the dump machines as
    the last save left them (workbook.h, globalrec.h, sheetrec.h: m_DumpState and the
    iterators are members and are not reset when Dump starts). *)
Record live := mkLive { lv_wb : wb; lv_dump : wdump }.
(** Each sheet object has its own machine; sheets made since the last save have a fresh one. *)
Fixpoint resume (old : list shdump) (ss : list sheet) : list shdump :=
  match ss, old with
  | [], _ => []
  | s :: t, [] => sd_new s :: resume [] t
  | s :: t, d :: o => mkSD (e_state d) s (e_col d) (e_note d) (e_noteidx d) (e_link d) (e_dv d) (e_range d) (e_rb d) :: resume o t
  end.
(** workbook.cpp 260-314, on a workbook that may have been saved before: an error for a
    workbook without sheets; otherwise estimate, then run the machine from where it is with a
    new storage.  Returns the stream written.  (The pointers from the sheet entries into the
    storage are set again by every run before they are used, so that they start empty.) *)
Definition live_save (fuel : nat) (moves : Z -> nat -> bool) (l : live) : option (res (option (list Z) * live)) :=
  let w := lv_wb l in
  let d := lv_dump l in
  match wb_sheets w with
  | [] => Some (Ok (None, l))
  | _ =>
      match sheets_estimate (wb_sheets w) with
      | Throw => Some Throw
      | UB => Some UB
      | Ok (n, sheets) =>
          let g := bk_g (wb_book w) in
          match w_run fuel (moves (n + globals_estimate g + 1000)) g (w1_active (g_w1 g))
                  (mkWD (w_state d) (w_prev d) (w_unit d) (w_real d) (w_cidx d) (w_len d) (w_off d) (w_cur d) (w_g d)
                        (resume (w_sh d) sheets) [] []) with
          | None => None
          | Some Throw => Some Throw
          | Some UB => Some UB
          | Some (Ok d1) => Some (Ok (Some (concat (w_store d1)), mkLive (up_sheets w (map e_sheet (w_sh d1))) d1))
          end
      end
  end.
Definition live_new : res live := let* w := wb_new in Ok (mkLive w (wd_new WFinish [])).
(** The streams written by the saves of a history, in order ([None]: refused). *)
Fixpoint live_run (fuel : nat) (moves : Z -> nat -> bool) (h : list step) (l : live) : option (res (list (option (list Z)) * live)) :=
  match h with
  | [] => Some (Ok ([], l))
  | Do q :: t =>
      match api_call (lv_wb l) q with
      | Ok w => live_run fuel moves t (mkLive w (lv_dump l))
      | Throw => Some Throw
      | UB => Some UB
      end
  | Save :: t =>
      match live_save fuel moves l with
      | None => None
      | Some Throw => Some Throw
      | Some UB => Some UB
      | Some (Ok (s, l1)) =>
          match live_run fuel moves t l1 with
          | Some (Ok (ss, l2)) => Some (Ok (s :: ss, l2))
          | o => o
          end
      end
  end.
(** The history [h] runs and its saves write [streams]. *)
Definition writes (moves : Z -> nat -> bool) (h : list step) (streams : list (option (list Z))) : Prop :=
  exists fuel l0 l, live_new = Ok l0 /\ live_run fuel moves h l0 = Some (Ok (streams, l)).

(* ------------------------------------------------------------------ *)
(** * Calls do not see the size cache *)

Definition rmap {A B} (f : A -> B) (r : res A) : res B := match r with Ok a => Ok (f a) | Throw => Throw | UB => UB end.
Lemma rmap_bind {A B C} (f : B -> C) (r : res A) (g : A -> res B) : rmap f (bind r g) = bind r (fun a => rmap f (g a)).
Proof. destruct r; reflexivity. Qed.
Definition plainly (s : sheet) : sheet := set_dumped s (sh_notes s) (sh_spid s) false [].
Definition forget (w : wb) : wb := up_sheets w (map plainly (wb_sheets w)).

Lemma map_upd {A B} (f : A -> B) k x : forall l, map f (upd k x l) = upd k (f x) (map f l).
Proof. induction k; intros [|y l]; cbn; auto. f_equal. apply IHk. Qed.
Lemma nth_plainly w k : nth_error (wb_sheets (forget w)) k = option_map plainly (nth_error (wb_sheets w) k).
Proof. apply nth_error_map. Qed.
Definition both (q : wb * sheet) : wb * sheet := (forget (fst q), plainly (snd q)).
Lemma on_sheet_forget w k f f' : (forall s, f' (plainly s) = rmap both (f s)) -> on_sheet (forget w) k f' = rmap forget (on_sheet w k f).
Proof.
  intro H. unfold on_sheet. rewrite nth_plainly. destruct (nth_error (wb_sheets w) k) as [s|]; [|reflexivity]. cbn [option_map].
  rewrite H. destruct (f s) as [[w1 s1]| |]; [|reflexivity|reflexivity]. cbn [rmap bind both fst snd]. f_equal. unfold forget. cbn [wb_sheets up_sheets]. rewrite map_upd. reflexivity.
Qed.
Lemma pure_forget w k f : (forall s, f (plainly s) = plainly (f s)) -> pure_sheet (forget w) k f = rmap forget (pure_sheet w k f).
Proof. intro H. unfold pure_sheet. apply on_sheet_forget. intro s. cbn. unfold both. cbn [fst snd]. rewrite H. reflexivity. Qed.
Lemma sst_forget w v : sst_add (forget w) v = forget (sst_add w v).
Proof. unfold sst_add. destruct v; try reflexivity. destruct (in_sst s); reflexivity. Qed.
Lemma delete_forget w c : cell_delete (forget w) c = forget (cell_delete w c).
Proof. unfold cell_delete. destruct (c_val c); try reflexivity. destruct (in_sst s); reflexivity. Qed.
Lemma add_cell_plainly s x : add_cell (plainly s) x = rmap (fun q => (fst q, plainly (snd q))) (add_cell s x).
Proof.
  unfold add_cell, plainly. cbn [sh_cells set_dumped]. destruct (set_insert x (sh_cells s)); [reflexivity|].
  destruct (set_erase (c_row x) (c_col x) (sh_cells s)) as [old l1]. destruct (set_insert x l1); reflexivity.
Qed.
Lemma api_cell_forget w k r c v p : api_cell (forget w) k r c v p = rmap forget (api_cell w k r c v p).
Proof.
  unfold api_cell. apply on_sheet_forget. intro s. change (wb_fs (forget w)) with (wb_fs w). destruct (negb _); [reflexivity|]. cbv zeta.
  change (wb_next (forget w)) with (wb_next w). rewrite add_cell_plainly. rewrite rmap_bind. destruct (add_cell s _) as [[old s1]| |]; [|reflexivity|reflexivity].
  cbn [rmap bind fst snd]. unfold both. cbn [fst snd]. do 2 f_equal. change (bump_next (up_fs (forget w) ?a)) with (forget (bump_next (up_fs w a))).
  rewrite sst_forget. destruct old; [apply delete_forget|reflexivity].
Qed.
Lemma find_plainly s r c : find_cell (plainly s) r c = find_cell s r c.
Proof. reflexivity. Qed.
Lemma on_cell_forget w k r c f : on_cell (forget w) k r c f = rmap forget (on_cell w k r c f).
Proof.
  unfold on_cell. apply on_sheet_forget. intro s. rewrite find_plainly. destruct (find_cell s r c) as [x|]; [|reflexivity].
  change (wb_fs (forget w)) with (wb_fs w). destruct (f (wb_fs w) (c_xf x)) as [[fs1 q]| |]; reflexivity.
Qed.
Lemma blank_forget w k r c : find_or_blank (forget w) k r c = rmap forget (find_or_blank w k r c).
Proof.
  unfold find_or_blank. rewrite nth_plainly. destruct (nth_error (wb_sheets w) k) as [s|]; [|reflexivity]. cbn [option_map]. rewrite find_plainly.
  destruct (find_cell s r c); [reflexivity|apply api_cell_forget].
Qed.
Lemma range_forget w k r1 c1 r2 c2 o : api_range (forget w) k r1 c1 r2 c2 o = rmap forget (api_range w k r1 c1 r2 c2 o).
Proof.
  unfold api_range. destruct (negb _); [reflexivity|]. destruct (_ || _)%bool; [reflexivity|]. generalize (block_of r1 c1 r2 c2). intro l. revert w.
  induction l as [|[r c] l IH]; intro w; [reflexivity|]. cbn [fold_res fst snd]. rewrite blank_forget.
  destruct (find_or_blank w k r c) as [w1| |]; [|reflexivity|reflexivity]. cbn [rmap bind]. unfold api_cellop. rewrite on_cell_forget.
  destruct (on_cell w1 k r c (cellop_apply o)) as [w2| |]; [|reflexivity|reflexivity]. cbn [rmap bind]. apply IH.
Qed.
Lemma note_forget w k r c a t : api_note (forget w) k r c a t = rmap forget (api_note w k r c a t).
Proof.
  unfold api_note. rewrite rmap_bind. match goal with |- context [on_sheet w k ?f] => rewrite (on_sheet_forget w k f) by (intro s; reflexivity) end. destruct (on_sheet w k _) as [w1| |]; [|reflexivity|reflexivity].
  cbn [rmap bind]. rewrite nth_plainly. destruct (nth_error (wb_sheets w) k) as [s|]; [|reflexivity]. cbn [option_map]. cbv zeta.
  change (sh_index (plainly s)) with (sh_index s). change (wb_bs (forget w)) with (wb_bs w). destruct (nth_error (wb_bs w) _); reflexivity.
Qed.
Theorem call_forget w q : api_call (forget w) q = rmap forget (api_call w q).
Proof.
  destruct q; cbn [api_call]; cbv zeta; try reflexivity;
    try (apply pure_forget; intro s; reflexivity); try (change (wb_fs (forget w)) with (wb_fs w)).
  - unfold api_sheet, forget. cbn [rmap]. f_equal. cbn [up_bs up_sheets wb_sheets wb_bs wb_fs wb_palette wb_labels wb_w1 wb_next]. rewrite map_app, zlen_map. reflexivity.
  - apply api_cell_forget.
  - apply note_forget.
  - apply on_cell_forget.
  - apply range_forget.
  - unfold api_colwidth. apply on_sheet_forget. intro s. change (wb_fs (forget w)) with (wb_fs w). destruct (negb _); reflexivity.
  - unfold api_rowheight. apply on_sheet_forget. intro s. change (wb_fs (forget w)) with (wb_fs w). destruct (negb _); reflexivity.
  - rewrite nth_plainly. destruct (nth_error (wb_sheets w) k) as [s|]; [|reflexivity]. cbn [option_map]. rewrite find_plainly. destruct (find_cell s row col); [|reflexivity].
    apply pure_forget. intro s'. reflexivity.
  - rewrite nth_plainly. destruct (nth_error (wb_sheets w) k) as [s|]; reflexivity.
  - unfold api_setcolor. change (wb_palette (forget w)) with (wb_palette w). destruct (colors_set _ _ _ _ _) as [[|] p]; reflexivity.
  - destruct (wb_fontnum (wb_fs w) n) as [[fs i]| |]; reflexivity.
  - destruct (wb_xformat (wb_fs w) fnt fmt) as [[fs i]| |]; reflexivity.
  - destruct (xf_user (wb_fs w) p o) as [fs| |]; reflexivity.
  - destruct (font_set (wb_fs w) i o) as [fs| |]; reflexivity.
Qed.

(* ------------------------------------------------------------------ *)
(** * Calls keep the size cache right *)

Lemma size_scan_map f : (forall x, c_row (f x) = c_row x /\ c_col (f x) = c_col x /\ c_val (f x) = c_val x) ->
  forall cells row rows n rb, size_scan (map f cells) row rows n rb =
    let '(rest, a, b, c) := size_scan cells row rows n rb in (map f rest, a, b, c).
Proof.
  intro H. assert (Rc : forall rb c, rb_cell rb (f c) = rb_cell rb c).
  { intros rb c. unfold rb_cell, cell_size. destruct (H c) as (A & B & C). rewrite ?A, ?B, ?C. reflexivity. }
  induction cells as [|c t IH]; intros row rows n rb; [reflexivity|]. cbn [map size_scan]. destruct (H c) as (A & _). rewrite A.
  destruct (c_row c =? row); [rewrite Rc; apply IH|]. destruct (MAX_ROWBLOCK <=? rows); [reflexivity|]. rewrite Rc. apply IH.
Qed.
Lemma sblocks_map f cells : (forall x, c_row (f x) = c_row x /\ c_col (f x) = c_col x /\ c_val (f x) = c_val x) -> sblocks (map f cells) = sblocks cells.
Proof.
  intro H. unfold sblocks. rewrite map_length. generalize (S (length cells)). intro n. revert cells. induction n as [|n IH]; intro cells; [reflexivity|].
  destruct cells as [|c t]; [reflexivity|]. cbn [size_blocks map]. change (f c :: map f t) with (map f (c :: t)).
  assert (E : size_block (map f (c :: t)) = let '(rb, rest) := size_block (c :: t) in (rb, map f rest)).
  { unfold size_block. cbn [map]. change (f c :: map f t) with (map f (c :: t)). destruct (H c) as (A & _). rewrite A, size_scan_map by exact H.
    destruct (size_scan (c :: t) _ _ _ _) as [[[rest a] b] d]. reflexivity. }
  rewrite E. destruct (size_block (c :: t)) as [rb rest]. f_equal. apply IH.
Qed.
Lemma upd_forall {A} (P : A -> Prop) k x : forall l, P x -> Forall P l -> Forall P (upd k x l).
Proof. induction k; intros [|y l] Hx F; cbn; auto; inversion F; subst; constructor; auto. Qed.
Lemma on_sheet_cache w k f w1 : (forall s w2 s2, f s = Ok (w2, s2) -> cache_ok s -> cache_ok s2) ->
  on_sheet w k f = Ok w1 -> Forall cache_ok (wb_sheets w) -> Forall cache_ok (wb_sheets w1).
Proof.
  intros H E F. apply on_sheet_inv in E. destruct E as (s & w2 & s1 & En & Ef & ->). cbn [up_sheets wb_sheets]. apply upd_forall; [|exact F].
  eapply H; [exact Ef|]. rewrite Forall_forall in F. apply F. eapply nth_error_In. exact En.
Qed.
Lemma pure_cache w k f w1 : (forall s, cache_ok s -> cache_ok (f s)) -> pure_sheet w k f = Ok w1 -> Forall cache_ok (wb_sheets w) -> Forall cache_ok (wb_sheets w1).
Proof. intros H. apply on_sheet_cache. intros s w2 s2 E. apply ok_inj in E. apply pair_equal_spec in E. destruct E as [_ <-]. apply H. Qed.
Lemma api_cell_cache w k r c v p w1 : api_cell w k r c v p = Ok w1 -> Forall cache_ok (wb_sheets w) -> Forall cache_ok (wb_sheets w1).
Proof.
  apply on_sheet_cache. intros s w2 s2 E _. destruct (negb _) in E; [discriminate E|]. cbv zeta in E. apply bind_ok in E. destruct E as ([old s1] & Ea & E).
  apply ok_inj in E. apply pair_equal_spec in E. destruct E as [_ <-]. unfold add_cell in Ea. left.
  destruct (set_insert _ (sh_cells s)). { apply ok_inj in Ea. apply pair_equal_spec in Ea. destruct Ea as [_ <-]. split; reflexivity. }
  destruct (set_erase _ _ _) as [o l1]. destruct (set_insert _ l1); [|discriminate Ea]. apply ok_inj in Ea. apply pair_equal_spec in Ea. destruct Ea as [_ <-]. split; reflexivity.
Qed.
Lemma on_cell_cache w k r c f w1 : on_cell w k r c f = Ok w1 -> Forall cache_ok (wb_sheets w) -> Forall cache_ok (wb_sheets w1).
Proof.
  apply on_sheet_cache. intros s w2 s2 E C. destruct (find_cell s r c); [|discriminate E]. apply bind_ok in E. destruct E as ([fs q] & _ & E).
  apply ok_inj in E. apply pair_equal_spec in E. destruct E as [_ <-]. unfold cache_ok. cbn [set_cells sh_calc sh_sizes sh_cells].
  destruct C as [C|(C1 & C2 & C3)]; [left; exact C|]. right. unfold replace_cell. rewrite sblocks_map.
  - repeat split; auto. intro E. apply map_eq_nil in E. auto.
  - intro x. destruct (_ && _)%bool; cbn; auto.
Qed.
Lemma blank_cache w k r c w1 : find_or_blank w k r c = Ok w1 -> Forall cache_ok (wb_sheets w) -> Forall cache_ok (wb_sheets w1).
Proof.
  unfold find_or_blank. destruct (nth_error (wb_sheets w) k) as [s|]; [|discriminate]. destruct (find_cell s r c); [|apply api_cell_cache].
  intro E. apply ok_inj in E. subst. auto.
Qed.
Lemma range_cache w k r1 c1 r2 c2 o w1 : api_range w k r1 c1 r2 c2 o = Ok w1 -> Forall cache_ok (wb_sheets w) -> Forall cache_ok (wb_sheets w1).
Proof.
  unfold api_range. destruct (negb _); [discriminate|]. destruct (_ || _)%bool; [discriminate|]. generalize (block_of r1 c1 r2 c2). intro l. revert w.
  induction l as [|[r c] l IH]; intros w E F. { apply ok_inj in E. subst. exact F. } cbn [fold_res fst snd] in E. apply bind_ok in E. destruct E as (w3 & E & E3).
  apply bind_ok in E. destruct E as (w2 & E1 & E2). eapply IH; [exact E3|]. eapply on_cell_cache; [exact E2|]. eapply blank_cache; eauto.
Qed.
Lemma keep_fs (P : sheet -> Prop) w f : Forall P (wb_sheets w) -> Forall P (wb_sheets (up_fs w f)).
Proof. auto. Qed.
Lemma keep_w1 (P : sheet -> Prop) w f : Forall P (wb_sheets w) -> Forall P (wb_sheets (up_w1 w f)).
Proof. auto. Qed.
Lemma keep_color (P : sheet -> Prop) w r g b i : Forall P (wb_sheets w) -> Forall P (wb_sheets (api_setcolor w r g b i)).
Proof. unfold api_setcolor. destruct (colors_set _ _ _ _ _) as [[|] p]; auto. Qed.
Lemma cache_same s s2 : sh_calc s2 = sh_calc s -> sh_sizes s2 = sh_sizes s -> sh_cells s2 = sh_cells s -> cache_ok s -> cache_ok s2.
Proof. unfold cache_ok. intros -> -> ->. auto. Qed.
Local Strategy 1000 [wb_new fstate_init wb_xformat wb_fontnum xf_user font_set wb_font add_format api_cell api_note api_range].
Theorem call_cache w q w1 : api_call w q = Ok w1 -> Forall cache_ok (wb_sheets w) -> Forall cache_ok (wb_sheets w1).
Proof.
  intros E F. destruct q; cbn [api_call] in E; cbv zeta in E;
    try (apply ok_inj in E; subst w1; first [apply keep_fs; exact F|apply keep_w1; exact F|apply keep_color; exact F]);
    try (match type of E with pure_sheet _ _ _ = _ => eapply pure_cache; [|exact E|exact F]; intros s H; (apply (cache_same s); [reflexivity|reflexivity|reflexivity|exact H]) end);
    try (match type of E with bind ?r _ = _ => apply bind_ok in E; destruct E as (x & _ & E); try destruct x; apply ok_inj in E; subst w1; apply keep_fs; exact F end).
  - apply ok_inj in E. subst w1. cbn. apply Forall_app. split; [exact F|]. constructor; [|constructor]. left. split; reflexivity.
  - eapply api_cell_cache; eauto.
  - unfold api_note in E. apply bind_ok in E. destruct E as (w2 & E1 & E). assert (F2 : Forall cache_ok (wb_sheets w2)).
    { eapply on_sheet_cache; [|exact E1|exact F]. intros s w3 s3 E3 C. apply ok_inj in E3. apply pair_equal_spec in E3. destruct E3 as [_ <-]. apply (cache_same s); [reflexivity|reflexivity|reflexivity|exact C]. }
    destruct (nth_error (wb_sheets w) k); [|discriminate E]. cbv zeta in E. destruct (nth_error (wb_bs w) _); [|discriminate E]. apply ok_inj in E. subst w1. exact F2.
  - eapply on_cell_cache; eauto.
  - eapply range_cache; eauto.
  - eapply on_sheet_cache; [|exact E|exact F]. intros s w2 s2 E2 C. destruct (negb _) in E2; [discriminate E2|]. apply ok_inj in E2. apply pair_equal_spec in E2. destruct E2 as [_ <-]. apply (cache_same s); [reflexivity|reflexivity|reflexivity|exact C].
  - eapply on_sheet_cache; [|exact E|exact F]. intros s w2 s2 E2 C. destruct (negb _) in E2; [discriminate E2|]. apply ok_inj in E2. apply pair_equal_spec in E2. destruct E2 as [_ <-]. apply (cache_same s); [reflexivity|reflexivity|reflexivity|exact C].
  - destruct (nth_error (wb_sheets w) k); [|discriminate E]. destruct (find_cell _ _ _); [|discriminate E]. eapply pure_cache; [|exact E|exact F]. intros s' H. apply (cache_same s'); [reflexivity|reflexivity|reflexivity|exact H].
  - destruct (nth_error (wb_sheets w) k); [|discriminate E]. apply ok_inj in E. subst w1. exact F.
Qed.
