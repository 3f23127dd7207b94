(** C34: saving is repeatable. *)
From Coq Require Import ZArith List Bool Lia ZifyBool ZifyNat.
From Verif Require Import Bytes UnitModel RecModel SheetModel XfModel WbModel RecProofs RecFrames SheetProofs SheetTrace GlobTrace WbProofs ApiModel ApiInv ApiEff
  SpecApi SpecSaved SaveOk SaveRecs SaveMeans DocLimits SavedView DemoDoc Resave PropsSheet PropsRows.
Import ListNotations.
Local Open Scope Z_scope.
Local Strategy 1000 [wb_new fstate_init wb_xformat wb_fontnum xf_user font_set wb_font add_format api_call].

(* ------------------------------------------------------------------ *)
(** * Statement vocabulary *)

(** The calls made before each save of a history. *)
Fixpoint points (before : list call) (h : list step) : list (list call) :=
  match h with
  | [] => []
  | Do q :: t => points (before ++ [q]) t
  | Save :: t => before :: points before t
  end.
Definition no_notes (calls : list call) : Prop := Forall (fun q => match q with KNote _ _ _ _ _ => False | _ => True end) calls.

(* ------------------------------------------------------------------ *)
(** * One save *)

Definition idle (d : wdump) : Prop :=
  w_state d = WInit /\ gd_state (w_g d) = GInit /\ Forall (fun e => e_state e = SInit /\ d_rb (e_rb e) = RBInit) (w_sh d).
Lemma resume_ready ss : forall old, Forall (fun e => e_state e = SInit /\ d_rb (e_rb e) = RBInit) old -> Forall2 sheet_ready (resume old ss) ss.
Proof.
  induction ss as [|s ss IH]; intros old F; cbn [resume]; [destruct old; constructor|]. destruct old as [|d old].
  - constructor; [repeat split|]. apply IH. constructor.
  - inversion F as [|? ? [A B] F']; subst. constructor; [repeat split; auto|]. apply IH. exact F'.
Qed.
Lemma plainly_units ls ac pos s : sheet_units ls ac pos (plainly s) = sheet_units ls ac pos s.
Proof. reflexivity. Qed.
Lemma plainly_starts g ac ss : forall pos, sheet_starts g ac pos (map plainly ss) = sheet_starts g ac pos ss.
Proof. induction ss as [|s t IH]; intro pos; [reflexivity|]. cbn [map sheet_starts]. rewrite plainly_units, IH. reflexivity. Qed.
Lemma plainly_all g ac ss : forall pos, sheets_units g ac pos (map plainly ss) = sheets_units g ac pos ss.
Proof. induction ss as [|s t IH]; intro pos; [reflexivity|]. cbn [map sheets_units]. rewrite plainly_units, IH. reflexivity. Qed.
Lemma plainly_est ss : sheets_est (map plainly ss) = sheets_est ss.
Proof. induction ss as [|s t IH]; [reflexivity|]. cbn [map sheets_est fold_right]. fold (sheets_est (map plainly t)) (sheets_est t). rewrite IH. reflexivity. Qed.
Lemma plainly_ok ls ss : Forall (sheet_ok ls) (map plainly ss) -> Forall cache_ok ss -> Forall (sheet_ok ls) ss.
Proof.
  intros F C. rewrite Forall_forall in *. intros s J. destruct (F (plainly s) (in_map _ _ _ J)) as (A & B & D & _). split; [exact A|]. split; [exact B|]. split; [exact D|]. apply C. exact J.
Qed.

Section Save.
Variables (R : Z) (moves : Z -> nat -> bool).
Hypothesis HR : 0 <= R <= 65535.
Hypothesis Calm : R <= 32819 \/ forall e n, moves e n = false.

(** The live workbook behaves as the document [calls] make. *)
Definition tracks (calls : list call) (l : live) : Prop :=
  document calls = Ok (forget (lv_wb l)) /\ Forall cache_ok (wb_sheets (lv_wb l)) /\ idle (lv_dump l).

Lemma live_save_ok calls l : Forall typed calls -> fits R calls -> tracks calls l ->
  exists f0 d, idle d /\ forall f, (f0 <= f)%nat -> live_save f moves l =
    Some (Ok (Some (concat (store_of (forget (lv_wb l)))), mkLive (up_sheets (lv_wb l) (map sheet_after (wb_sheets (lv_wb l)))) d)).
Proof.
  intros T F (D & C & I1 & I2 & I3). destruct l as [w d]. cbn [lv_wb lv_dump] in *. pose proof (run_means _ _ T D) as M. pose proof (mn_inv _ _ M) as I.
  pose proof (doc_limits R calls _ HR T F D) as L. fold (Bof R) in L. pose proof (calm_stable R moves _ HR Calm I L) as St.
  destruct (limits_ok (Bof R) (li_B _ _ L) _ I L) as (Bk & _ & _). cbv zeta in Bk.
  pose proof (li_some _ _ L) as Ne.
  unfold live_save. cbv zeta. cbn [lv_wb lv_dump]. set (g := bk_g (wb_book w)) in *. change (bk_g (wb_book (forget w))) with g in *.
  change (bactive (wb_book (forget w))) with (w1_active (g_w1 g)) in *. set (ac := w1_active (g_w1 g)) in *.
  change (bk_sheets (wb_book (forget w))) with (map plainly (wb_sheets w)) in *. change (wb_sheets (forget w)) with (map plainly (wb_sheets w)) in *.
  set (ss := wb_sheets w) in *.
  assert (Hs : store_of (forget w) = book_store g ac (map sized ss)).
  { unfold store_of. change (bk_g (wb_book (forget w))) with g. change (bactive (wb_book (forget w))) with ac. change (wb_sheets (forget w)) with (map plainly ss).
    unfold book_store. rewrite plainly_starts, plainly_all, sized_starts, sized_all. reflexivity. }
  assert (Ha : all_units g ac (map sized ss) = all_units g ac (map plainly ss)) by (unfold all_units; rewrite sized_all, plainly_all; reflexivity).
  assert (B' : book_ok g ac (map sized ss)).
  { destruct Bk as [B1 B2 B3 B4 B5 B6 B7]. constructor; auto.
    - rewrite map_length in *. exact B3.
    - intro Z0. apply map_eq_nil in Z0. apply Ne. rewrite Z0. reflexivity.
    - rewrite zlen_map in *. exact B5.
    - apply Forall_map. eapply Forall_impl; [|apply (plainly_ok _ _ B6 C)]. intros s. apply sized_ok.
    - rewrite Ha. exact B7. }
  unfold stable_for in St. change (bk_g (wb_book (forget w))) with g in St. change (bactive (wb_book (forget w))) with ac in St. change (wb_sheets (forget w)) with (map plainly ss) in St.
  unfold book_est in St. change (bk_sheets (wb_book (forget w))) with (map plainly ss) in St. change (bk_g (wb_book (forget w))) with g in St. rewrite plainly_est in St.
  rewrite Hs, <- Ha in St.
  destruct (book_run (moves (sheets_est ss + globals_estimate g + 1000)) g ac (map sized ss) (w_prev d) (w_unit d) (w_real d) (w_cidx d) (w_len d) (w_off d) (w_cur d) (w_g d)
     (resume (w_sh d) (map sized ss)) B' I2 (resume_ready _ _ I3) St) as (f0 & d' & Hr & H1 & H2 & H3 & H4).
  exists f0, d'. split.
  { split; [exact H1|]. split; [exact H3|]. clear - H4. induction H4 as [|e s a b (Q1 & Q2 & Q3) F IH]; constructor; auto. }
  intros f Hf. destruct ss as [|s0 st] eqn:Ess; [exfalso; apply Ne; reflexivity|]. rewrite <- Ess in *.
  rewrite sheets_estimate_ok by exact C. rewrite I1. rewrite (Hr f Hf). rewrite H2, <- Hs.
  assert (Ee : map e_sheet (w_sh d') = map sheet_after ss).
  { rewrite map_map in H4. clear - H4. revert H4. generalize (w_sh d').
    induction ss as [|s t IH]; intros l H; inversion H as [|e ? ? ? (Q1 & Q2 & Q3) F]; subst; [reflexivity|]. cbn [map]. rewrite Q2, sized_after. f_equal. apply IH. assumption. }
  rewrite Ee. reflexivity.
Qed.

Lemma notes_none calls k : no_notes calls -> fold_left (notes_step k) calls [] = [].
Proof.
  induction calls as [|q calls IH] using rev_ind; intro N; [reflexivity|]. apply Forall_app in N. destruct N as [N Nq]. rewrite fold_left_app. cbn [fold_left].
  rewrite IH by exact N. apply Forall_inv in Nq. destruct q; try reflexivity. destruct Nq.
Qed.
Lemma after_plainly s : sh_notes s = [] -> plainly (sheet_after s) = plainly s /\ (cache_ok s -> cache_ok (sheet_after s)).
Proof.
  intro E. split.
  - unfold plainly, sheet_after. cbn [set_dumped sh_notes sh_spid sh_calc sh_sizes]. rewrite E. reflexivity.
  - unfold cache_ok, sheet_after. cbn [set_dumped sh_calc sh_sizes sh_cells]. destruct (sh_cells s) eqn:Ec; auto. intros _. right. repeat split; discriminate.
Qed.
Lemma save_tracks calls l d : Forall typed calls -> no_notes calls -> tracks calls l -> idle d ->
  tracks calls (mkLive (up_sheets (lv_wb l) (map sheet_after (wb_sheets (lv_wb l)))) d).
Proof.
  intros T N (D & C & _) I. unfold tracks. cbn [lv_wb lv_dump].
  assert (Nn : forall s, In s (wb_sheets (lv_wb l)) -> sh_notes s = []).
  { intros s J. pose proof (run_means _ _ T D) as M. apply In_nth_error in J. destruct J as [k J].
    assert (J' : nth_error (wb_sheets (forget (lv_wb l))) k = Some (plainly s)) by (rewrite nth_plainly, J; reflexivity).
    pose proof (me_notes _ _ _ (mn_sheet _ _ M k _ J')) as E. rewrite notes_none in E by exact N. exact E. }
  split; [|split; [|exact I]].
  - rewrite D. f_equal. unfold forget. cbn [up_sheets wb_sheets]. rewrite map_map. unfold up_sheets. cbn. f_equal. apply map_ext_in. intros s J. symmetry. apply after_plainly. auto.
  - cbn [up_sheets wb_sheets]. apply Forall_map. rewrite Forall_forall in *. intros s J. apply after_plainly; auto.
Qed.

Lemma document_snoc' calls q w w1 : document calls = Ok w -> api_call w q = Ok w1 -> document (calls ++ [q]) = Ok w1.
Proof.
  unfold document. intros D A. apply bind_ok in D. destruct D as (w0 & E & D). rewrite E. cbn [bind]. unfold api_run in *.
  revert w0 E D. induction calls as [|c calls IH]; intros w0 E D.
  - cbn [app fold_res] in *. apply ok_inj in D. subst. rewrite A. reflexivity.
  - cbn [app fold_res] in *. apply bind_ok in D. destruct D as (w2 & E2 & D). rewrite E2. cbn [bind]. clear E E2. revert w2 D.
    clear w0 IH. induction calls as [|c2 calls IH]; intros w2 D; cbn [app fold_res] in *.
    + apply ok_inj in D. subst. rewrite A. reflexivity.
    + apply bind_ok in D. destruct D as (w3 & E3 & D). rewrite E3. cbn [bind]. apply IH. exact D.
Qed.
Lemma call_tracks calls l q w1 : tracks calls l -> api_call (lv_wb l) q = Ok w1 -> tracks (calls ++ [q]) (mkLive w1 (lv_dump l)).
Proof.
  intros (D & C & I) E. split; [|split; [|exact I]]; cbn [lv_wb].
  - eapply document_snoc'; [exact D|]. rewrite call_forget, E. reflexivity.
  - eapply call_cache; eauto.
Qed.
Lemma no_points before h : points before h = [] -> forall f l ss l1, live_run f moves h l = Some (Ok (ss, l1)) -> ss = [].
Proof.
  revert before. induction h as [|[q|] h IH]; intros before E f l ss l1 H; cbn [points live_run] in *.
  - apply some_inj, ok_inj in H. apply pair_equal_spec in H. destruct H as [<- _]. reflexivity.
  - destruct (api_call (lv_wb l) q); [|discriminate H|discriminate H]. eapply IH; eauto.
  - discriminate E.
Qed.
Lemma live_saves f calls l r : Forall typed calls -> fits R calls -> tracks calls l -> live_save f moves l = Some r ->
  exists d, idle d /\ r = Ok (Some (concat (store_of (forget (lv_wb l)))), mkLive (up_sheets (lv_wb l) (map sheet_after (wb_sheets (lv_wb l)))) d).
Proof.
  intros T F Tr H. destruct (live_save_ok _ _ T F Tr) as (f0 & d & I & E). exists d. split; [exact I|].
  specialize (E (Nat.max f0 f) ltac:(lia)). apply some_inj. rewrite <- E, <- H. symmetry. unfold live_save in *. cbv zeta in *.
  destruct (wb_sheets (lv_wb l)); [reflexivity|]. destruct (sheets_estimate _) as [[n ss]| |]; try reflexivity.
  destruct (w_run f _ _ _ _) as [x|] eqn:W; [|discriminate H]. rewrite (w_run_more _ _ _ _ (Nat.max f0 f) _ _ W) by lia. reflexivity.
Qed.
Lemma removelast_cons {A} (x : A) l : l <> [] -> removelast (x :: l) = x :: removelast l.
Proof. destruct l; [congruence|reflexivity]. Qed.
Lemma typed_mid a b : Forall typed (a ++ b) -> Forall typed a.
Proof. intro H. apply Forall_app in H. apply H. Qed.

Lemma run_writes f h : forall before l ss l1, tracks before l -> Forall typed (before ++ calls_of h) -> Forall (fits R) (points before h) ->
  Forall no_notes (removelast (points before h)) -> live_run f moves h l = Some (Ok (ss, l1)) ->
  Forall2 (fun calls s => exists stream, s = Some stream /\ saved moves calls stream) (points before h) ss.
Proof.
  induction h as [|[q|] h IH]; intros before l ss l1 Tr T F N H; cbn [points live_run calls_of] in *.
  - apply some_inj, ok_inj in H. apply pair_equal_spec in H. destruct H as [<- _]. constructor.
  - destruct (api_call (lv_wb l) q) as [w1| |] eqn:E; [|discriminate H|discriminate H]. eapply IH; [|rewrite <- app_assoc; exact T|exact F|exact N|exact H].
    eapply call_tracks; eauto.
  - inversion F as [|? ? Fb Ft]; subst. pose proof (typed_mid _ _ T) as Tb. destruct (live_save f moves l) as [r|] eqn:E; [|discriminate H].
    destruct (live_saves _ _ _ _ Tb Fb Tr E) as (d & Id & ->). destruct (live_run f moves h _) as [[[ss1 l2]| |]|] eqn:E2; [|discriminate H|discriminate H|discriminate H].
    apply some_inj, ok_inj in H. apply pair_equal_spec in H. destruct H as [<- _]. constructor.
    + eexists. split; [reflexivity|]. destruct Tr as (D & _). apply (so_saved R). apply view_saved; auto.
    + destruct (points before h) as [|p ps] eqn:Ep.
      * rewrite (no_points _ _ Ep _ _ _ _ E2). constructor.
      * rewrite <- Ep in *. rewrite removelast_cons in N by (rewrite Ep; discriminate). inversion N; subst. eapply IH; [|exact T|exact Ft|assumption|exact E2].
        apply save_tracks; auto.
Qed.
Lemma live_run_more h : forall f f1 l r, live_run f moves h l = Some r -> (f <= f1)%nat -> live_run f1 moves h l = Some r.
Proof.
  induction h as [|[q|] h IH]; intros f f1 l r H L; cbn [live_run] in *; auto.
  - destruct (api_call (lv_wb l) q); auto. eapply IH; eauto.
  - assert (E : forall x, live_save f moves l = Some x -> live_save f1 moves l = Some x).
    { intros x. unfold live_save. cbv zeta. destruct (wb_sheets (lv_wb l)); [auto|]. destruct (sheets_estimate _) as [[n ss]| |]; auto.
      destruct (w_run f _ _ _ _) as [y|] eqn:W; [|discriminate]. rewrite (w_run_more _ _ _ _ _ _ _ W L). auto. }
    destruct (live_save f moves l) as [x|]; [|discriminate H]. rewrite (E x eq_refl). destruct x as [[s0 l1]| |]; auto.
    destruct (live_run f moves h l1) as [y|] eqn:W; [|discriminate H]. rewrite (IH _ _ _ _ W L). exact H.
Qed.
Lemma fold_app {A S} (f : S -> A -> res S) a b : forall s, fold_res f (a ++ b) s = let* s1 := fold_res f a s in fold_res f b s1.
Proof. induction a as [|x a IH]; intro s; [reflexivity|]. cbn [app fold_res]. destruct (f s x); cbn [bind]; auto. Qed.
Lemma points_end h : forall before, points before (h ++ [Save]) <> [].
Proof. induction h as [|[q|] h IH]; intro b0; cbn [app points]; [discriminate|apply IH|discriminate]. Qed.
Lemma run_exists h : forall before l w, tracks before l -> Forall typed (before ++ calls_of h) -> Forall (fits R) (points before (h ++ [Save])) ->
  Forall no_notes (removelast (points before (h ++ [Save]))) -> api_run (calls_of h) (forget (lv_wb l)) = Ok w ->
  exists f ss l1, live_run f moves (h ++ [Save]) l = Some (Ok (ss, l1)).
Proof.
  induction h as [|[q|] h IH]; intros before l w Tr T F N H; cbn [app points live_run calls_of] in *.
  - inversion F as [|? ? Fb Ft]; subst. pose proof (typed_mid _ _ T) as Tb. destruct (live_save_ok _ _ Tb Fb Tr) as (f0 & d & Id & E).
    exists f0. rewrite E by lia. eexists _, _. reflexivity.
  - cbn [api_run fold_res] in H. apply bind_ok in H. destruct H as (w1 & E & H). rewrite call_forget in E.
    destruct (api_call (lv_wb l) q) as [w2| |] eqn:E2; [|discriminate E|discriminate E]. cbn [rmap] in E. apply ok_inj in E. subst w1.
    destruct (IH (before ++ [q]) (mkLive w2 (lv_dump l)) w) as (f & ss & l1 & E); auto.
    + eapply call_tracks; eauto.
    + rewrite <- app_assoc. exact T.
    + exists f, ss, l1. exact E.
  - inversion F as [|? ? Fb Ft]; subst. pose proof (typed_mid _ _ T) as Tb. destruct (live_save_ok _ _ Tb Fb Tr) as (f0 & d & Id & E).
    rewrite removelast_cons in N by apply points_end. inversion N; subst.
    destruct (IH before (mkLive (up_sheets (lv_wb l) (map sheet_after (wb_sheets (lv_wb l)))) d) w) as (f & ss & l1 & E1); auto.
    + apply save_tracks; auto.
    + match goal with Hn : no_notes before |- _ => destruct (save_tracks _ _ d Tb Hn Tr Id) as (D2 & _) end. destruct Tr as (D & _). rewrite D in D2. apply ok_inj in D2. rewrite <- D2. exact H.
    + exists (Nat.max f0 f), (Some (concat (store_of (forget (lv_wb l)))) :: ss), l1. rewrite E by lia. rewrite (live_run_more _ _ _ _ _ E1) by lia. reflexivity.
Qed.
End Save.

Lemma new_tracks l : live_new = Ok l -> tracks [] l.
Proof.
  unfold live_new. intro H. apply bind_ok in H. destruct H as (w & E & H). apply ok_inj in H. rewrite <- H. pose proof (wb_new_sheets _ E) as (Es & _).
  unfold tracks. cbn [lv_wb lv_dump]. split; [|split].
  - unfold document. rewrite E. cbn [bind api_run fold_res]. f_equal. unfold forget. rewrite Es. destruct w. cbn in Es. rewrite Es. reflexivity.
  - rewrite Es. constructor.
  - repeat split. constructor.
Qed.

(* ------------------------------------------------------------------ *)
(** * C34 *)

(** In a history of calls and saves without notes (notes may be added after the last save but
    one), every save writes the stream that a single save after the same calls would write;
    in particular saving does not change what later saves write, and saving twice in a row
    writes the same stream twice.
    Missing for the full property: documents with notes, see [C34_saving_repeatable_refuted]. *)
Theorem C34_saving_repeatable_partial R moves h streams : 0 <= R <= 65535 -> R <= 32819 \/ (forall e n, moves e n = false) ->
  Forall typed (calls_of h) -> Forall (fits R) (points [] h) -> Forall no_notes (removelast (points [] h)) ->
  writes moves h streams -> Forall2 (fun calls s => exists stream, s = Some stream /\ saved moves calls stream) (points [] h) streams.
Proof.
  intros HR C T F N (f & l0 & l & E & H). apply new_tracks in E. eapply run_writes; eauto.
Qed.
Print Assumptions C34_saving_repeatable_partial.
(** The saves succeed if the calls do. *)
Theorem C34_saves_succeed_partial R moves h w : 0 <= R <= 65535 -> R <= 32819 \/ (forall e n, moves e n = false) ->
  Forall typed (calls_of h) -> Forall (fits R) (points [] (h ++ [Save])) -> Forall no_notes (removelast (points [] (h ++ [Save]))) ->
  document (calls_of h) = Ok w -> exists streams, writes moves (h ++ [Save]) streams.
Proof.
  intros HR C T F N D. unfold document in D. apply bind_ok in D. destruct D as (w0 & E & D).
  assert (En : live_new = Ok (mkLive w0 (wd_new WFinish []))) by (unfold live_new; rewrite E; reflexivity).
  pose proof (new_tracks _ En) as Tr. destruct Tr as (D0 & Tr). assert (Ef : forget w0 = w0).
  { unfold document in D0. rewrite E in D0. cbn [bind api_run fold_res lv_wb] in D0. apply ok_inj in D0. symmetry. exact D0. }
  destruct (run_exists R moves HR C h [] (mkLive w0 (wd_new WFinish [])) w) as (f & ss & l1 & H); auto; [split; auto|cbn [lv_wb]; rewrite Ef; exact D|].
  exists ss, f, (mkLive w0 (wd_new WFinish [])), l1. auto.
Qed.
Print Assumptions C34_saves_succeed_partial.

(** The stream written depends on the document alone. *)
Theorem C34_saved_unique R moves calls s1 s2 : saved_ok R moves calls s1 -> saved_ok R moves calls s2 -> s1 = s2.
Proof.
  intros H1 H2. destruct (saved_view _ _ _ _ H1) as [w V1]. destruct (saved_view _ _ _ _ H2) as [w2 V2].
  pose proof (vw_doc _ _ _ _ V1) as D1. pose proof (vw_doc _ _ _ _ V2) as D2. rewrite D1 in D2. apply ok_inj in D2. subst w2.
  rewrite (vw_stream _ _ _ _ V1), (vw_stream _ _ _ _ V2). reflexivity.
Qed.
Print Assumptions C34_saved_unique.

(** * Cases *)
Definition thrice (calls : list call) : list step := map Do calls ++ [Save; Save; Save].
Lemma grid_notes : no_notes grid.
Proof. unfold grid. repeat (apply Forall_cons; [exact I|]). apply Forall_nil. Qed.
Example C34_case : points [] (thrice grid) = [grid; grid; grid] /\ Forall typed (calls_of (thrice grid)) /\ Forall (fits 40) (points [] (thrice grid))
  /\ Forall no_notes (removelast (points [] (thrice grid))) /\ exists streams, writes (fun _ _ => false) (thrice grid) streams.
Proof.
  assert (P : points [] (thrice grid) = [grid; grid; grid]) by reflexivity. split; [exact P|]. split; [exact grid_typed|]. rewrite P. cbn [removelast].
  split; [repeat (apply Forall_cons; [exact grid_fits|]); constructor|]. split; [repeat (apply Forall_cons; [exact grid_notes|]); constructor|].
  assert (D : exists w, document grid = Ok w) by (apply is_ok_ex; vm_compute; reflexivity). destruct D as [w D].
  change (thrice grid) with ((map Do grid ++ [Save; Save]) ++ [Save]).
  apply (C34_saves_succeed_partial 40) with (w := w); [lia|left; lia|exact grid_typed| | |exact D].
  - change (points [] _) with [grid; grid; grid]. repeat (apply Forall_cons; [exact grid_fits|]); constructor.
  - change (removelast (points [] _)) with [grid; grid]. repeat (apply Forall_cons; [exact grid_notes|]); constructor.
Qed.

(** A note. *)
Definition noted : list call := [KSheet (TChar [65]); KCell 0 0 0 (UInt 1) None; KNote 0 0 0 (TChar [97]) (TChar [98])].
Lemma noted_typed : Forall typed noted.
Proof. unfold noted. small_typed. Qed.
Lemma noted_fits : fits 40 noted.
Proof.
  unfold noted. small_fits. intro k. exists []. split; [cbn; lia|]. intros r H.
  match type of H with height_of k ?l r <> None => destruct (height_of k l r) as [[h p]|] eqn:E end; [|congruence]. apply heights_from in E. cbn [In] in E. each E.
Qed.
(** With a note, the second save writes another stream (other shape identifiers). *)
Theorem C34_saving_repeatable_refuted : exists calls s1 s2, Forall typed calls /\ fits 40 calls
  /\ writes (fun _ _ => false) (map Do calls ++ [Save; Save]) [Some s1; Some s2] /\ s1 <> s2.
Proof.
  assert (K : match live_new with
              | Ok l => match live_run 400 (fun _ _ => false) (map Do noted ++ [Save; Save]) l with
                        | Some (Ok ([Some s1; Some s2], _)) => if list_eq_dec Z.eq_dec s1 s2 then false else true
                        | _ => false end
              | _ => false end = true) by (vm_compute; reflexivity).
  destruct live_new as [l| |] eqn:E; try discriminate K. destruct (live_run _ _ _ l) as [[[ss l1]| |]|] eqn:E1; try discriminate K.
  destruct ss as [|[s1|] [|[s2|] [|]]]; try discriminate K. destruct (list_eq_dec Z.eq_dec s1 s2) as [|Ne]; [discriminate K|].
  exists noted, s1, s2. split; [exact noted_typed|]. split; [exact noted_fits|]. split; [|exact Ne]. exists 400%nat, l, l1. auto.
Qed.
Print Assumptions C34_saving_repeatable_refuted.
