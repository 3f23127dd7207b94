(** The window and sheet settings after a history of calls. *)
From Coq Require Import ZArith List Bool Lia ZifyBool ZifyNat.
From Verif Require Import Bytes UnitModel RecModel SheetModel XfModel WbModel XfInv ApiModel ApiInv SpecBiff SpecApi SpecSaved SpecSheet SpecView ApiEff SaveRecs PalTrace.
Import ListNotations.
Local Open Scope Z_scope.

Lemma last_snoc {A} (f : call -> option A) d l q : last_of f d (l ++ [q]) = match f q with Some x => x | None => last_of f d l end.
Proof. unfold last_of. rewrite fold_left_app. reflexivity. Qed.

(* ------------------------------------------------------------------ *)
(** * Sheets *)

Definition defs (s : sheet) := (sh_defrh s, sh_defcw s, sh_rsplit s, sh_csplit s).
Definition all_defs (w : wb) := map defs (wb_sheets w).
Lemma map_upd_same {A B} (f : A -> B) k x : forall l y, nth_error l k = Some y -> f x = f y -> map f (upd k x l) = map f l.
Proof.
  induction k as [|k IH]; intros [|z l] y E F; try discriminate E; cbn [upd map nth_error] in *.
  - apply some_inj in E. subst. rewrite F. reflexivity.
  - rewrite (IH l y E F). reflexivity.
Qed.
Lemma sheet_defs w k f w' : (forall s w1 s1, nth_error (wb_sheets w) k = Some s -> f s = Ok (w1, s1) -> defs s1 = defs s) -> on_sheet w k f = Ok w' -> all_defs w' = all_defs w.
Proof.
  intros F H. apply on_sheet_inv in H. destruct H as (s & w1 & s1 & E & H & ->). unfold all_defs. cbn [up_sheets wb_sheets].
  eapply map_upd_same; [exact E|]. exact (F _ _ _ E H).
Qed.
Lemma pure_defs w k f w' : (forall s, defs (f s) = defs s) -> pure_sheet w k f = Ok w' -> all_defs w' = all_defs w.
Proof. intros F H. eapply sheet_defs; [|exact H]. cbn. intros s w1 s1 _ K. apply ok_pair in K. destruct K as [_ <-]. apply F. Qed.
Lemma add_cell_defs s x old s' : add_cell s x = Ok (old, s') -> defs s' = defs s.
Proof.
  unfold add_cell. intro H. destruct (set_insert x (sh_cells s)).
  - apply ok_pair in H. destruct H as [_ <-]. reflexivity.
  - destruct (set_erase _ _ _) as [o l1]. destruct (set_insert x l1); [|discriminate H]. apply ok_pair in H. destruct H as [_ <-]. reflexivity.
Qed.
Lemma cell_defs w k r c v p w' : api_cell w k r c v p = Ok w' -> all_defs w' = all_defs w.
Proof.
  intro H. eapply sheet_defs; [|exact H]. cbn beta. intros s w1 s1 _ K. destruct (negb _); [discriminate|].
  apply bind_ok in K. destruct K as ([old s2] & A & K). apply ok_pair in K. destruct K as [_ <-]. eapply add_cell_defs; exact A.
Qed.
Lemma cellop_defs w k r c o w' : api_cellop w k r c o = Ok w' -> all_defs w' = all_defs w.
Proof.
  intro H. eapply sheet_defs; [|exact H]. cbn beta. intros s w1 s1 _ K. destruct (find_cell _ _ _); [|discriminate].
  apply bind_ok in K. destruct K as ([fs q] & _ & K). apply ok_pair in K. destruct K as [_ <-]. reflexivity.
Qed.
Lemma range_defs w k r1 c1 r2 c2 o w' : api_range w k r1 c1 r2 c2 o = Ok w' -> all_defs w' = all_defs w.
Proof.
  intro H. apply range_inv in H. destruct H as (_ & _ & H). revert w H. induction (block_of r1 c1 r2 c2) as [|p l IH]; intros w H; cbn [fold_res] in H.
  - apply ok_inj in H. subst. reflexivity.
  - apply bind_ok in H. destruct H as (w1 & H1 & H2). rewrite (IH _ H2). unfold range_step in H1. apply bind_ok in H1. destruct H1 as (w0 & Hb & Ho).
    rewrite (cellop_defs _ _ _ _ _ _ Ho). unfold find_or_blank in Hb. destruct (nth_error _ _); [|discriminate].
    destruct (find_cell _ _ _); [apply ok_inj in Hb; subst; reflexivity|]. eapply cell_defs; exact Hb.
Qed.
Definition defs_call (q : call) : bool :=
  match q with KSheet _ | KDefRowHeight _ _ _ | KDefColWidth _ _ | KSplit _ _ _ => true | _ => false end.
Lemma call_defs w q w' : defs_call q = false -> api_call w q = Ok w' -> all_defs w' = all_defs w.
Proof.
  intro N. destruct q; try discriminate N; cbn [api_call].
 all: intro H.
 all: try (match type of H with pure_sheet _ _ _ = _ => eapply pure_defs; [|exact H]; intro; reflexivity end).
 all: try (match type of H with Ok _ = _ => apply ok_inj in H; rewrite <- H; unfold all_defs; cbn [up_fs up_bs up_w1 wb_sheets]; reflexivity end).
  - eapply cell_defs; exact H.
  - unfold api_note in H. apply bind_ok in H. destruct H as (w1 & H1 & H2). apply sheet_defs in H1.
    + destruct (nth_error (wb_sheets w) k); [|discriminate]. destruct (nth_error (wb_bs w) _); [|discriminate]. apply ok_inj in H2. rewrite <- H2. exact H1.
    + intros s0 w2 s1 _ K. apply ok_pair in K. destruct K as [_ <-]. reflexivity.
  - eapply cellop_defs; exact H.
  - eapply range_defs; exact H.
  - eapply sheet_defs; [|exact H]. cbn. intros s w1 s1 _. destruct (negb _); [discriminate|]. intro K. apply ok_pair in K. destruct K as [_ <-]. reflexivity.
  - eapply sheet_defs; [|exact H]. cbn. intros s w1 s1 _. destruct (negb _); [discriminate|]. intro K. apply ok_pair in K. destruct K as [_ <-]. reflexivity.
  - destruct (nth_error (wb_sheets w) k); [|discriminate]. destruct (find_cell _ _ _); [|discriminate]. eapply pure_defs; [|exact H]. intro; reflexivity.
  - destruct (nth_error (wb_sheets w) k); [|discriminate]. apply ok_inj in H. rewrite <- H. reflexivity.
  - apply ok_inj in H. rewrite <- H. unfold api_setcolor. destruct (colors_set _ _ _ _ _) as [[] ?]; reflexivity.
  - apply bind_ok in H. destruct H as ([fs x] & _ & H). apply ok_inj in H. rewrite <- H. reflexivity.
  - apply bind_ok in H. destruct H as ([fs x] & _ & H). apply ok_inj in H. rewrite <- H. reflexivity.
  - apply bind_ok in H. destruct H as (fs & _ & H). apply ok_inj in H. rewrite <- H. reflexivity.
  - apply bind_ok in H. destruct H as (fs & _ & H). apply ok_inj in H. rewrite <- H. reflexivity.
Qed.
Definition asked (k : nat) (calls : list call) := (def_height k calls, def_width k calls, fst (split_at k calls), snd (split_at k calls)).
Lemma nth_map_upd {A B} (f : A -> B) x : forall k l j, nth_error (map f (upd k x l)) j = if Nat.eqb j k then match nth_error l k with Some _ => Some (f x) | None => None end else nth_error (map f l) j.
Proof.
  intros k l j. rewrite !nth_error_map, nth_upd. destruct (Nat.eqb j k); [|reflexivity]. destruct (nth_error l k); reflexivity.
Qed.
Lemma defs_tracked calls : forall w, document calls = Ok w ->
  forall k, match nth_error (all_defs w) k with Some d => d = asked k calls | None => asked k calls = (15, 10, 0, 0) end.
Proof.
  induction calls as [|q calls IH] using rev_ind; intros w H k.
  - apply document_nil in H. destruct (wb_new_sheets _ H) as (E & _). unfold all_defs. rewrite E. destruct k; reflexivity.
  - destruct (document_snoc _ _ _ H) as (w0 & D & C). pose proof (IH w0 D k) as K. unfold asked, def_height, def_width, split_at in *. rewrite !last_snoc.
    destruct (defs_call q) eqn:Eq.
    + destruct q; try discriminate Eq; cbn [api_call] in C.
      * apply ok_inj in C. rewrite <- C. unfold all_defs. cbn [api_sheet up_bs up_sheets wb_sheets]. rewrite map_app.
        destruct (Nat.lt_ge_cases k (length (map defs (wb_sheets w0)))) as [L|L].
        -- rewrite nth_error_app1 by exact L. exact K.
        -- rewrite nth_error_app2 by exact L. fold (all_defs w0) in *. assert (E : nth_error (all_defs w0) k = None) by (apply nth_error_None; exact L).
           rewrite E in K. destruct (k - length (all_defs w0))%nat as [|[|?]]; cbn [map nth_error]; [symmetry|..]; exact K.
      * apply on_sheet_inv in C. destruct C as (s & w1 & s1 & E & F & ->). apply ok_pair in F. destruct F as [<- <-]. unfold all_defs in *. cbn [up_sheets wb_sheets].
        rewrite nth_map_upd. destruct (Nat.eqb k k0) eqn:Ek; [|exact K]. apply Nat.eqb_eq in Ek. subst k0. rewrite nth_error_map, E in K. rewrite E. cbn [option_map] in K.
        unfold defs in *. cbn [set_defaults sh_defrh sh_defcw sh_rsplit sh_csplit]. congruence.
      * apply on_sheet_inv in C. destruct C as (s & w1 & s1 & E & F & ->). apply ok_pair in F. destruct F as [<- <-]. unfold all_defs in *. cbn [up_sheets wb_sheets].
        rewrite nth_map_upd. destruct (Nat.eqb k k0) eqn:Ek; [|exact K]. apply Nat.eqb_eq in Ek. subst k0. rewrite nth_error_map, E in K. rewrite E. cbn [option_map] in K.
        unfold defs in *. cbn [set_defaults sh_defrh sh_defcw sh_rsplit sh_csplit]. congruence.
      * apply on_sheet_inv in C. destruct C as (s & w1 & s1 & E & F & ->). apply ok_pair in F. destruct F as [<- <-]. unfold all_defs in *. cbn [up_sheets wb_sheets].
        rewrite nth_map_upd. destruct (Nat.eqb k k0) eqn:Ek; [|exact K]. apply Nat.eqb_eq in Ek. subst k0. rewrite nth_error_map, E in K. rewrite E. cbn [option_map] in K.
        unfold defs in *. cbn [set_defaults sh_defrh sh_defcw sh_rsplit sh_csplit fst snd]. congruence.
    + rewrite (call_defs _ _ _ Eq C). destruct q; try discriminate Eq; exact K.
Qed.
Lemma sheet_asked calls w k s : document calls = Ok w -> nth_error (wb_sheets w) k = Some s ->
  sh_defrh s = def_height k calls /\ sh_defcw s = def_width k calls /\ sh_rsplit s = fst (split_at k calls) /\ sh_csplit s = snd (split_at k calls).
Proof.
  intros D E. pose proof (defs_tracked calls w D k) as K. unfold all_defs in K. rewrite nth_error_map, E in K. cbn [option_map] in K. unfold defs, asked in K.
  apply pair_equal_spec in K. destruct K as [K K4]. apply pair_equal_spec in K. destruct K as [K K3]. apply pair_equal_spec in K. tauto.
Qed.

(* ------------------------------------------------------------------ *)
(** * The window *)

Definition w1_step (x : window1) (q : call) : window1 :=
  match q with
  | KWindPos h v => mkW1 h v (w1_width x) (w1_height x) (w1_active x) (w1_first x) (w1_tabwidth x)
  | KWindSize v h => mkW1 (w1_horz x) (w1_vert x) v h (w1_active x) (w1_first x) (w1_tabwidth x)
  | KActive k => mkW1 (w1_horz x) (w1_vert x) (w1_width x) (w1_height x) (Z.of_nat k mod 65536) (w1_first x) (w1_tabwidth x)
  | KFirstTab v => mkW1 (w1_horz x) (w1_vert x) (w1_width x) (w1_height x) (w1_active x) v (w1_tabwidth x)
  | KTabBar v => mkW1 (w1_horz x) (w1_vert x) (w1_width x) (w1_height x) (w1_active x) (w1_first x) (Z.min v 1000)
  | _ => x
  end.
Lemma call_w1 w q w' : winv w -> api_call w q = Ok w' -> wb_w1 w' = w1_step (wb_w1 w) q.
Proof.
  intros I C. destruct (frame_call q) eqn:Eq.
  - destruct q; try discriminate Eq; unfold api_call in C; cbv zeta in C; cbn [w1_step].
    + destruct (nth_error (wb_sheets w) k) as [s|] eqn:E; [|discriminate C]. apply ok_inj in C. rewrite <- C. rewrite <- (wi_idx _ I k s E). reflexivity.
    + apply ok_inj in C. rewrite <- C. unfold api_setcolor. destruct (colors_set _ _ _ _ _) as [[] ?]; reflexivity.
    + apply ok_inj in C. rewrite <- C. reflexivity.
    + apply ok_inj in C. rewrite <- C. reflexivity.
    + apply ok_inj in C. rewrite <- C. reflexivity.
    + apply ok_inj in C. rewrite <- C. cbn [up_w1 wb_w1]. f_equal. destruct (1000 <? v) eqn:?; lia.
  - pose proof (call_part _ _ _ Eq C) as P. apply (f_equal snd) in P. change (wb_w1 w' = wb_w1 w) in P. rewrite P. clear - Eq. destruct q; try discriminate Eq; reflexivity.
Qed.
Lemma call_len w q w' : winv2 w -> typed q -> api_call w q = Ok w' -> (length (wb_sheets w) <= length (wb_sheets w'))%nat.
Proof.
  intros I T C. assert (J : (forall n, q <> KSheet n) \/ exists n, q = KSheet n) by (clear; destruct q; eauto; left; intros ? K; discriminate K).
  destruct J as [N|[n ->]].
  - rewrite (to_len _ _ _ (call_touch _ _ _ I T N C)). lia.
  - unfold api_call in C. apply ok_inj in C. rewrite <- C. cbn [api_sheet up_bs up_sheets wb_sheets]. rewrite app_length. lia.
Qed.
Lemma call_active w k w' : api_call w (KActive k) = Ok w' -> (k < length (wb_sheets w))%nat.
Proof. unfold api_call. destruct (nth_error (wb_sheets w) k) as [s|] eqn:E; [|intro H; discriminate H]. intros _. apply nth_error_Some. congruence. Qed.
Definition w1_of (calls : list call) : window1 :=
  mkW1 (fst (window_at calls)) (snd (window_at calls)) (fst (window_size calls)) (snd (window_size calls))
       (Z.of_nat (active_sheet calls) mod 65536) (first_tab calls) (tab_bar calls).
Lemma w1_of_snoc calls q : w1_of (calls ++ [q]) = w1_step (w1_of calls) q.
Proof.
  unfold w1_of, window_at, window_size, active_sheet, first_tab, tab_bar. rewrite !last_snoc. destruct q; reflexivity.
Qed.
Lemma active_snoc calls q : active_sheet (calls ++ [q]) = match q with KActive k => k | _ => active_sheet calls end.
Proof. unfold active_sheet. rewrite last_snoc. destruct q; reflexivity. Qed.
Local Strategy 1000 [wb_new fstate_init].
Lemma wb_new_w1 w : wb_new = Ok w -> wb_w1 w = window1_new.
Proof. unfold wb_new. destruct fstate_init as [fs| |]; cbn [bind]; intro H; [|discriminate H|discriminate H]. apply ok_inj in H. rewrite <- H. reflexivity. Qed.
Lemma window_tracked calls : forall w, Forall typed calls -> document calls = Ok w ->
  wb_w1 w = w1_of calls /\ (active_sheet calls = 0%nat \/ (active_sheet calls < length (wb_sheets w))%nat).
Proof.
  induction calls as [|q calls IH] using rev_ind; intros w T H.
  - apply document_nil in H. split; [|left; reflexivity]. rewrite (wb_new_w1 _ H). reflexivity.
  - destruct (document_snoc _ _ _ H) as (w0 & D & C). apply Forall_app in T. destruct T as [T Tq]. apply Forall_inv in Tq.
    destruct (IH w0 T D) as [K A]. pose proof (mn_inv _ _ (run_means calls w0 T D)) as I.
    rewrite (call_w1 _ _ _ (w2_inv _ I) C), K, w1_of_snoc, active_snoc. split; [reflexivity|]. pose proof (call_len _ _ _ I Tq C) as Ln.
    assert (Ac : forall k, q = KActive k -> (k < length (wb_sheets w0))%nat) by (intros k ->; eapply call_active; exact C).
    clear - A Ln Ac. destruct q; try lia. specialize (Ac k eq_refl). lia.
Qed.
Lemma last_forall {A} (P : A -> Prop) (f : call -> option A) d calls : P d -> Forall (fun q => forall x, f q = Some x -> P x) calls -> P (last_of f d calls).
Proof.
  intros Pd F. induction calls as [|q calls IH] using rev_ind; [exact Pd|]. apply Forall_app in F. destruct F as [F Fq]. apply Forall_inv in Fq.
  rewrite last_snoc. destruct (f q) as [x|]; [apply Fq; reflexivity|auto].
Qed.
