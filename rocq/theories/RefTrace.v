(** Who refers to which format object, and how every call changes it: a call is a sequence
    of small steps on the formatting state and the list of references to format objects
    held by cells, columns and rows. *)
From Coq Require Import ZArith List Bool Lia ZifyBool ZifyNat Permutation Sorted.
From Verif Require Import Bytes UnitModel RecModel SheetModel XfModel WbModel XfInv Looks ApiModel ApiInv SpecApi ApiEff XfTrace.
Import ListNotations.
Local Open Scope Z_scope.

Definition col_refs (l : list colinfo) : list Z := flat_map (fun c => olist (ci_xf c)) l.
Definition row_refs (l : list rowheight) : list Z := flat_map (fun c => olist (rh_xf c)) l.
Definition sheet_refs (s : sheet) : list Z := map c_xf (sh_cells s) ++ col_refs (sh_cols s) ++ row_refs (sh_heights s).
Definition refs (w : wb) : list Z := flat_map sheet_refs (wb_sheets w).

(** The setter a call applies to cells, and the formats it attaches. *)
Definition op_in (q : call) (o : cellop) : Prop :=
  match q with KCellOp _ _ _ o' | KRange _ _ _ _ _ o' => o = o' | _ => False end.
Definition attaches (q : call) (i : Z) : Prop :=
  match q with
  | KCell _ _ _ _ p => i = cell_xf p
  | KRange _ _ _ _ _ _ => i = 15
  | KColwidth _ _ _ p | KRowheight _ _ _ p => p = Some i
  | _ => False
  end.
Definition own (q : call) (fs fs' : fstate) : Prop :=
  match q with
  | KFont n => fs' = fst (wb_font fs n)
  | KFontNum n => exists i, wb_fontnum fs n = Ok (fs', i)
  | KFormat t => fs' = fst (add_format fs (to16 t))
  | KXformat f m => exists i, wb_xformat fs f m = Ok (fs', i)
  | KXfSet p o => xf_user fs p o = Ok fs'
  | KFontSet p o => font_set fs p o = Ok fs'
  | _ => False
  end.
Definition is_row (q : call) : Prop := match q with KRowheight _ _ _ _ => True | _ => False end.

Definition is_cellop (q : call) : Prop := match q with KCellOp _ _ _ _ => True | _ => False end.

Inductive rstep (q : call) : fstate -> list Z -> fstate -> list Z -> Prop :=
| r_mark fs R i : attaches q i -> valid fs i -> rstep q fs R (xf_mark fs i) (i :: R)
| r_unmark fs R i : (forall j, attaches q j -> In j R) -> ~ is_cellop q -> rstep q fs (i :: R) (xf_unmark fs i) R
| r_op fs R o p fs' x : op_in q o -> valid fs p -> cellop_apply o fs p = Ok (fs', x) -> rstep q fs (p :: R) fs' (x :: R)
| r_own fs R fs' : own q fs fs' -> rstep q fs R fs' R
| r_note fs R : rstep q fs R (xf_mark fs 15) R
| r_note2 fs R : rstep q fs R (xf_unmark (xf_mark fs 15) 15) R
| r_row fs R i : is_row q -> In i R -> rstep q fs R (xf_unmark fs i) R
| r_perm fs R R' : Permutation R R' -> rstep q fs R fs R'.
Inductive rsteps (q : call) : fstate -> list Z -> fstate -> list Z -> Prop :=
| rs_nil fs R : rsteps q fs R fs R
| rs_cons fs R fs1 R1 fs2 R2 : rstep q fs R fs1 R1 -> rsteps q fs1 R1 fs2 R2 -> rsteps q fs R fs2 R2.

Lemma rs_one q fs R fs1 R1 : rstep q fs R fs1 R1 -> rsteps q fs R fs1 R1.
Proof. intro H. econstructor; [exact H|constructor]. Qed.
Lemma rs_app q fs R fs1 R1 fs2 R2 : rsteps q fs R fs1 R1 -> rsteps q fs1 R1 fs2 R2 -> rsteps q fs R fs2 R2.
Proof. induction 1; [auto|]. intro K. econstructor; eauto. Qed.
Lemma rs_to q fs R fs1 R1 R2 : rsteps q fs R fs1 R1 -> Permutation R1 R2 -> rsteps q fs R fs1 R2.
Proof. intros H P. eapply rs_app; [exact H|]. apply rs_one. apply r_perm. exact P. Qed.
Lemma rs_from q fs R0 R fs1 R1 : Permutation R0 R -> rsteps q fs R fs1 R1 -> rsteps q fs R0 fs1 R1.
Proof. intros P H. econstructor; [apply r_perm; exact P|exact H]. Qed.
Lemma rs_same q w w' : wb_fs w' = wb_fs w -> refs w' = refs w -> rsteps q (wb_fs w) (refs w) (wb_fs w') (refs w').
Proof. intros -> ->. constructor. Qed.

Lemma valid_mark fs i j : valid fs i -> valid (xf_mark fs j) i.
Proof. apply valid_grows, level_grows, xf_mark_level. Qed.

(** One sheet among the others. *)
Lemma refs_upd l k s s1 : nth_error l k = Some s ->
  exists rest, Permutation (flat_map sheet_refs l) (sheet_refs s ++ rest)
            /\ Permutation (flat_map sheet_refs (upd k s1 l)) (sheet_refs s1 ++ rest).
Proof.
  intro E. destruct (nth_split_upd k l s s1 E) as (a & b & -> & _ & ->). exists (flat_map sheet_refs a ++ flat_map sheet_refs b).
  rewrite !flat_map_app. cbn [flat_map]. split; apply Permutation_app_swap_app.
Qed.

Lemma find_none_all {A} (f : A -> bool) l : (forall z, In z l -> f z = false) -> find f l = None.
Proof. induction l as [|y t IH]; intro H; cbn [find]; [reflexivity|]. rewrite (H y (or_introl eq_refl)). apply IH. intros z J. apply H. right. exact J. Qed.
Lemma col_put_refs x l : StronglySorted (fun a b => ci_col a < ci_col b) l ->
  exists a b, l = a ++ olist (find (fun c => ci_col c =? ci_col x) l) ++ b /\ col_put x l = a ++ x :: b.
Proof.
  induction l as [|y t IH]; intro S; cbn [col_put find].
  - exists [], []. auto.
  - inversion S as [|? ? St F]; subst. destruct (ci_col x <? ci_col y) eqn:E1.
    + replace (ci_col y =? ci_col x) with false by lia. exists [], (y :: t). split; [|reflexivity].
      replace (find (fun c => ci_col c =? ci_col x) t) with (@None colinfo); [reflexivity|].
      symmetry. apply find_none_all. intros z J. rewrite Forall_forall in F. specialize (F z J). lia.
    + destruct (ci_col y <? ci_col x) eqn:E2.
      * replace (ci_col y =? ci_col x) with false by lia. destruct (IH St) as (a & b & E & P). exists (y :: a), b. cbn [app]. rewrite <- E, P. auto.
      * replace (ci_col y =? ci_col x) with true by lia. exists [], t. auto.
Qed.
Lemma rh_put_refs x l : StronglySorted (fun a b => rh_row a < rh_row b) l ->
  exists a b, l = a ++ olist (find (fun c => rh_row c =? rh_row x) l) ++ b /\ rh_put x l = a ++ x :: b.
Proof.
  induction l as [|y t IH]; intro S; cbn [rh_put find].
  - exists [], []. auto.
  - inversion S as [|? ? St F]; subst. destruct (rh_row x <? rh_row y) eqn:E1.
    + replace (rh_row y =? rh_row x) with false by lia. exists [], (y :: t). split; [|reflexivity].
      replace (find (fun c => rh_row c =? rh_row x) t) with (@None rowheight); [reflexivity|].
      symmetry. apply find_none_all. intros z J. rewrite Forall_forall in F. specialize (F z J). lia.
    + destruct (rh_row y <? rh_row x) eqn:E2.
      * replace (rh_row y =? rh_row x) with false by lia. destruct (IH St) as (a & b & E & P). exists (y :: a), b. cbn [app]. rewrite <- E, P. auto.
      * replace (rh_row y =? rh_row x) with true by lia. exists [], t. auto.
Qed.

Lemma valid_opt w p : winv w -> xf_valid (wb_fs w) p = true -> valid (wb_fs w) (cell_xf p).
Proof. intros I V. destruct p as [i|]; cbn [cell_xf]; [eapply xf_valid_spec; eauto|apply valid15, I]. Qed.

Lemma cell_delete_xf w c : wb_fs (cell_delete w c) = xf_unmark (wb_fs w) (c_xf c).
Proof. unfold cell_delete. cbn [up_fs wb_fs]. destruct (c_val c); try reflexivity. destruct (in_sst s); reflexivity. Qed.

Lemma cell_rsteps q w k r c v p w' : winv w -> attaches q (cell_xf p) -> (forall j, attaches q j -> j = cell_xf p) -> ~ is_cellop q -> api_cell w k r c v p = Ok w' ->
  rsteps q (wb_fs w) (refs w) (wb_fs w') (refs w').
Proof.
  intros I A Au Nc H. apply on_sheet_inv in H. destruct H as (s & w1 & s1 & E & H & ->).
  destruct (winv_nth _ _ _ I E) as [Is Xs].
  destruct (xf_valid (wb_fs w) p) eqn:Ev; cbn [negb] in H; [|discriminate H].
  set (x := mkCell r c (cell_xf p) (make_val (wb_next w) v)) in *.
  destruct (add_cell_spec s x (si_cells _ Is)) as (old & a & b & Ea & El & Ho & Sx & Fa & Fb).
  rewrite Ea in H. cbn [bind] in H. apply ok_pair in H. destruct H as [Hw Hs].
  destruct (sst_add_same (bump_next (up_fs w (xf_mark (wb_fs w) (cell_xf p)))) (make_val (wb_next w) v)) as (_ & _ & _ & B & _ & _).
  cbn [bump_next up_fs wb_fs] in B.
  assert (F : wb_fs w1 = match old with Some y => xf_unmark (xf_mark (wb_fs w) (cell_xf p)) (c_xf y) | None => xf_mark (wb_fs w) (cell_xf p) end).
  { rewrite <- Hw. destruct old; [rewrite cell_delete_xf|]; rewrite B; reflexivity. }
  destruct (refs_upd _ _ _ s1 E) as (rest & P1 & P2). unfold refs. cbn [up_sheets wb_fs wb_sheets]. rewrite F.
  assert (S1 : Permutation (sheet_refs s1) (cell_xf p :: (map c_xf (a ++ b) ++ col_refs (sh_cols s) ++ row_refs (sh_heights s)))).
  { rewrite <- Hs. unfold sheet_refs. cbn [with_cells sh_cells sh_cols sh_heights]. rewrite !map_app. cbn [map]. rewrite <- !app_assoc.
    symmetry. apply (Permutation_middle (map c_xf a)). }
  assert (S0 : Permutation (sheet_refs s) (map c_xf (olist old) ++ (map c_xf (a ++ b) ++ col_refs (sh_cols s) ++ row_refs (sh_heights s)))).
  { unfold sheet_refs. rewrite El, !map_app, <- !app_assoc. apply Permutation_app_swap_app. }
  set (R := map c_xf (a ++ b) ++ col_refs (sh_cols s) ++ row_refs (sh_heights s)) in *. clearbody R.
  eapply rs_from; [eapply perm_trans; [exact P1|apply Permutation_app_tail; exact S0]|].
  eapply rs_to; [|eapply perm_trans; [|symmetry; exact P2]; apply Permutation_app_tail; symmetry; exact S1].
  econstructor; [apply r_mark; [exact A|apply valid_opt; auto]|].
  destruct old as [y|]; cbn [olist map app]; [|constructor].
  econstructor; [apply r_perm; apply perm_swap|]. apply rs_one. apply r_unmark; [intros j J; left; symmetry; exact (Au j J)|exact Nc].
Qed.

Lemma map_same {A} (f : A -> A) l : (forall y, In y l -> f y = y) -> map f l = l.
Proof. intro H. rewrite <- (map_id l) at 2. apply map_ext_in. exact H. Qed.
Lemma replace_split l r c q x : csorted l -> find (at_key r c) l = Some x ->
  exists a b, l = a ++ x :: b /\ replace_cell l r c q = a ++ set_xf x q :: b.
Proof.
  unfold replace_cell. induction l as [|y t IH]; intros S H; cbn [find] in H; [discriminate H|].
  apply csorted_inv in S. destruct S as [S F]. cbn [map]. fold (at_key r c y). destruct (at_key r c y) eqn:E.
  - injection H as ->. exists [], t. split; [reflexivity|]. cbn [app]. f_equal. apply map_same.
    intros z J. fold (at_key r c z). destruct (at_key r c z) eqn:Ez; [|reflexivity]. exfalso.
    rewrite Forall_forall in F. specialize (F z J). unfold clt, key_lt, at_key in *. destruct (c_row x =? c_row z) eqn:Q; lia.
  - destruct (IH S H) as (a & b & -> & ->). exists (y :: a), b. auto.
Qed.

Lemma cellop_rsteps q w k r c o w' : winv w -> op_in q o -> api_cellop w k r c o = Ok w' ->
  rsteps q (wb_fs w) (refs w) (wb_fs w') (refs w').
Proof.
  intros I A H. apply on_sheet_inv in H. destruct H as (s & w1 & s1 & E & H & ->). destruct (winv_nth _ _ _ I E) as [Is (Xs & _)].
  destruct (find_cell s r c) as [x|] eqn:Ex; [|discriminate H].
  destruct (cellop_apply o (wb_fs w) (c_xf x)) as [[fs' j]| |] eqn:Eo; cbn [bind] in H; [|discriminate H|discriminate H].
  apply ok_pair in H. destruct H as [Hw Hs].
  destruct (replace_split (sh_cells s) r c j x (si_cells _ Is) Ex) as (a & b & El & Er).
  assert (V : valid (wb_fs w) (c_xf x)) by (rewrite Forall_forall in Xs; apply Xs; rewrite El; apply in_elt).
  destruct (refs_upd _ _ _ s1 E) as (rest & P1 & P2). unfold refs. cbn [up_sheets wb_fs wb_sheets]. rewrite <- Hw. cbn [up_fs wb_fs].
  set (R := map c_xf (a ++ b) ++ col_refs (sh_cols s) ++ row_refs (sh_heights s)).
  assert (S0 : Permutation (sheet_refs s) (c_xf x :: R)).
  { unfold sheet_refs, R. rewrite El, !map_app. cbn [map]. rewrite <- !app_assoc. symmetry. apply (Permutation_middle (map c_xf a)). }
  assert (S1 : Permutation (sheet_refs s1) (j :: R)).
  { rewrite <- Hs. unfold sheet_refs, R. cbn [set_cells sh_cells sh_cols sh_heights]. rewrite Er, !map_app. cbn [map set_xf c_xf]. rewrite <- !app_assoc.
    symmetry. apply (Permutation_middle (map c_xf a)). }
  clearbody R. eapply rs_from; [eapply perm_trans; [exact P1|apply Permutation_app_tail; exact S0]|].
  eapply rs_to; [|eapply perm_trans; [|symmetry; exact P2]; apply Permutation_app_tail; symmetry; exact S1].
  apply rs_one. cbn [app]. eapply r_op; eauto.
Qed.

Lemma range_rsteps k r1 c1 r2 c2 o l : forall w w', winv2 w -> Forall (fun p => u32 (fst p) /\ u32 (snd p)) l ->
  fold_res (range_step k o) l w = Ok w' -> rsteps (KRange k r1 c1 r2 c2 o) (wb_fs w) (refs w) (wb_fs w') (refs w').
Proof.
  induction l as [|p l IH]; intros w w' I F H; cbn [fold_res] in H.
  - apply ok_inj in H. subst w'. constructor.
  - inversion F as [|? ? [Fr Fc] Fl]; subst. apply bind_ok in H. destruct H as (w1 & H1 & H2).
    pose proof (range_one _ _ _ _ _ I (conj Fr Fc) H1) as [Q _]. eapply rs_app; [|apply (IH w1 w' (qu_inv _ _ _ Q) Fl H2)].
    unfold range_step in H1. apply bind_ok in H1. destruct H1 as (w0 & Hb & Ho).
    destruct (blank_xfat _ _ _ _ _ I Fr Fc Hb) as [I0 _]. eapply rs_app; [|eapply cellop_rsteps; [apply (w2_inv _ I0)| |exact Ho]; reflexivity].
    unfold find_or_blank in Hb. destruct (nth_error (wb_sheets w) k) as [s|]; [|discriminate Hb]. destruct (find_cell s (fst p) (snd p)).
    + apply ok_inj in Hb. subst w0. constructor.
    + eapply cell_rsteps; [apply (w2_inv _ I)| | | |exact Hb]; [reflexivity|intros j J; exact J|intros []].
Qed.

Lemma colwidth_rsteps w k c v p w' : winv w -> api_colwidth w k c v p = Ok w' ->
  rsteps (KColwidth k c v p) (wb_fs w) (refs w) (wb_fs w') (refs w').
Proof.
  intros I H. apply on_sheet_inv in H. destruct H as (s & w1 & s1 & E & H & ->). destruct (winv_nth _ _ _ I E) as [Is _].
  destruct (xf_valid (wb_fs w) p) eqn:Ev; cbn [negb] in H; [|discriminate H]. apply ok_pair in H. destruct H as [Hw Hs].
  destruct (col_put_refs (mkCol c v p) _ (si_cols _ Is)) as (a & b & El & Ep). cbn [ci_col] in El.
  destruct (refs_upd _ _ _ s1 E) as (rest & P1 & P2). unfold refs. cbn [up_sheets wb_fs wb_sheets]. rewrite <- Hw. cbn [up_fs wb_fs].
  set (old := find (fun y => ci_col y =? c) (sh_cols s)) in *. clearbody old.
  set (R := map c_xf (sh_cells s) ++ col_refs (a ++ b) ++ row_refs (sh_heights s)).
  assert (S0 : Permutation (sheet_refs s) (col_refs (olist old) ++ R)).
  { unfold sheet_refs, R. rewrite El. unfold col_refs. rewrite !flat_map_app, <- !app_assoc.
    eapply perm_trans; [apply Permutation_app_head; apply Permutation_app_swap_app|]. apply Permutation_app_swap_app. }
  assert (S1 : Permutation (sheet_refs s1) (olist p ++ R)).
  { rewrite <- Hs. unfold sheet_refs, R, sheet_colwidth. cbn [set_cols sh_cells sh_cols sh_heights]. rewrite Ep. unfold col_refs. rewrite !flat_map_app. cbn [flat_map ci_xf].
    rewrite <- !app_assoc. eapply perm_trans; [apply Permutation_app_head; apply Permutation_app_swap_app|]. apply Permutation_app_swap_app. }
  clearbody R. eapply rs_from; [eapply perm_trans; [exact P1|apply Permutation_app_tail; exact S0]|].
  eapply rs_to; [|eapply perm_trans; [|symmetry; exact P2]; apply Permutation_app_tail; symmetry; exact S1]. clear P1 P2 S0 S1.
  rewrite <- !app_assoc. generalize (R ++ rest). clear R rest. intro R.
  eapply rs_app with (fs1 := mark_opt (wb_fs w) p) (R1 := col_refs (olist old) ++ olist p ++ R).
  - eapply rs_to; [|apply Permutation_app_swap_app]. destruct p as [i|]; cbn [mark_opt olist app]; [|constructor].
    apply rs_one. apply r_mark; [reflexivity|exact (xf_valid_spec _ _ Ev _ eq_refl)].
  - destruct old as [[oc ow [i|]]|]; cbn [olist col_refs flat_map ci_xf app unmark_opt]; try constructor. apply rs_one.
    apply r_unmark; [cbn [attaches]; intros j ->; left; reflexivity|intros []].
Qed.
Lemma perm_pull {A} (u v x o y : list A) : Permutation (u ++ v ++ x ++ o ++ y) (o ++ u ++ v ++ x ++ y).
Proof.
  rewrite (app_assoc v x (o ++ y)), (app_assoc u (v ++ x) (o ++ y)), (app_assoc v x y), (app_assoc u (v ++ x) y). apply Permutation_app_swap_app.
Qed.
Lemma rowheight_rsteps w k c v p w' : winv w -> api_rowheight w k c v p = Ok w' ->
  rsteps (KRowheight k c v p) (wb_fs w) (refs w) (wb_fs w') (refs w').
Proof.
  intros I H. apply on_sheet_inv in H. destruct H as (s & w1 & s1 & E & H & ->). destruct (winv_nth _ _ _ I E) as [Is _].
  destruct (xf_valid (wb_fs w) p) eqn:Ev; cbn [negb] in H; [|discriminate H]. apply ok_pair in H. destruct H as [Hw Hs].
  destruct (rh_put_refs (mkRH c v p) _ (si_heights _ Is)) as (a & b & El & Ep). cbn [rh_row] in El.
  destruct (refs_upd _ _ _ s1 E) as (rest & P1 & P2). unfold refs. cbn [up_sheets wb_fs wb_sheets]. rewrite <- Hw. cbn [up_fs wb_fs].
  set (old := find (fun y => rh_row y =? c) (sh_heights s)) in *. clearbody old.
  set (R := map c_xf (sh_cells s) ++ col_refs (sh_cols s) ++ row_refs (a ++ b)).
  assert (S0 : Permutation (sheet_refs s) (row_refs (olist old) ++ R)).
  { unfold sheet_refs, R. rewrite El. unfold row_refs. rewrite !flat_map_app.
    apply perm_pull. }
  assert (S1 : Permutation (sheet_refs s1) (olist p ++ R)).
  { rewrite <- Hs. unfold sheet_refs, R, sheet_rowheight. cbn [set_heights sh_cells sh_cols sh_heights]. rewrite Ep. unfold row_refs. rewrite !flat_map_app. cbn [flat_map rh_xf].
    apply perm_pull. }
  clearbody R. eapply rs_from; [eapply perm_trans; [exact P1|apply Permutation_app_tail; exact S0]|].
  eapply rs_to; [|eapply perm_trans; [|symmetry; exact P2]; apply Permutation_app_tail; symmetry; exact S1]. clear P1 P2 S0 S1.
  rewrite <- !app_assoc. generalize (R ++ rest). clear R rest. intro R.
  eapply rs_app with (fs1 := mark_opt (wb_fs w) p) (R1 := row_refs (olist old) ++ olist p ++ R).
  - eapply rs_to; [|apply Permutation_app_swap_app]. destruct p as [i|]; cbn [mark_opt olist app]; [|constructor].
    apply rs_one. apply r_mark; [reflexivity|exact (xf_valid_spec _ _ Ev _ eq_refl)].
  - destruct old as [[oc ow [i|]]|]; cbn [olist row_refs flat_map rh_xf app unmark_opt]; try constructor.
    econstructor; [apply r_row with (i := i); [exact Logic.I|left; reflexivity]|]. apply rs_one. apply r_unmark; [cbn [attaches]; intros j ->; left; reflexivity|intros []].
Qed.
Lemma note_rsteps w k r c a t w' : api_note w k r c a t = Ok w' ->
  rsteps (KNote k r c a t) (wb_fs w) (refs w) (wb_fs w') (refs w').
Proof.
  intro H. unfold api_note in H. apply bind_ok in H. destruct H as (w1 & H1 & H).
  apply on_sheet_inv in H1. destruct H1 as (s & w2 & s1 & E & H1 & ->). rewrite E in H.
  destruct (nth_error (wb_bs w) (Z.to_nat (sh_index s))) as [b|] eqn:Eb; [|discriminate H]. apply ok_inj in H.
  apply ok_pair in H1. destruct H1 as [Hw Hs]. rewrite <- H. destruct (refs_upd _ _ _ s1 E) as (rest & P1 & P2).
  unfold refs. cbn [up_bs up_sheets wb_fs wb_sheets]. rewrite <- Hw. cbn [up_fs wb_fs].
  assert (S1 : sheet_refs s1 = sheet_refs s) by (rewrite <- Hs; reflexivity). rewrite S1 in P2.
  eapply rs_to; [|eapply perm_trans; [exact P1|symmetry; exact P2]]. apply rs_one. destruct (find _ _); [apply r_note2|apply r_note].
Qed.
Lemma pure_rsteps q w k f w' : (forall s, sheet_refs (f s) = sheet_refs s) -> pure_sheet w k f = Ok w' ->
  rsteps q (wb_fs w) (refs w) (wb_fs w') (refs w').
Proof.
  intros F H. apply on_sheet_inv in H. destruct H as (s & w1 & s1 & E & H & ->). apply ok_pair in H. destruct H as [<- <-].
  destruct (refs_upd _ _ _ (f s) E) as (rest & P1 & P2). rewrite F in P2. unfold refs. cbn [up_sheets wb_fs wb_sheets].
  eapply rs_to; [constructor|]. eapply perm_trans; [exact P1|symmetry; exact P2].
Qed.

Local Strategy 1000 [wb_new fstate_init wb_xformat wb_fontnum xf_user font_set wb_font add_format].
Theorem call_rsteps w q w' : winv2 w -> typed q -> api_call w q = Ok w' -> rsteps q (wb_fs w) (refs w) (wb_fs w') (refs w').
Proof.
  intros I T H. pose proof (w2_inv _ I) as I0. destruct q; cbn [api_call] in H.
  - apply ok_inj in H. subst w'. apply rs_same; [reflexivity|]. unfold refs, api_sheet. cbn [up_bs up_sheets wb_sheets]. rewrite flat_map_app. cbn [flat_map].
    cbn [sheet_new sheet_refs sh_cells sh_cols sh_heights map col_refs row_refs flat_map app]. apply app_nil_r.
  - eapply cell_rsteps; [exact I0| | | |exact H]; [reflexivity|intros j J; exact J|intros []].
  - eapply note_rsteps; exact H.
  - eapply cellop_rsteps; [exact I0| |exact H]. reflexivity.
  - destruct T as (U1 & U2 & U3 & U4). destruct (range_inv _ _ _ _ _ _ _ _ H) as (R & Cc & G).
    eapply range_rsteps; [exact I|apply (block_u32 _ _ _ _ U1 U2 U3 U4)|exact G].
  - eapply pure_rsteps; [|exact H]; reflexivity.
  - eapply colwidth_rsteps; [exact I0|exact H].
  - eapply rowheight_rsteps; [exact I0|exact H].
  - eapply pure_rsteps; [|exact H]; reflexivity.
  - eapply pure_rsteps; [|exact H]; reflexivity.
  - eapply pure_rsteps; [|exact H]; reflexivity.
  - destruct (nth_error (wb_sheets w) k); [|discriminate H]. destruct (find_cell _ _ _); [|discriminate H]. eapply pure_rsteps; [|exact H]; reflexivity.
  - eapply pure_rsteps; [|exact H]; reflexivity.
  - destruct (nth_error (wb_sheets w) k); [|discriminate H]. apply ok_inj in H. subst w'. apply rs_same; reflexivity.
  - apply ok_inj in H. subst w'. unfold api_setcolor, colors_set. destruct (_ || _)%bool; apply rs_same; reflexivity.
  - apply ok_inj in H. subst w'. apply rs_same; reflexivity.
  - apply ok_inj in H. subst w'. apply rs_same; reflexivity.
  - apply ok_inj in H. subst w'. apply rs_same; reflexivity.
  - apply ok_inj in H. subst w'. apply rs_same; reflexivity.
  - apply ok_inj in H. subst w'. apply rs_one. apply r_own. reflexivity.
  - apply bind_ok in H. destruct H as ([fs x] & E & H). apply ok_inj in H. subst w'. apply rs_one. apply r_own. exists x. exact E.
  - apply ok_inj in H. subst w'. apply rs_one. apply r_own. reflexivity.
  - apply bind_ok in H. destruct H as ([fs x] & E & H). apply ok_inj in H. subst w'. apply rs_one. apply r_own. exists x. exact E.
  - apply bind_ok in H. destruct H as (fs & E & H). apply ok_inj in H. subst w'. apply rs_one. apply r_own. exact E.
  - apply bind_ok in H. destruct H as (fs & E & H). apply ok_inj in H. subst w'. apply rs_one. apply r_own. exact E.
Qed.
