(** C50: programs written against the C interface. *)
From Coq Require Import ZArith List Bool Lia ZifyBool ZifyNat Sorted.
From Verif Require Import Bytes UnitModel RecModel SpecBuf OleModel SheetModel XfModel ApiModel FormulaModel CApiModel RecProofs ApiInv SpecBiff SpecApi SpecSaved SaveRecs SaveMeans
  SpecObj SpecFormula SpecSheet PropsCells PropsObj PropsFormula PropsNotes SpecFile PropsFile SavedView Lookups PropsSheet PropsRows SpecC CProofs.
Import ListNotations.
Local Open Scope Z_scope.

(* ------------------------------------------------------------------ *)
(** * Which programs are defined *)

(** A C program that keeps the rules (terminated texts, NULL only where allowed, counts
    within the arrays, formulas made before use) amounts to a sequence of C++ calls; any
    other program runs into undefined behaviour. *)
Theorem C50_proper_programs prog :
  (proper prog <-> exists calls, c_calls prog = Ok calls) /\ (~ proper prog -> c_calls prog = UB).
Proof.
  unfold c_calls. destruct (runs prog) as [(P & s & E & I)|(P & E)]; rewrite E; cbn [bind].
  - split; [|tauto]. split; [intros _; exact (settles prog s I)|auto].
  - split; [|reflexivity]. split; [tauto|]. intros [calls H]. discriminate H.
Qed.
Print Assumptions C50_proper_programs.

(* ------------------------------------------------------------------ *)
(** * Program and calls *)

Definition holds (forms : list (nat * formula)) (v : cvalue) (u : uval) : Prop :=
  match v with
  | WText w p => exists t, terminated p t /\ u = ULabel (as_text w t)
  | WBlank => u = UBlank
  | WDouble bits => u = UDouble bits
  | WInt n => u = UInt n
  | WBool b => u = UBool b
  | WErr e => u = UErr e
  | WFormula f arr => exists own F, nth_error forms f = Some (own, F) /\ stack_value arr F = Ok u
  end.
Definition same (forms : list (nat * formula)) (v : option cvalue) (u : option uval) : Prop :=
  match v, u with Some v, Some u => holds forms v u | None, None => True | _, _ => False end.
Ltac settled := repeat match goal with
  | H : Ok _ = Ok _ |- _ => apply ok_inj in H; subst
  | H : bind _ _ = Ok _ |- _ => apply bind_ok in H; destruct H as (? & ? & H)
  | H : UB = Ok _ |- _ => discriminate H
  | H : settle_all _ [] = Ok _ |- _ => cbn [settle_all] in H
  | H : settle_all _ (_ :: _) = Ok _ |- _ => cbn [settle_all settle] in H
  | H : c_string _ = Ok _ |- _ => apply c_string_iff in H
  | H : c_optional _ = Ok _ |- _ => apply c_optional_iff in H
  end.
Lemma sim_cells forms prog calls k : sim forms prog calls -> forall o m, (forall r c, same forms (o r c) (m r c)) ->
  forall r c, same forms (fold_left (c_cells_step k r c) prog (o r c)) (fold_left (cells_step k) calls m r c).
Proof.
  induction 1 as [|q l cs prog calls P S _ IH]; intros o m H r c; [apply H|]. rewrite fold_left_app. cbn [fold_left].
  apply (IH (fun r c => c_cells_step k r c (o r c) q) (fold_left (cells_step k) cs m)). clear IH r c. intros r c. specialize (H r c).
  destruct q; cbn [pend] in P; unfold c_text, valid_pend, c_opttext in P; unfold c_cells_step; cbn [cell_call].
  all: try (settled; cbn [fold_left cells_step]; exact H).
  all: try (settled; cbn [fold_left cells_step]; destruct (Nat.eqb k k0 && _ && _)%bool; [|exact H]; cbn [same holds]; eauto; fail).
  - settled. destruct (nth_error forms f) as [[own F]|] eqn:E; [|discriminate]. settled. cbn [fold_left cells_step]. destruct (Nat.eqb k k0 && _ && _)%bool; [|exact H]. cbn [same holds]. eauto.
  - settled. destruct (nth_error forms f) as [[own F]|] eqn:E; [|discriminate]. settled. cbn [fold_left cells_step]. destruct (Nat.eqb k k0 && _ && _)%bool; [|exact H]. cbn [same holds]. eauto.
  - destruct h as [[? ?] ?]. settled. exact H.
  - destruct h1 as [[? ?] ?], h2 as [[? ?] ?]. settled. exact H.
  - match type of P with context [passes ?x] => destruct x; cbn [passes] in P; repeat match type of P with (if ?b then _ else _) = _ => destruct b end; settled; exact H end.
Qed.
Lemma sim_fmt forms prog calls k r c : sim forms prog calls -> forall f, fold_left (fmt_step k r c) calls f = fold_left (c_fmt_step k r c) prog f.
Proof.
  induction 1 as [|q l cs prog calls P S _ IH]; intro f0; [reflexivity|]. rewrite fold_left_app. cbn [fold_left]. rewrite IH. f_equal. clear IH.
  destruct q; cbn [pend] in P; unfold c_text, valid_pend, c_opttext in P; unfold c_fmt_step; cbn [cell_call].
  all: try (settled; reflexivity).
  - settled. destruct (nth_error forms f) as [[own F]|] eqn:E; [|discriminate]. settled. reflexivity.
  - settled. destruct (nth_error forms f) as [[own F]|] eqn:E; [|discriminate]. settled. reflexivity.
  - destruct h as [[? ?] ?]. settled. reflexivity.
  - destruct h1 as [[? ?] ?], h2 as [[? ?] ?]. settled. reflexivity.
  - match type of P with context [passes ?x] => destruct x; cbn [passes] in P; repeat match type of P with (if ?b then _ else _) = _ => destruct b end; settled; reflexivity end.
Qed.
Definition note_is (v : option (bool * cptr * cptr)) (u : option (text * text)) : Prop :=
  match v, u with
  | Some (w, a, t), Some (ta, tr) => exists sa st, terminated a sa /\ terminated t st /\ ta = as_text w sa /\ tr = as_text w st
  | None, None => True
  | _, _ => False
  end.
Lemma sim_note forms prog calls k r c : sim forms prog calls -> forall o m, note_is o m ->
  note_is (fold_left (c_note_step k r c) prog o) (fold_left (note_step k r c) calls m).
Proof.
  induction 1 as [|q l cs prog calls P S _ IH]; intros o m H; [exact H|]. rewrite fold_left_app. cbn [fold_left]. apply IH. clear IH.
  destruct q; cbn [pend] in P; unfold c_text, valid_pend, c_opttext in P; cbn [c_note_step].
  all: try (settled; exact H).
  - settled. cbn [fold_left note_step].
    match goal with |- context [if ?b then Some (wide, _, _) else _] => match goal with |- context [if ?d then Some (as_text _ _, _) else _] => replace d with b end; [destruct b; [|exact H]|] end.
    + cbn [note_is]. eauto 8.
    + first [reflexivity|lia].
  - settled. destruct (nth_error forms f) as [[own F]|] eqn:E; [|discriminate]. settled. exact H.
  - settled. destruct (nth_error forms f) as [[own F]|] eqn:E; [|discriminate]. settled. exact H.
  - destruct h as [[? ?] ?]. settled. exact H.
  - destruct h1 as [[? ?] ?], h2 as [[? ?] ?]. settled. exact H.
  - match type of P with context [passes ?x] => destruct x; cbn [passes] in P; repeat match type of P with (if ?b then _ else _) = _ => destruct b end; settled; exact H end.
Qed.
Lemma sim_names forms prog calls : sim forms prog calls ->
  Forall2 (fun wp t => exists s, terminated (snd wp) s /\ t = as_text (fst wp) s) (c_sheets prog) (sheet_names calls).
Proof.
  induction 1 as [|q l cs prog calls P S _ IH]; [constructor|]. unfold sheet_names, c_sheets. rewrite flat_map_app. cbn [flat_map]. apply Forall2_app; [|exact IH]. clear IH.
  destruct q; cbn [pend] in P; unfold c_text, valid_pend, c_opttext in P.
  all: try (settled; cbn [flat_map names_step app]; constructor; fail).
  - settled. cbn [flat_map names_step app]. constructor; [|constructor]. eexists. split; [eassumption|reflexivity].
  - settled. destruct (nth_error forms f) as [[own F]|] eqn:E; [|discriminate]. settled. constructor.
  - settled. destruct (nth_error forms f) as [[own F]|] eqn:E; [|discriminate]. settled. constructor.
  - destruct h as [[? ?] ?]. settled. constructor.
  - destruct h1 as [[? ?] ?], h2 as [[? ?] ?]. settled. constructor.
  - match type of P with context [passes ?x] => destruct x; cbn [passes] in P; repeat match type of P with (if ?b then _ else _) = _ => destruct b end; settled; constructor end.
Qed.
Lemma sim_links forms prog calls k : sim forms prog calls ->
  Forall2 (fun x y => let '(w, r, c, u, m) := x in exists su sm, terminated u su /\ optional m sm /\ y = (r, c, as_text w su, as_text w sm)) (c_links k prog) (links_of k calls).
Proof.
  induction 1 as [|q l cs prog calls P S _ IH]; [constructor|]. unfold links_of, c_links. rewrite flat_map_app. cbn [flat_map]. apply Forall2_app; [|exact IH]. clear IH.
  destruct q; cbn [pend] in P; unfold c_text, valid_pend, c_opttext in P.
  all: try (settled; cbn [flat_map links_step app]; constructor; fail).
  - settled. destruct (nth_error forms f) as [[own F]|] eqn:E; [|discriminate]. settled. constructor.
  - settled. destruct (nth_error forms f) as [[own F]|] eqn:E; [|discriminate]. settled. constructor.
  - destruct h as [[? ?] ?]. settled. constructor.
  - destruct h1 as [[? ?] ?], h2 as [[? ?] ?]. settled. constructor.
  - settled. cbn [flat_map links_step app]. destruct (Nat.eqb k k0); constructor; [|constructor]. eexists. eexists. split; [eassumption|]. split; [eassumption|reflexivity].
  - match type of P with context [passes ?x] => destruct x; cbn [passes] in P; repeat match type of P with (if ?b then _ else _) = _ => destruct b end; settled; constructor end.
Qed.
Definition cond_is (forms : list (nat * formula)) (c : option nat) (x : option (list Z)) : Prop :=
  match c, x with
  | None, None => True
  | Some f, Some b => exists own F, nth_error forms f = Some (own, F) /\ formula_bytes F = Ok b
  | _, _ => False
  end.
Lemma cond_settled forms c x : cond_settle forms c = Ok x -> cond_is forms c x.
Proof.
  destruct c as [f|]; cbn [cond_settle]; intro H; [|apply ok_inj in H; subst; exact I].
  destruct (nth_error forms f) as [[own F]|] eqn:E; [|discriminate H]. apply bind_ok in H. destruct H as (b & Eb & H). apply ok_inj in H. subst x. cbn [cond_is]. eauto.
Qed.
Definition valid_is (forms : list (nat * formula)) (v : cvalid) (d : dvalid) : Prop :=
  cv_area v = (rg_fr (dv_range d), rg_lr (dv_range d), rg_fc (dv_range d), rg_lc (dv_range d)) /\ dv_options d = cv_options v
  /\ cond_is forms (cv_first v) (dv_cond1 d) /\ cond_is forms (cv_second v) (dv_cond2 d)
  /\ (exists t, optional (cv_ptitle v) t /\ dv_ptitle d = to16 (as_text (cv_wide v) t)) /\ (exists t, optional (cv_ptext v) t /\ dv_ptext d = to16 (as_text (cv_wide v) t))
  /\ (exists t, optional (cv_etitle v) t /\ dv_etitle d = to16 (as_text (cv_wide v) t)) /\ (exists t, optional (cv_etext v) t /\ dv_etext d = to16 (as_text (cv_wide v) t)).
Lemma sim_valids forms prog calls k : sim forms prog calls -> Forall2 (valid_is forms) (c_valids k prog) (dvs_of k calls).
Proof.
  induction 1 as [|q l cs prog calls P S _ IH]; [constructor|]. unfold dvs_of, c_valids. rewrite flat_map_app. cbn [flat_map]. apply Forall2_app; [|exact IH]. clear IH.
  destruct q; cbn [pend] in P; unfold c_text, valid_pend, c_opttext in P.
  all: try (settled; cbn [flat_map dvs_step app]; constructor; fail).
  - settled. destruct (nth_error forms f) as [[own F]|] eqn:E; [|discriminate]. settled. constructor.
  - settled. destruct (nth_error forms f) as [[own F]|] eqn:E; [|discriminate]. settled. constructor.
  - destruct h as [[? ?] ?]. settled. cbn [flat_map dvs_step app]. destruct (Nat.eqb k k0); constructor; [|constructor].
    unfold valid_is. cbn [cv_area cv_options cv_first cv_second cv_ptitle cv_ptext cv_etitle cv_etext cv_wide dv_range dv_options dv_cond1 dv_cond2 dv_ptitle dv_ptext dv_etitle dv_etext rg_fr rg_lr rg_fc rg_lc].
    split; [reflexivity|]. split; [reflexivity|]. split; [apply cond_settled; assumption|]. split; [apply cond_settled; assumption|]. repeat split; eexists; (split; [eassumption|reflexivity]).
  - destruct h1 as [[? ?] ?], h2 as [[? ?] ?]. settled. cbn [flat_map dvs_step app]. destruct (Nat.eqb k k0); constructor; [|constructor].
    unfold valid_is. cbn [cv_area cv_options cv_first cv_second cv_ptitle cv_ptext cv_etitle cv_etext cv_wide dv_range dv_options dv_cond1 dv_cond2 dv_ptitle dv_ptext dv_etitle dv_etext rg_fr rg_lr rg_fc rg_lc].
    split; [reflexivity|]. split; [reflexivity|]. split; [apply cond_settled; assumption|]. split; [apply cond_settled; assumption|]. repeat split; eexists; (split; [eassumption|reflexivity]).
  - match type of P with context [passes ?x] => destruct x; cbn [passes] in P; repeat match type of P with (if ?b then _ else _) = _ => destruct b end; settled; constructor end.
Qed.

(* ------------------------------------------------------------------ *)
(** * What is read from the saved file *)

Lemma terminated_one p s t : terminated p s -> terminated p t -> s = t.
Proof. intros A B. apply c_string_iff in A, B. congruence. Qed.
Lemma optional_one p s t : optional p s -> optional p t -> s = t.
Proof. intros A B. apply c_optional_iff in A, B. congruence. Qed.
Lemma holds_reads forms v u x : holds forms v u -> reads_as u x -> c_reads v x.
Proof.
  destruct v; cbn [holds c_reads].
  - intros (t & T & ->) (s & -> & H). exists s. split; [reflexivity|]. intros t' T' K St. rewrite (terminated_one _ _ _ T T') in H. apply H; [apply kept_as; exact K|exact St].
  - intros -> R. exact R.
  - intros -> R. exact R.
  - intros -> R. exact R.
  - intros -> R. exact R.
  - intros -> R. exact R.
  - intros (own & F & _ & Sv) R. unfold stack_value in Sv. apply bind_ok in Sv. destruct Sv as (b & _ & Sv). apply ok_inj in Sv. subst u. cbn [reads_as] in R. subst x. eexists. split; reflexivity.
Qed.
Lemma same_cell forms prog calls k r c : sim forms prog calls -> same forms (c_cells k prog r c) (cells_of k calls r c).
Proof. intro S. apply (sim_cells forms prog calls k S (fun _ _ => None) no_cells). intros. exact I. Qed.

(** For every C program within the limits: the file saved at its end shows the sheets in
    order, under the texts given as their names, and in each sheet exactly the cells last
    written, each with what the program passed: a text up to its terminator, a number, a
    truth value that is false only for 0, an error code. *)
Theorem C50_end_to_end R moves prog calls stream us us2 us3 names : c_calls prog = Ok calls -> saved_ok R moves calls stream -> R <= 32819 -> concat us = stream ->
  zlen stream + zlen (concat us2) + zlen (concat us3) <= 4294955000 ->
  Forall2 (fun wp n => terminated (snd wp) n /\ kept (fst wp) n /\ zlen n <= 255) (c_sheets prog) names ->
  exists f sheets, ole_image us us2 us3 = Ok f /\ read_file f = Some sheets /\ map rs_name sheets = names
    /\ forall k sh, nth_error sheets k = Some sh -> StronglySorted before (rs_cells sh)
      /\ (forall x, In x (rs_cells sh) -> exists v, c_cells k prog (rc_row x) (rc_col x) = Some v /\ c_reads v (rc_val x))
      /\ (forall r c v, c_cells k prog r c = Some v -> exists x, In x (rs_cells sh) /\ rc_row x = r /\ rc_col x = c).
Proof.
  intros E H HR Eu Hz Hn. destruct (calls_sim prog calls E) as (s & _ & S). pose proof (sim_names _ _ _ S) as N.
  assert (Nn : map units (sheet_names calls) = map Some names /\ Forall (fun n => zlen n <= 255) names).
  { clear - N Hn. revert names Hn. induction N as [|wp t l ts (s0 & T & ->) _ IH]; intros names Hn.
    - inversion Hn. subst. split; [reflexivity|constructor].
    - inversion Hn as [|? n ? ns (T' & K & L) F]. subst. destruct (IH ns F) as [A B]. cbn [map]. rewrite A, (terminated_one _ _ _ T T'), kept_as by exact K.
      split; [reflexivity|constructor; assumption]. }
  destruct Nn as [N1 N2]. destruct (C35_end_to_end R moves calls stream us us2 us3 names H HR Eu Hz N1 N2) as (f & sheets & E1 & E2 & E3 & C).
  exists f, sheets. split; [exact E1|]. split; [exact E2|]. split; [exact E3|]. intros k sh J. destruct (C k sh J) as [So [Ca Cb]]. split; [exact So|]. split.
  - intros x Jx. destruct (Ca x Jx) as (u & Eu' & Ru). pose proof (same_cell _ prog calls k (rc_row x) (rc_col x) S) as Q. rewrite Eu' in Q.
    destruct (c_cells k prog (rc_row x) (rc_col x)) as [v|]; [|destruct Q]. exists v. split; [reflexivity|]. eapply holds_reads; [exact Q|exact Ru].
  - intros r c v Ev. pose proof (same_cell _ prog calls k r c S) as Q. rewrite Ev in Q. destruct (cells_of k calls r c) as [u|] eqn:Ec; [|destruct Q]. exact (Cb r c u Ec).
Qed.
Print Assumptions C50_end_to_end.

(** A cell carries the format given with it, as long as no formatting call was made on it. *)
Theorem C50_cell_formats R moves prog calls stream k globals body r c v i : c_calls prog = Ok calls -> saved_ok R moves calls stream ->
  globals_in stream globals -> sheet_in stream k body -> c_cells k prog r c = Some v -> c_fmt k prog r c = Known i -> i < 65536 ->
  exists sst cells y, read_sst globals = Some sst /\ read_cells sst body = Some cells /\ In y cells /\ rc_row y = r /\ rc_col y = c /\ c_reads v (rc_val y) /\ rc_xf y = i.
Proof.
  intros E H Hg Hk Hc Hf Hi. destruct (calls_sim prog calls E) as (s & I & S). pose proof (same_cell _ prog calls k r c S) as Q. rewrite Hc in Q.
  destruct (cells_of k calls r c) as [u|] eqn:Ec; [|destruct Q]. destruct (C19_cell_reads_back _ _ _ _ _ _ _ _ _ _ H Hg Hk Ec) as (sst & cells & y & E1 & E2 & J & Er & Ecc & Rd & Rx).
  exists sst, cells, y. repeat (split; [assumption|]). split; [eapply holds_reads; [exact Q|exact Rd]|]. apply Rx; [|exact Hi]. unfold fmt_of. rewrite (sim_fmt _ _ _ k r c S). exact Hf.
Qed.
Print Assumptions C50_cell_formats.

(** Notes: at every position the last one, with the author and text that were passed. *)
Theorem C50_notes R moves prog calls stream k body : c_calls prog = Ok calls -> saved_ok R moves calls stream -> sheet_in stream k body -> zlen (filter (is_note k) calls) <= 65535 ->
  exists ns boxes, traverse read_note (payloads T_NOTE body) = Some ns /\ text_boxes body = Some boxes /\ map fst boxes = map rn_obj ns
    /\ (forall n text, In (n, text) (combine ns (map snd boxes)) -> exists w a t, c_note k prog (rn_row n) (rn_col n) = Some (w, a, t)
          /\ forall sa st, terminated a sa -> terminated t st -> kept w sa -> kept w st ->
            rn_author n = SpecObj.kept 54 AUTHOR_WARNING sa /\ text = rn_author n ++ [58; 10] ++ SpecObj.kept 2048 TEXT_WARNING st)
    /\ (forall r c, c_note k prog r c <> None -> exists n, In n ns /\ rn_row n = r /\ rn_col n = c).
Proof.
  intros E H Hk Hl. destruct (calls_sim prog calls E) as (s & I & S). destruct (C32_notes R moves calls stream k body H Hk Hl) as (ns & boxes & tree & E1 & E2 & _ & E3 & _ & _ & A & B).
  pose proof (fun r c => sim_note _ _ _ k r c S None None Logic.I) as N.
  exists ns, boxes. split; [exact E1|]. split; [exact E2|]. split; [exact E3|]. split.
  - intros n text J. destruct (A n text J) as (a & t & Ea & Sy). specialize (N (rn_row n) (rn_col n)). unfold note_of in Ea. rewrite Ea in N. unfold c_note.
    destruct (fold_left (c_note_step k (rn_row n) (rn_col n)) prog None) as [[[w pa] pt]|]; [|destruct N]. destruct N as (sa & st & Ta & Tt & -> & ->).
    exists w, pa, pt. split; [reflexivity|]. intros sa' st' Ta' Tt' Ka Kt. rewrite <- (terminated_one _ _ _ Ta Ta') in *. rewrite <- (terminated_one _ _ _ Tt Tt') in *. apply Sy; apply kept_as; assumption.
  - intros r c J. apply B. specialize (N r c). intro X. apply J. unfold note_of in X. rewrite X in N. unfold c_note. destruct (fold_left _ prog None) as [[[? ?] ?]|]; [destruct N|reflexivity].
Qed.
Print Assumptions C50_notes.

(** A formula cell shows the formula as it stands at the save: everything pushed on it, in
    order, whether before or after it was put into the cell, provided it was made for the
    sheet it is used on. *)
Lemma held prog s f k l : inv prog s -> nth_error (c_owners prog) f = Some k -> Forall2 push_says (c_pushes f prog) l ->
  nth_error (cs_forms s) f = Some (k, pushes (Some (Z.of_nat k)) l formula_new).
Proof.
  intros I O P. assert (J : exists F, nth_error (cs_forms s) f = Some (k, F)).
  { rewrite <- (iv_owners _ _ I), nth_error_map in O. destruct (nth_error (cs_forms s) f) as [[own F]|]; [|discriminate O]. cbn [option_map fst] in O. apply some_inj in O. subst own. eauto. }
  destruct J as [F J]. destruct (iv_held _ _ I f k F J) as (ops & Fo & ->). rewrite J. repeat f_equal.
  clear - Fo P. revert l P. induction Fo as [|q o qs ops Ho _ IH]; intros l P; inversion P as [|? x ? xs Hx Hxs]; subst; [reflexivity|].
  apply push_says_ok in Hx. rewrite Hx in Ho. apply ok_inj in Ho. subst. f_equal. apply IH. exact Hxs.
Qed.
Theorem C50_formula_cells R moves prog calls stream k globals body r c f arr l x arity : c_calls prog = Ok calls -> saved_ok R moves calls stream ->
  globals_in stream globals -> sheet_in stream k body -> c_cells k prog r c = Some (WFormula f arr) ->
  nth_error (c_owners prog) f = Some k -> Forall2 push_says (c_pushes f prog) l ->
  agrees arity -> postfix l x -> sane (Z.of_nat k) x -> plain x ->
  exists sst cells y g t, read_sst globals = Some sst /\ read_cells sst body = Some cells /\ In y cells /\ rc_row y = r /\ rc_col y = c
    /\ rc_val y = RFormula g /\ rf_array g = arr /\ read_formula arity (rf_toks g) = Some t /\ says (fun m => m) (Z.of_nat k) x t.
Proof.
  intros E H Hg Hk Hc Ho Hp A Po Sa Pl. destruct (calls_sim prog calls E) as (s & I & S). pose proof (same_cell _ prog calls k r c S) as Q. rewrite Hc in Q.
  destruct (cells_of k calls r c) as [u|] eqn:Ec; [|destruct Q]. destruct Q as (own & F & J & Sv). rewrite (held prog s f k l I Ho Hp) in J.
  apply some_inj, pair_equal_spec in J. destruct J as [_ <-]. exact (C27_saved_pushes R moves calls stream k globals body r c arr l x u arity H Hg Hk Ec Sv A Po Sa Pl).
Qed.
Print Assumptions C50_formula_cells.

(** Hyperlinks: position, address and text mark; a NULL mark is no mark. *)
Theorem C50_hyperlinks R moves prog calls stream k body : c_calls prog = Ok calls -> saved_ok R moves calls stream -> sheet_in stream k body ->
  exists links, traverse read_hlink (payloads T_HLINK body) = Some links /\ Forall2 c_link_says (c_links k prog) links.
Proof.
  intros E H Hk. destruct (calls_sim prog calls E) as (s & _ & S). destruct (C40_hyperlinks R moves calls stream k body H Hk) as (links & Er & F). exists links. split; [exact Er|].
  pose proof (sim_links _ _ _ k S) as L. clear - F L. revert links F. induction L as [|x y xs ys Hxy _ IH]; intros links F; inversion F as [|? z ? zs Hz Hzs]; subst; constructor; [|apply IH; exact Hzs].
  destruct x as [[[[w r] c] u] m]. destruct Hxy as (su & sm & Tu & Tm & ->). destruct Hz as (A & B & C & D). split; [exact A|]. split; [|split].
  - intros t T K. rewrite <- (terminated_one _ _ _ Tu T) in *. apply B, kept_as. exact K.
  - intro T. rewrite <- (optional_one _ _ _ Tm T) in *. rewrite (optional_one _ _ _ Tm T) in C. apply C. apply kept_as. constructor.
  - intros t T K Ne. rewrite <- (optional_one _ _ _ Tm T) in *. apply D; [apply kept_as; exact K|exact Ne].
Qed.
Print Assumptions C50_hyperlinks.

(** Validations: the area is the one cell or the rectangle between the two, the texts are
    those passed (none for NULL), the conditions the tokens of the two formulas. *)
Definition tokens_of (prog : list ccall) (f : nat) (b : list Z) : Prop :=
  forall k l x arity, nth_error (c_owners prog) f = Some k -> Forall2 push_says (c_pushes f prog) l -> agrees arity -> postfix l x -> sane (Z.of_nat k) x -> plain x ->
    exists t, read_formula arity b = Some t /\ says (fun m => m) (Z.of_nat k) x t.
Lemma cond_tokens prog s c x : inv prog s -> cond_is (cs_forms s) c x ->
  match c with None => cond_toks x = [30; 0; 0] | Some f => tokens_of prog f (cond_toks x) end.
Proof.
  intros I C. destruct c as [f|], x as [b|]; cbn [cond_is] in C; try destruct C; [|reflexivity]. destruct H as (F & J & B). cbn [cond_toks].
  intros k l e arity Ho Hp A Po Sa Pl. rewrite (held prog s f k l I Ho Hp) in J. apply some_inj, pair_equal_spec in J. destruct J as [_ <-].
  destruct (C27_pushes_read_back (Z.of_nat k) arity l e A Po Sa Pl) as (toks & t & B' & Rf & Sy). rewrite B in B'. apply ok_inj in B'. subst toks. eauto.
Qed.
Theorem C50_validations R moves prog calls stream k body : c_calls prog = Ok calls -> saved_ok R moves calls stream -> sheet_in stream k body ->
  zlen (c_valids k prog) < 4294967296 ->
  exists ds, traverse read_dv (payloads T_DV body) = Some ds /\ Forall2 (c_valid_says (tokens_of prog)) (c_valids k prog) ds.
Proof.
  intros E H Hk Hl. destruct (calls_sim prog calls E) as (s & I & S). pose proof (sim_valids _ _ _ k S) as V.
  assert (L : zlen (dvs_of k calls) < 4294967296).
  { replace (zlen (dvs_of k calls)) with (zlen (c_valids k prog)); [exact Hl|]. unfold zlen. f_equal. clear - V. induction V; cbn [length]; congruence. }
  destruct (C40_validations R moves calls stream k body H Hk L) as [Er _]. exists (map dv_as (dvs_of k calls)). split; [exact Er|]. clear - V I.
  induction V as [|v d vs ds Hv _ IH]; [constructor|]. constructor; [|exact IH]. destruct Hv as (A & O & C1 & C2 & (t1 & T1 & E1) & (t2 & T2 & E2) & (t3 & T3 & E3) & (t4 & T4 & E4)).
  unfold c_valid_says, dv_as. cbn [rd_areas rd_options rd_ptitle rd_ptext rd_etitle rd_etext rd_first rd_second]. rewrite A. split; [reflexivity|]. split; [exact O|].
  split; [intros t T K; rewrite E1, (optional_one _ _ _ T1 T); apply kept_units; exact K|].
  split; [intros t T K; rewrite E2, (optional_one _ _ _ T2 T); apply kept_units; exact K|].
  split; [intros t T K; rewrite E3, (optional_one _ _ _ T3 T); apply kept_units; exact K|].
  split; [intros t T K; rewrite E4, (optional_one _ _ _ T4 T); apply kept_units; exact K|].
  split; [exact (cond_tokens prog s _ _ I C1)|exact (cond_tokens prog s _ _ I C2)].
Qed.
Print Assumptions C50_validations.

(* ------------------------------------------------------------------ *)
(** * All calls *)

Lemma held_formula prog s f own F : inv prog s -> nth_error (cs_forms s) f = Some (own, F) -> cxx_formula prog f F.
Proof. intros I J own' l O P. rewrite (held prog s f own' l I O P) in J. apply some_inj, pair_equal_spec in J. symmetry. apply J. Qed.
Lemma held_condition prog s c x : inv prog s -> cond_is (cs_forms s) c x -> cxx_condition prog c x.
Proof. intros I C. destruct c as [f|], x as [b|]; cbn [cond_is] in C; try exact C. destruct C as (own & F & J & B). exists F. split; [eapply held_formula; eassumption|exact B]. Qed.
Lemma message w p t : optional p t -> cxx_message w p (to16 (as_text w t)).
Proof. intros O t' O' K. rewrite (optional_one _ _ _ O O'). apply kept_units. exact K. Qed.
(** A program is the C++ calls its functions stand for, in order. *)
Theorem C50_same_calls prog calls : c_calls prog = Ok calls -> exists parts, Forall2 (cxx prog) prog parts /\ calls = concat parts.
Proof.
  intro E. destruct (calls_sim prog calls E) as (s & I & S). clear E.
  enough (G : forall p cs, sim (cs_forms s) p cs -> exists parts, Forall2 (cxx prog) p parts /\ cs = concat parts) by exact (G prog calls S).
  clear S calls. induction 1 as [|q l cs p calls P S _ IH]; [exists []; split; [constructor|reflexivity]|].
  destruct IH as (parts & F & ->). exists (cs :: parts). split; [|reflexivity]. constructor; [|exact F]. clear F parts p.
  destruct q; cbn [pend] in P; unfold c_text, valid_pend, c_opttext in P.
  all: try (settled; econstructor; eassumption).
  all: try (settled; constructor; fail).
  - settled. destruct (Z.eqb_spec b 0) as [->|N]; [constructor|constructor; exact N].
  - settled. destruct (nth_error (cs_forms s) f) as [[own F]|] eqn:E; [|discriminate]. settled. econstructor; [eapply held_formula; eassumption|eassumption].
  - settled. destruct (nth_error (cs_forms s) f) as [[own F]|] eqn:E; [|discriminate]. settled. econstructor; [eapply held_formula; eassumption|eassumption].
  - destruct h as [[? ?] ?]. settled. constructor; try (eapply held_condition; [exact I|apply cond_settled; assumption]); apply message; assumption.
  - destruct h1 as [[? ?] ?], h2 as [[? ?] ?]. settled. constructor; try (eapply held_condition; [exact I|apply cond_settled; assumption]); apply message; assumption.
  - destruct (passes q) eqn:E; settled. constructor.
Qed.
Print Assumptions C50_same_calls.

(* ------------------------------------------------------------------ *)
(** * A program *)

(** Two sheets; a text with something behind its terminator, numbers, a true boolean given as
    2, a formula filled after it was put into its cell, a validation with NULL titles and a
    link without a mark. *)
Definition c_demo : list ccall :=
  [XSheet false (CAt [65; 0; 99]); XSheet true (CAt [1041; 66; 0]);
   XLabel false 0 0 0 (CAt [104; 105; 0; 120]) None; XNumberInt 0 4 2 (-5) None; XBoolean 0 1 0 2 None;
   XFormula 1; XFormula 0; XFormulaCell 1 8 3 0 None; XPush 0 (QCell (0%nat, 4, 2) RELATIVE_A1); XPush 1 (QInt 7);
   XPush 0 (QCell (1%nat, 6, 1) ABSOLUTE_sAs1); XPush 0 (QOperator (op_code OP_ADD));
   XValidateCell false 0 (0%nat, 4, 2) 257 (Some 1%nat) None CNull (CAt [81; 0]) CNull CNull;
   XHyperLink false 0 0 0 (CAt [104; 58; 0]) CNull; XPass (KActive 1)].
Definition c_demo_doc : list call :=
  [KSheet (TChar [65]); KSheet (TWide [1041; 66]);
   KCell 0 0 0 (ULabel (TChar [104; 105])) None; KCell 0 4 2 (UInt (-5)) None; KCell 0 1 0 (UBool true) None;
   KCell 1 8 3 (UFormula false [90; 0; 0; 4; 0; 2; 192; 68; 6; 0; 1; 0; 3] 13 (mkEst 18446462598733824002 2 None)) None;
   KValidate 0 (mkDV (mkRange 4 4 2 2) 257 (Some [30; 7; 0]) None [] [81] [] []);
   KHyperlink 0 0 0 (TChar [104; 58]) (TChar []); KActive 1].
Lemma c_demo_calls : c_calls c_demo = Ok c_demo_doc.
Proof. vm_compute. reflexivity. Qed.
Lemma c_demo_typed : Forall typed c_demo_doc.
Proof.
  unfold c_demo_doc. repeat (apply Forall_cons; [cbn [typed text_typed val_typed]; unfold dv_typed, u8, u16, u32; cbn;
    repeat split; try lia; try (repeat constructor; lia); try (intros t E; try discriminate E; injection E as <-; repeat constructor; lia)|]). apply Forall_nil.
Qed.
Lemma c_demo_fits : fits 40 c_demo_doc.
Proof.
  unfold c_demo_doc. small_fits. intro k. exists []. split; [cbn; lia|]. intros r H.
  match type of H with height_of k ?l r <> None => destruct (height_of k l r) as [[h p]|] eqn:E end; [|congruence]. apply heights_from in E. cbn [In] in E. each E.
Qed.
Lemma c_text_at l rest : ~ In 0 l -> terminated (CAt (l ++ 0 :: rest)) l.
Proof. intro H. exists rest. auto. Qed.
Example C50_case : exists stream globals body0 body1, c_calls c_demo = Ok c_demo_doc /\ saved_ok 40 (fun _ _ => false) c_demo_doc stream
  /\ globals_in stream globals /\ sheet_in stream 0 body0 /\ sheet_in stream 1 body1 /\ proper c_demo
  /\ Forall2 (fun wp n => terminated (snd wp) n /\ kept (fst wp) n /\ zlen n <= 255) (c_sheets c_demo) [[65]; [1041; 66]]
  /\ c_cells 0 c_demo 0 0 = Some (WText false (CAt [104; 105; 0; 120])) /\ c_cells 0 c_demo 1 0 = Some (WBool true)
  /\ c_cells 1 c_demo 8 3 = Some (WFormula 0 false) /\ nth_error (c_owners c_demo) 0 = Some 1%nat
  /\ Forall2 push_says (c_pushes 0 c_demo) [PReference 4 2 0 RELATIVE_A1 CELLOP_AS_VALUE; PReference 6 1 1 ABSOLUTE_sAs1 CELLOP_AS_VALUE; POperator (op_code OP_ADD)]
  /\ postfix [PReference 4 2 0 RELATIVE_A1 CELLOP_AS_VALUE; PReference 6 1 1 ABSOLUTE_sAs1 CELLOP_AS_VALUE; POperator (op_code OP_ADD)] linked_expr
  /\ sane 1 linked_expr /\ plain linked_expr
  /\ length (c_valids 0 c_demo) = 1%nat /\ length (c_links 0 c_demo) = 1%nat.
Proof.
  destruct (stream_of 400 c_demo_doc) as [s|] eqn:E.
  2:{ assert (K : match stream_of 400 c_demo_doc with Some _ => true | None => false end = true) by (vm_compute; reflexivity). rewrite E in K. discriminate K. }
  pose proof (small_saved _ _ _ c_demo_typed c_demo_fits E) as H. destruct (saved_view _ _ _ _ H) as [w V].
  destruct (proj1 (view_has_sheet _ _ _ _ V 0%nat)) as [b0 H0]; [cbn; lia|]. destruct (proj1 (view_has_sheet _ _ _ _ V 1%nat)) as [b1 H1]; [cbn; lia|]. pose proof (view_has_globals _ _ _ _ V) as Hg.
  exists s. eexists. exists b0, b1. split; [exact c_demo_calls|]. split; [exact H|]. split; [exact Hg|]. split; [exact H0|]. split; [exact H1|].
  split; [apply C50_proper_programs; eexists; exact c_demo_calls|].
  split. { cbn [c_sheets flat_map c_demo app]. constructor; [|constructor; [|constructor]]; cbn [fst snd].
    - split; [apply (c_text_at [65] [99]); cbn; lia|]. split; [repeat constructor; lia|vm_compute; discriminate].
    - split; [apply (c_text_at [1041; 66] []); cbn; lia|]. split; [repeat constructor; lia|vm_compute; discriminate]. }
  split; [reflexivity|]. split; [reflexivity|]. split; [reflexivity|]. split; [reflexivity|].
  split. { cbn [c_pushes flat_map c_demo app Nat.eqb]. constructor; [apply (ps_cell 0%nat)|]. constructor; [apply (ps_cell 1%nat)|]. constructor; [apply ps_op|constructor]. }
  split; [apply (px_binary OP_ADD _ _ [_] [_]); constructor|]. destruct linked_sane as (Sa & Pl & _). split; [exact Sa|]. split; [exact Pl|]. split; reflexivity.
Qed.

(** A program that is not proper: a label that is not terminated, and a NULL sheet name. *)
Example C50_improper : c_calls [XSheet false (CAt [65; 0]); XLabel false 0 0 0 (CAt [104; 105]) None] = UB /\ c_calls [XSheet true CNull] = UB
  /\ c_calls [XSheet false (CAt [65; 0]); XFormulaCell 0 0 0 0 None] = UB.
Proof. vm_compute. auto. Qed.

(** The proviso on the sheet is needed: a formula made for sheet A that refers to A's cell
    C5, put into a cell of sheet B, reads in B as a reference to B's own C5. *)
Definition c_foreign : list ccall :=
  [XSheet false (CAt [65; 0]); XSheet false (CAt [66; 0]); XNumberInt 0 4 2 5 None;
   XFormula 0; XPush 0 (QCell (0%nat, 4, 2) RELATIVE_A1); XFormulaCell 1 8 3 0 None].
Definition c_foreign_doc : list call :=
  [KSheet (TChar [65]); KSheet (TChar [66]); KCell 0 4 2 (UInt 5) None; KCell 1 8 3 (UFormula false [68; 4; 0; 2; 192] 5 (mkEst 18446462598733824002 2 None)) None].
Lemma c_foreign_typed : Forall typed c_foreign_doc.
Proof. unfold c_foreign_doc. small_typed. Qed.
Lemma c_foreign_fits : fits 40 c_foreign_doc.
Proof.
  unfold c_foreign_doc. small_fits. intro k. exists []. split; [cbn; lia|]. intros r H.
  match type of H with height_of k ?l r <> None => destruct (height_of k l r) as [[h p]|] eqn:E end; [|congruence]. apply heights_from in E. cbn [In] in E. each E.
Qed.
Theorem C50_foreign_formula_refuted : exists prog calls stream globals body f, c_calls prog = Ok calls /\ saved_ok 40 (fun _ _ => false) calls stream
  /\ globals_in stream globals /\ sheet_in stream 1 body
  /\ c_cells 1 prog 8 3 = Some (WFormula f false) /\ c_pushes f prog = [QCell (0%nat, 4, 2) RELATIVE_A1]
  /\ forall arity, exists sst cells y g, read_sst globals = Some sst /\ read_cells sst body = Some cells /\ In y cells /\ rc_row y = 8 /\ rc_col y = 3
    /\ rc_val y = RFormula g /\ read_formula arity (rf_toks g) = Some (FRef None (mkCorner 4 2 true true)).
Proof.
  destruct (stream_of 400 c_foreign_doc) as [s|] eqn:E.
  2:{ assert (K : match stream_of 400 c_foreign_doc with Some _ => true | None => false end = true) by (vm_compute; reflexivity). rewrite E in K. discriminate K. }
  pose proof (small_saved _ _ _ c_foreign_typed c_foreign_fits E) as H. destruct (saved_view _ _ _ _ H) as [w V].
  destruct (proj1 (view_has_sheet _ _ _ _ V 1%nat)) as [b1 H1]; [cbn; lia|]. pose proof (view_has_globals _ _ _ _ V) as Hg.
  exists c_foreign, c_foreign_doc, s. eexists. exists b1, 0%nat. split; [vm_compute; reflexivity|]. split; [exact H|]. split; [exact Hg|]. split; [exact H1|]. split; [reflexivity|]. split; [reflexivity|].
  intro arity. destruct (C19_cell_reads_back _ _ _ _ _ _ _ 8 3 _ H Hg H1 (eq_refl : cells_of 1 c_foreign_doc 8 3 = Some _)) as (sst & cells & y & E1 & E2 & J & Er & Ec & Rd & _).
  cbn [reads_as] in Rd. exists sst, cells, y. eexists. split; [exact E1|]. split; [exact E2|]. split; [exact J|]. split; [exact Er|]. split; [exact Ec|]. split; [exact Rd|]. reflexivity.
Qed.
Print Assumptions C50_foreign_formula_refuted.
