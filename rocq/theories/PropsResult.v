(** The result saved with a formula (C46). *)
From Coq Require Import ZArith List Bool Lia ZifyBool ZifyNat.
From Verif Require Import Bytes UnitModel UnitProofs SpecBuf BufProofs RecModel SheetModel XfModel WbModel XfInv ApiModel SpecBiff BookRecs ApiInv SpecApi ApiEff
  RecFrames RecProofs SheetProofs SheetTrace GlobTrace WbProofs SaveOk SaveRecs SaveRead SpecSaved SaveMeans DocLimits SavedView Lookups DemoDoc ViewPay
  PropsSheet RowBlocks PropsRows SpecObj PropsObj PropsCells FormulaModel SpecFormula PropsFormula SpecResult.
Import ListNotations.
Local Open Scope Z_scope.
Ltac Zify.zify_post_hook ::= Z.div_mod_to_equations.

(** The formula found at a position of a saved sheet. *)
Definition formula_at (globals body : list (Z * list Z)) (r c : Z) (f : rformula) : Prop :=
  exists sst cells y, read_sst globals = Some sst /\ read_cells sst body = Some cells /\ In y cells
    /\ rc_row y = r /\ rc_col y = c /\ rc_val y = RFormula f.
(** The result of a formula that is a single constant. *)
Definition constant_says (x : expr) (v : cached) : Prop :=
  match x with
  | EBool b => v = CBool b
  | EInt n => exists bits, v = CNumber bits /\ denotes (NDouble bits) n
  | ENum bits => v = CNumber bits
  | EErr e => v = CError e
  | EText s => v = CText s
  | _ => False
  end.
Definition constant (x : expr) : Prop :=
  match x with EBool _ | EInt _ | ENum _ | EErr _ | EText _ => True | _ => False end.
(** The number is none of the not-a-numbers whose first two bytes are FF FF. *)
Definition no_marker (x : expr) : Prop := match x with ENum bits => bits / 256 ^ 6 <> 65535 | _ => True end.

(* ------------------------------------------------------------------ *)

Definition seen (e : estimate) (arr : bool) (toks : list Z) : rformula := mkRF (fe_enc e) (fe_flags e) arr toks (fe_str e).
Lemma int_no_marker n : -4294967296 < n < 4294967296 -> double_of_int n / 256 ^ 6 <> 65535.
Proof.
  intro H. unfold double_of_int. destruct (n =? 0) eqn:E0; [discriminate|]. cbv zeta.
  destruct (log2_range (Z.abs n) ltac:(lia)) as [E P]. pose proof (double_mant _ _ E P). change (256 ^ 6) with 281474976710656. destruct (n <? 0); lia.
Qed.
Lemma guess_seen x g own arr toks : expr_guess x = Ok g -> sane own x -> constant x -> no_marker x ->
  exists v, cached_of (seen g arr toks) = Some v /\ constant_says x v /\ fe_flags g = 0.
Proof.
  intros E S C M. destruct x; try exact (False_ind _ C); cbn [expr_guess] in E;
    match type of E with Ok ?e = _ => assert (g = e) by congruence; subst g end; cbn [sane] in S.
  - destruct b; eexists; repeat split; reflexivity.
  - eexists. unfold cached_of, seen, estimate_of. cbn [rf_string rf_result fe_str fe_enc encode_guess].
    pose proof (int_no_marker n ltac:(lia)) as B. apply Z.eqb_neq in B. rewrite B. split; [reflexivity|]. split; [|reflexivity].
    exists (double_of_int n). split; [reflexivity|]. apply double_of_int_denotes. lia.
  - eexists. unfold cached_of, seen, estimate_of. cbn [rf_string rf_result fe_str fe_enc encode_guess].
    cbn [no_marker] in M. apply Z.eqb_neq in M. rewrite M. repeat split; reflexivity.
  - eexists. unfold cached_of, seen, estimate_of. cbn [rf_string rf_result fe_str fe_enc encode_guess].
    assert (E1 : (18446462598732840962 + e * 65536) / 256 ^ 6 = 65535) by (change (256 ^ 6) with 281474976710656; lia).
    assert (E2 : octet (18446462598732840962 + e * 65536) 0 = 2) by (unfold octet; change (256 ^ 0) with 1; lia).
    assert (E3 : octet (18446462598732840962 + e * 65536) 2 = e) by (unfold octet; change (256 ^ 2) with 65536; lia).
    rewrite E1, E2, E3. repeat split; reflexivity.
  - eexists. repeat split; reflexivity.
Qed.
(** The remaining trees: a well-formed result, to be calculated when the file is opened. *)
Definition due (e : estimate) : Prop := Z.testbit (fe_flags e) 1 = true /\ forall arr toks, cached_of (seen e arr toks) <> None.
Lemma due_of g always : (match g with GNum b => b / 256 ^ 6 =? 65535 | GInt n => double_of_int n / 256 ^ 6 =? 65535 | GErr e => negb (e =? 15) | _ => false end) = false ->
  due (estimate_of g always true).
Proof.
  intro H. split; [destruct always; reflexivity|]. intros arr toks. destruct g; unfold cached_of, seen, estimate_of; cbn [rf_string rf_result fe_str fe_enc encode_guess].
  - destruct b; discriminate.
  - rewrite H. discriminate.
  - rewrite H. discriminate.
  - assert (e = 15) by lia. subst e. discriminate.
  - discriminate.
Qed.
Lemma function_due f g : function_guess f = Ok g -> due g.
Proof.
  unfold function_guess. destruct (f =? 255); [discriminate|].
  repeat match goal with |- context [if ?b then Ok _ else _] => destruct b end; intro E;
    match type of E with Ok ?e = _ => assert (g = e) by congruence; subst g end; apply due_of; reflexivity.
Qed.
Lemma others_due x g : expr_guess x = Ok g -> ~ constant x -> x <> EMissing -> due g.
Proof.
  intros E C M. destruct x; try (exact (False_ind _ (C I))); try congruence; cbn [expr_guess] in E;
    try (match type of E with Ok ?e = _ => assert (g = e) by congruence; subst g end; apply due_of; reflexivity).
  eapply function_due, E.
Qed.
Lemma tree_parts own arr x v : tree_value own arr x = Ok v -> exists toks n g, v = UFormula arr toks n g /\ expr_guess x = Ok g.
Proof.
  unfold tree_value. destruct (dump (Some own) x formula_new) as [[e F]| |]; cbn [bind]; try discriminate.
  destruct (formula_bytes F) as [toks| |]; cbn [bind]; try discriminate. destruct (expr_size x) as [n| |]; cbn [bind]; try discriminate.
  destruct (expr_guess x) as [g| |]; cbn [bind]; try discriminate. intro E. exists toks, n, g. split; [congruence|reflexivity].
Qed.
Lemma formula_found R moves calls stream k globals body r c arr toks n g : saved_ok R moves calls stream ->
  globals_in stream globals -> sheet_in stream k body -> cells_of k calls r c = Some (UFormula arr toks n g) ->
  formula_at globals body r c (seen g arr toks).
Proof.
  intros H Hg Hk Hc. destruct (C19_cell_reads_back _ _ _ _ _ _ _ _ _ _ H Hg Hk Hc) as (sst & cells & y & E1 & E2 & J & Er & Ec & Rd & _).
  cbn [reads_as] in Rd. exists sst, cells, y. repeat (split; [assumption|]). exact Rd.
Qed.

(* ------------------------------------------------------------------ *)
(** * C46 *)

(** A formula that is a single constant is saved with that constant as its result, and
    nothing is left to calculate. *)
Theorem C46_constant_results_partial R moves calls stream k globals body r c arr x v : saved_ok R moves calls stream ->
  globals_in stream globals -> sheet_in stream k body -> cells_of k calls r c = Some v ->
  tree_value (Z.of_nat k) arr x = Ok v -> sane (Z.of_nat k) x -> constant x -> no_marker x ->
  exists f w, formula_at globals body r c f /\ cached_of f = Some w /\ constant_says x w
    /\ calc_on_open f = false /\ calc_always f = false.
Proof.
  intros H Hg Hk Hc Hv S C M. destruct (tree_parts _ _ _ _ Hv) as (toks & n & g & -> & E).
  destruct (guess_seen x g _ arr toks E S C M) as (w & W & Sy & Fl). exists (seen g arr toks), w.
  split; [eapply formula_found; eassumption|]. split; [exact W|]. split; [exact Sy|]. unfold calc_on_open, calc_always, seen. cbn [rf_flags]. rewrite Fl. split; reflexivity.
Qed.
Print Assumptions C46_constant_results_partial.
(** Every other tree is saved with a well-formed result and is calculated when the file is
    opened, so that the result the library guessed is not relied upon. *)
Theorem C46_others_calculated R moves calls stream k globals body r c arr x v : saved_ok R moves calls stream ->
  globals_in stream globals -> sheet_in stream k body -> cells_of k calls r c = Some v ->
  tree_value (Z.of_nat k) arr x = Ok v -> ~ constant x -> x <> EMissing ->
  exists f, formula_at globals body r c f /\ cached_of f <> None /\ calc_on_open f = true.
Proof.
  intros H Hg Hk Hc Hv C M. destruct (tree_parts _ _ _ _ Hv) as (toks & n & g & -> & E).
  destruct (others_due x g E C M) as [Fl W]. exists (seen g arr toks).
  split; [eapply formula_found; eassumption|]. split; [apply W|exact Fl].
Qed.
Print Assumptions C46_others_calculated.
(** So is every formula made of pushed tokens, whatever was pushed. *)
Theorem C46_pushed_calculated R moves calls stream k globals body r c arr F v : saved_ok R moves calls stream ->
  globals_in stream globals -> sheet_in stream k body -> cells_of k calls r c = Some v ->
  stack_value arr F = Ok v ->
  exists f, formula_at globals body r c f /\ cached_of f <> None /\ calc_on_open f = true.
Proof.
  intros H Hg Hk Hc Hv. unfold stack_value in Hv. destruct (formula_bytes F) as [toks| |]; cbn [bind] in Hv; try discriminate Hv.
  assert (Ev : v = UFormula arr toks (zlen toks) (estimate_of (GErr 15) false true)) by congruence. subst v.
  destruct (due_of (GErr 15) false eq_refl) as [Fl W]. eexists.
  split; [eapply formula_found; eassumption|]. split; [apply W|exact Fl].
Qed.
Print Assumptions C46_pushed_calculated.
(** A call of a volatile function is calculated with every calculation of the workbook. *)
Lemma volatile_always f g : In f volatile -> function_guess f = Ok g -> Z.testbit (fe_flags g) 0 = true.
Proof.
  unfold volatile. cbn [In]. intros J E.
  repeat (destruct J as [<-|J]; [match type of E with ?a = _ => let b := eval vm_compute in a in change a with b in E end; match type of E with Ok ?e = _ => assert (g = e) by congruence; subst g end; reflexivity|]).
  exact (False_ind _ J).
Qed.
Theorem C46_volatile_partial R moves calls stream k globals body r c arr fn cls args v : saved_ok R moves calls stream ->
  globals_in stream globals -> sheet_in stream k body -> cells_of k calls r c = Some v ->
  tree_value (Z.of_nat k) arr (EFunction fn cls args) = Ok v -> In fn volatile ->
  exists f, formula_at globals body r c f /\ calc_always f = true.
Proof.
  intros H Hg Hk Hc Hv J. destruct (tree_parts _ _ _ _ Hv) as (toks & n & g & -> & E). cbn [expr_guess] in E.
  exists (seen g arr toks). split; [eapply formula_found; eassumption|]. exact (volatile_always _ _ J E).
Qed.
Print Assumptions C46_volatile_partial.

(* ------------------------------------------------------------------ *)
(** * A document with results of every kind *)

(** Column B, from row 3 down: =TRUE, =-70000, ="né", a not-a-number written as a
    constant, =RAND() and =RAND()+1. *)
Definition results_tree (r : Z) : expr :=
  match r with
  | 2 => EBool true
  | 3 => EInt (-70000)
  | 4 => EText [110; 233]
  | 5 => ENum 18446462598732906497
  | 6 => EFunction 63 CELL_DEFAULT []
  | _ => EBinary OP_ADD (EFunction 63 CELL_DEFAULT []) (EInt 1)
  end.
Definition results_val (r : Z) : uval := match tree_value 0 false (results_tree r) with Ok v => v | _ => UBlank end.
Definition results_doc : list call := Eval vm_compute in
  KSheet (TChar [65]) :: map (fun r => KCell 0 r 1 (results_val r) None) [2; 3; 4; 5; 6; 7].
Lemma results_typed : Forall typed results_doc.
Proof. unfold results_doc. small_typed. Qed.
Lemma results_fits : fits 40 results_doc.
Proof.
  unfold results_doc. small_fits. intro k. exists []. split; [cbn; lia|]. intros r H.
  match type of H with height_of k ?l r <> None => destruct (height_of k l r) as [[h p]|] eqn:E end; [|congruence]. apply heights_from in E. cbn [In] in E. each E.
Qed.
Lemma results_saved : exists stream globals body, saved_ok 40 (fun _ _ => false) results_doc stream /\ globals_in stream globals /\ sheet_in stream 0 body.
Proof.
  destruct (stream_of 400 results_doc) as [s|] eqn:E.
  2:{ assert (K : match stream_of 400 results_doc with Some _ => true | None => false end = true) by (vm_compute; reflexivity). rewrite E in K. discriminate K. }
  pose proof (small_saved _ _ _ results_typed results_fits E) as H. destruct (saved_view _ _ _ _ H) as [w V].
  destruct (proj1 (view_has_sheet _ _ _ _ V 0%nat)) as [body Hb]; [cbn; lia|]. pose proof (view_has_globals _ _ _ _ V) as Hg.
  eexists s, _, body. split; [exact H|]. split; [exact Hg|exact Hb].
Qed.
Lemma results_value r : In r [2; 3; 4; 5; 6; 7] -> exists v, tree_value (Z.of_nat 0) false (results_tree r) = Ok v /\ cells_of 0 results_doc r 1 = Some v.
Proof. cbn [In]. intro J. repeat (destruct J as [<-|J]; [eexists; split; vm_compute; reflexivity|]). exact (False_ind _ J). Qed.
(** The hypotheses of the theorems are met, by constants and by other formulas. *)
Example C46_case : exists stream globals body, saved_ok 40 (fun _ _ => false) results_doc stream /\ globals_in stream globals /\ sheet_in stream 0 body
  /\ (forall r, In r [2; 3; 4; 5; 6; 7] -> exists v, tree_value (Z.of_nat 0) false (results_tree r) = Ok v /\ cells_of 0 results_doc r 1 = Some v)
  /\ (forall r, In r [2; 3; 4] -> sane 0 (results_tree r) /\ constant (results_tree r) /\ no_marker (results_tree r))
  /\ ~ constant (results_tree 7) /\ In 63 volatile.
Proof.
  destruct results_saved as (s & g & b & H & Hg & Hb). exists s, g, b. split; [exact H|]. split; [exact Hg|]. split; [exact Hb|]. split; [exact results_value|].
  split; [|split; [exact (fun f => f)|cbn; auto]]. cbn [In]. intros r J.
  repeat (destruct J as [<-|J]; [cbn [results_tree sane constant no_marker]; repeat split; try (unfold zlen; cbn [length]; lia); repeat constructor; lia|]). exact (False_ind _ J).
Qed.
(** A not-a-number whose first two bytes are FF FF is taken for the truth value it spells. *)
Theorem C46_constant_results_refuted : exists calls stream globals body bits v,
  saved_ok 40 (fun _ _ => false) calls stream /\ globals_in stream globals /\ sheet_in stream 0 body
  /\ 0 <= bits < 2 ^ 64 /\ tree_value 0 false (ENum bits) = Ok v /\ cells_of 0 calls 5 1 = Some v
  /\ exists f, formula_at globals body 5 1 f /\ cached_of f = Some (CBool true) /\ calc_on_open f = false.
Proof.
  destruct results_saved as (s & g & b & H & Hg & Hb). destruct (results_value 5 ltac:(cbn; auto)) as (v & Hv & Hc).
  exists results_doc, s, g, b, 18446462598732906497, v. split; [exact H|]. split; [exact Hg|]. split; [exact Hb|]. split; [lia|].
  split; [exact Hv|]. split; [exact Hc|]. destruct (tree_parts _ _ _ _ Hv) as (toks & n & e & -> & E).
  exists (seen e false toks). split; [eapply formula_found; eassumption|].
  match type of E with ?a = _ => let b := eval vm_compute in a in change a with b in E end.
  match type of E with Ok ?x = _ => assert (e = x) by congruence; subst e end. split; reflexivity.
Qed.
Print Assumptions C46_constant_results_refuted.
(** A volatile function inside a larger formula is not calculated again with the workbook. *)
Theorem C46_volatile_refuted : exists calls stream globals body fn v,
  saved_ok 40 (fun _ _ => false) calls stream /\ globals_in stream globals /\ sheet_in stream 0 body /\ In fn volatile
  /\ tree_value 0 false (EBinary OP_ADD (EFunction fn CELL_DEFAULT []) (EInt 1)) = Ok v /\ cells_of 0 calls 7 1 = Some v
  /\ exists f, formula_at globals body 7 1 f /\ calc_always f = false.
Proof.
  destruct results_saved as (s & g & b & H & Hg & Hb). destruct (results_value 7 ltac:(cbn; auto 10)) as (v & Hv & Hc).
  exists results_doc, s, g, b, 63, v. split; [exact H|]. split; [exact Hg|]. split; [exact Hb|]. split; [cbn; auto|].
  split; [exact Hv|]. split; [exact Hc|]. destruct (tree_parts _ _ _ _ Hv) as (toks & n & e & -> & E).
  exists (seen e false toks). split; [eapply formula_found; eassumption|].
  match type of E with ?a = _ => let b := eval vm_compute in a in change a with b in E end.
  match type of E with Ok ?x = _ => assert (e = x) by congruence; subst e end. reflexivity.
Qed.
Print Assumptions C46_volatile_refuted.
