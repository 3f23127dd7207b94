(** Lemmas about the C interface: texts, the formulas of a program, and the C++ calls it
    amounts to. *)
From Coq Require Import ZArith List Bool Lia ZifyBool ZifyNat.
From Verif Require Import Bytes UnitModel RecModel SpecBuf SheetModel XfModel ApiModel FormulaModel CApiModel RecProofs ApiInv SpecBiff SpecApi SpecSaved SaveRecs SaveMeans
  SpecObj SpecFormula PropsFormula SpecC.
Import ListNotations.
Local Open Scope Z_scope.

(* ------------------------------------------------------------------ *)
(** * Texts *)

Lemma upto_nul_app t rest : ~ In 0 t -> upto_nul (t ++ 0 :: rest) = Some t.
Proof.
  induction t as [|c t IH]; intro H; [reflexivity|]. cbn [app upto_nul]. rewrite IH by (intro J; apply H; right; exact J).
  destruct c; [exfalso; apply H; left; reflexivity|reflexivity|reflexivity].
Qed.
Lemma upto_nul_some l t : upto_nul l = Some t -> exists rest, l = t ++ 0 :: rest /\ ~ In 0 t.
Proof.
  revert t. induction l as [|c l IH]; intros t H; [discriminate H|]. cbn [upto_nul] in H. destruct (Z.eq_dec c 0) as [->|N].
  - apply some_inj in H. subst t. exists l. split; [reflexivity|intros []].
  - assert (E : match upto_nul l with Some s => Some (c :: s) | None => None end = Some t) by (destruct c; [congruence|exact H|exact H]).
    destruct (upto_nul l) as [s|]; [|discriminate E]. apply some_inj in E. subst t. destruct (IH s eq_refl) as (rest & -> & J).
    exists rest. split; [reflexivity|]. intros [K|K]; [congruence|exact (J K)].
Qed.
Lemma c_string_iff p t : c_string p = Ok t <-> terminated p t.
Proof.
  unfold c_string, terminated. split.
  - destruct p as [|l]; [discriminate|]. destruct (upto_nul l) as [s|] eqn:E; [|discriminate]. intro H. apply ok_inj in H. subst s.
    destruct (upto_nul_some _ _ E) as (rest & -> & J). eauto.
  - intros (rest & -> & J). rewrite upto_nul_app by exact J. reflexivity.
Qed.
Lemma c_string_cases p : (exists t, c_string p = Ok t) \/ c_string p = UB.
Proof. destruct p as [|l]; cbn [c_string]; [auto|]. destruct (upto_nul l); eauto. Qed.
Lemma c_optional_iff p t : c_optional p = Ok t <-> optional p t.
Proof.
  unfold c_optional, optional. destruct p as [|l].
  - split; [intro H; apply ok_inj in H; auto|]. intros [[_ ->]|(rest & E & _)]; [reflexivity|discriminate E].
  - rewrite c_string_iff. split; [auto|]. intros [[E _]|H]; [discriminate E|exact H].
Qed.
Lemma c_optional_cases p : (exists t, c_optional p = Ok t) \/ c_optional p = UB.
Proof. destruct p as [|l]; [left; eexists; reflexivity|apply c_string_cases]. Qed.
Lemma c_array_iff p n t : c_array p n = Ok t <-> first_of p n t.
Proof.
  unfold c_array, first_of. destruct n as [|n].
  - split; [intro H; apply ok_inj in H; subst; auto|]. intros [L _]. destruct t; [reflexivity|discriminate L].
  - destruct p as [|l].
    + split; [discriminate|]. intros [_ [H|[rest H]]]; discriminate H.
    + destruct (Nat.leb (S n) (length l)) eqn:E; apply Nat.leb_le in E || apply Nat.leb_gt in E; split.
      * intro H. apply ok_inj in H. subst t. rewrite firstn_length. split; [lia|]. right. exists (skipn (S n) l). rewrite firstn_skipn. reflexivity.
      * intros [L [H|[rest H]]]; [discriminate H|]. injection H as ->. f_equal. rewrite <- L, firstn_app, Nat.sub_diag, firstn_all, firstn_O, app_nil_r. reflexivity.
      * discriminate.
      * intros [L [H|[rest H]]]; [discriminate H|]. injection H as ->. rewrite app_length in E. lia.
Qed.
Lemma c_array_cases p n : (exists t, c_array p n = Ok t) \/ c_array p n = UB.
Proof. destruct n; cbn [c_array]; [eauto|]. destruct p as [|l]; [auto|]. destruct (Nat.leb _ _); eauto. Qed.

Lemma kept_units w t : kept w t -> to16 (as_text w t) = t.
Proof.
  intro H. destruct w; cbn [as_text to16]; unfold kept in H; induction H as [|c l Hc H IH]; cbn [map]; try reflexivity; f_equal; auto.
  - apply Z.mod_small. exact Hc.
  - replace (c <? 128) with true by lia. reflexivity.
Qed.
Lemma kept_as w t : kept w t -> units (as_text w t) = Some t.
Proof.
  intro H. unfold kept in H. destruct w; cbn [as_text units].
  - replace (forallb (fun c => c <? 65536) t) with true; [reflexivity|]. symmetry. apply forallb_forall. intros x J. rewrite Forall_forall in H. specialize (H x J). lia.
  - replace (forallb (fun c => c <? 128) t) with true; [reflexivity|]. symmetry. apply forallb_forall. intros x J. rewrite Forall_forall in H. specialize (H x J). lia.
Qed.

(* ------------------------------------------------------------------ *)
(** * Pushes *)

Lemma c_texts_ok w l rest ts : Forall2 terminated l ts -> c_texts w (l ++ rest) (length ts) = Ok (map (as_text w) ts).
Proof.
  induction 1 as [|p t l ts H _ IH]; [destruct rest; reflexivity|]. cbn [length app c_texts map]. unfold c_text. apply c_string_iff in H. rewrite H. cbn [bind].
  rewrite IH. reflexivity.
Qed.
Lemma map_kept w ts : Forall (kept w) ts -> map to16 (map (as_text w) ts) = ts.
Proof. induction 1 as [|t ts H _ IH]; [reflexivity|]. cbn [map]. rewrite kept_units by exact H. f_equal. exact IH. Qed.
Lemma push_says_ok q o : push_says q o -> bridge_push q = Ok o.
Proof.
  intros []; cbn [bridge_push ref_push area_push]; try reflexivity.
  - apply c_array_iff in H. rewrite H. reflexivity.
  - apply c_array_iff in H. rewrite H. cbn [bind]. rewrite kept_units by assumption. reflexivity.
  - unfold c_text. apply c_string_iff in H. rewrite H. cbn [bind]. rewrite kept_units by assumption. reflexivity.
  - rewrite (c_texts_ok w l rest ts H). cbn [bind]. rewrite map_kept by assumption. reflexivity.
Qed.
Lemma c_texts_cases w n : forall l, ((n <= length l)%nat /\ Forall has_text (firstn n l) /\ exists ts, c_texts w l n = Ok ts)
  \/ (~ ((n <= length l)%nat /\ Forall has_text (firstn n l)) /\ c_texts w l n = UB).
Proof.
  induction n as [|n IH]; intro l.
  - left. split; [lia|]. split; [constructor|]. exists []. destruct l; reflexivity.
  - destruct l as [|p l]; [right; split; [cbn [length]; lia|reflexivity]|]. cbn [firstn length c_texts]. unfold c_text.
    destruct (c_string_cases p) as [[t E]|E]; rewrite E; cbn [bind].
    + destruct (IH l) as [(L & F & ts & Es)|(N & Es)]; rewrite Es; cbn [bind].
      * left. split; [lia|]. split; [constructor; [exists t; apply c_string_iff; exact E|exact F]|]. eexists. reflexivity.
      * right. split; [|reflexivity]. intros [L F]. apply N. split; [lia|]. inversion F; assumption.
    + right. split; [|reflexivity]. intros [_ F]. inversion F as [|? ? [t Ht] _]. apply c_string_iff in Ht. congruence.
Qed.
Lemma push_cases q : (push_proper q /\ exists o, bridge_push q = Ok o) \/ (~ push_proper q /\ bridge_push q = UB).
Proof.
  destruct q; cbn [push_proper bridge_push]; try (left; split; [exact I|eexists; reflexivity]).
  - destruct (c_array_cases p n) as [[t E]|E]; rewrite E; [left|right]; (split; [|try (eexists; reflexivity); try reflexivity]).
    + exists t. apply c_array_iff. exact E.
    + intros [t Ht]. apply c_array_iff in Ht. congruence.
  - destruct (c_array_cases p n) as [[t E]|E]; rewrite E; [left|right]; (split; [|try (eexists; reflexivity); try reflexivity]).
    + exists t. apply c_array_iff. exact E.
    + intros [t Ht]. apply c_array_iff in Ht. congruence.
  - unfold c_text. destruct (c_string_cases p) as [[t E]|E]; rewrite E; [left|right]; (split; [|try (eexists; reflexivity); try reflexivity]).
    + exists t. apply c_string_iff. exact E.
    + intros [t Ht]. apply c_string_iff in Ht. congruence.
  - destruct (c_texts_cases wide n l) as [(L & F & ts & E)|(N & E)]; rewrite E; [left|right]; (split; [auto|try (eexists; reflexivity); try reflexivity]).
Qed.

(** Everything pushed can be written out. *)
Lemma appended_flat {A} (g : A -> list uop) l : (forall x, exists b, appended (g x) = Some b) -> exists b, appended (flat_map g l) = Some b.
Proof.
  intro H. induction l as [|x l [b IH]]; [eexists; reflexivity|]. cbn [flat_map]. destruct (H x) as [a E]. exists (a ++ b).
  revert a E. induction (g x) as [|o ops IHo]; intros a E.
  - apply some_inj in E. subst a. exact IH.
  - cbn [app appended] in *. destruct (op_bytes o) as [c|]; [|discriminate E]. destruct (appended ops) as [d|]; [|discriminate E].
    apply some_inj in E. subst a. rewrite (IHo d eq_refl), app_assoc. reflexivity.
Qed.
Lemma push_appended own o : (exists b, appended (snd (fst (push_ops own o))) = Some b) /\ exists b, appended (snd (push_ops own o)) = Some b.
Proof.
  assert (S : forall l : list (list Z), exists b, appended (flat_map (fun s => [OAdd8 1; OStr s LEN1]) l) = Some b) by (intro; apply appended_flat; intro; eexists; reflexivity).
  assert (N : forall l : list Z, exists b, appended (flat_map (fun x => [OAdd8 2; OAdd64 x]) l) = Some b) by (intro; apply appended_flat; intro; eexists; reflexivity).
  destruct o; cbn [push_ops]; cbv zeta; repeat match goal with |- context [if ?b then _ else _] => destruct b end; cbn [fst snd];
    try (split; eexists; reflexivity).
  - split; [eexists; reflexivity|]. destruct (S l) as [b E]. cbn [app appended op_bytes]. rewrite E. eexists. reflexivity.
  - split; [eexists; reflexivity|]. destruct (N l) as [b E]. cbn [app appended op_bytes]. rewrite E. eexists. reflexivity.
Qed.
Lemma unit_appended ops : (exists b, appended ops = Some b) -> exists b, unit_of ops = Ok b.
Proof.
  intros [b H]. unfold unit_of. cbn [arun_ops arun_op]. change (0 <? 10) with true. cbn [bind]. destruct (arun_appended ops [] b H) as [es E]. rewrite E. cbn [bind].
  eexists. reflexivity.
Qed.
Lemma formula_written own l : exists b, formula_bytes (pushes own l formula_new) = Ok b.
Proof.
  rewrite pushes_parts. unfold formula_bytes. cbn [f_main f_aux formula_new app].
  destruct (unit_appended (main_of own l)) as [m E]; [apply appended_flat; intro; apply push_appended|]. rewrite E. cbn [bind].
  destruct (unit_appended (aux_of own l)) as [a Ea]; [apply appended_flat; intro; apply push_appended|]. rewrite Ea. cbn [bind]. eauto.
Qed.

(* ------------------------------------------------------------------ *)
(** * Programs *)

Lemma passes_iff q : passes q = true <-> offered q.
Proof.
  split.
  - destruct q; cbn [passes]; intro H; try discriminate H; try (constructor; fail).
    + constructor. intros n E. subst. discriminate H.
    + constructor. intros n E. subst. discriminate H.
  - destruct 1; cbn [passes]; try reflexivity.
    + destruct o; try reflexivity. match goal with |- no_name ?x = true => destruct x end; try reflexivity. exfalso. eapply H. reflexivity.
    + destruct o; try reflexivity. exfalso. eapply H. reflexivity.
Qed.


(** The C++ calls one C call leads to, formulas still open. *)
Definition valid_pend (wide : bool) (k : nat) (r : range) (options : Z) (c1 c2 : option nat) (a b c d : cptr) : res (list pending) :=
  let* ta := c_opttext wide a in let* tb := c_opttext wide b in let* tc := c_opttext wide c in let* td := c_opttext wide d in
  Ok [NValid k r options c1 c2 (to16 ta) (to16 tb) (to16 tc) (to16 td)].
Definition pend (q : ccall) : res (list pending) :=
  match q with
  | XSheet wide p => let* t := c_text wide p in Ok [NDone (KSheet t)]
  | XFont p => let* n := c_string p in Ok [NDone (KFont n)]
  | XFormat wide p => let* t := c_text wide p in Ok [NDone (KFormat t)]
  | XLabel wide k r c p xf => let* t := c_text wide p in Ok [NDone (KCell k r c (ULabel t) xf)]
  | XBlank k r c xf => Ok [NDone (KCell k r c UBlank xf)]
  | XNumberDbl k r c bits xf => Ok [NDone (KCell k r c (UDouble bits) xf)]
  | XNumberInt k r c n xf => Ok [NDone (KCell k r c (UInt n) xf)]
  | XBoolean k r c b xf => Ok [NDone (KCell k r c (UBool (negb (b =? 0))) xf)]
  | XError k r c e xf => Ok [NDone (KCell k r c (UErr e) xf)]
  | XNote wide k r c a t => let* ta := c_text wide a in let* tr := c_text wide t in Ok [NDone (KNote k r c ta tr)]
  | XFormula _ | XPush _ _ => Ok []
  | XFormulaCell k r c f xf => Ok [NFormula k r c false f xf]
  | XFormulaCellArray k r c f xf => Ok [NFormula k r c true f xf]
  | XValidateCell wide k (_, row, col) o c1 c2 a b c d => valid_pend wide k (mkRange row row col col) o c1 c2 a b c d
  | XValidateArea wide k (_, row1, col1) (_, row2, col2) o c1 c2 a b c d => valid_pend wide k (mkRange row1 row2 col1 col2) o c1 c2 a b c d
  | XHyperLink wide k r c url mark => let* u := c_text wide url in let* m := c_opttext wide mark in Ok [NDone (KHyperlink k r c u m)]
  | XCellFontname k r c p => let* n := c_string p in Ok [NDone (KCellOp k r c (CFont (NName n)))]
  | XFontSetName i p => let* n := c_string p in Ok [NDone (KFontSet i (NName n))]
  | XPass q => if passes q then Ok [NDone q] else UB
  end.
(** The formulas a pending call needs. *)
Definition needs (q : pending) : list nat :=
  match q with
  | NDone _ => []
  | NFormula _ _ _ _ f _ => [f]
  | NValid _ _ _ c1 c2 _ _ _ _ => match c1 with Some f => [f] | None => [] end ++ match c2 with Some f => [f] | None => [] end
  end.
Record inv (prog : list ccall) (s : cstate) : Prop := {
  iv_owners : map fst (cs_forms s) = c_owners prog;
  iv_held : forall f own F, nth_error (cs_forms s) f = Some (own, F) -> exists ops,
    Forall2 (fun q o => bridge_push q = Ok o) (c_pushes f prog) ops /\ F = pushes (Some (Z.of_nat own)) ops formula_new;
  iv_early : forall f, (length (cs_forms s) <= f)%nat -> c_pushes f prog = [];
  iv_needs : forall q f, In q (cs_calls s) -> In f (needs q) -> (f < length (cs_forms s))%nat;
  iv_calls : exists ls, Forall2 (fun q l => pend q = Ok l) prog ls /\ cs_calls s = concat ls }.
Lemma inv_new : inv [] cs_new.
Proof.
  constructor; cbn [cs_new cs_forms cs_calls].
  - reflexivity.
  - intros [|f] own F H; discriminate H.
  - reflexivity.
  - intros q f [].
  - exists []. split; [constructor|reflexivity].
Qed.
Lemma owners_app a b : c_owners (a ++ b) = c_owners a ++ c_owners b.
Proof. apply flat_map_app. Qed.
Lemma c_pushes_app f a b : c_pushes f (a ++ b) = c_pushes f a ++ c_pushes f b.
Proof. apply flat_map_app. Qed.
Lemma inv_add prog s q l : inv prog s -> pend q = Ok l -> c_owners [q] = [] -> (forall f, c_pushes f [q] = []) ->
  (forall p f, In p l -> In f (needs p) -> (f < length (cs_forms s))%nat) -> inv (prog ++ [q]) (mkCS (cs_calls s ++ l) (cs_forms s)).
Proof.
  intros [O H E N (ls & F & C)] P Po Pp Pn. constructor; cbn [cs_forms cs_calls].
  - rewrite owners_app, Po, app_nil_r. exact O.
  - intros f own G J. rewrite c_pushes_app, Pp, app_nil_r. apply H. exact J.
  - intros f J. rewrite c_pushes_app, Pp, app_nil_r. apply E. exact J.
  - intros p f J K. apply in_app_iff in J. destruct J as [J|J]; [exact (N p f J K)|exact (Pn p f J K)].
  - exists (ls ++ [l]). split; [apply Forall2_app; [exact F|constructor; [exact P|constructor]]|]. rewrite concat_app, C. cbn [concat]. rewrite app_nil_r. reflexivity.
Qed.
Lemma inv_form prog s k : inv prog s -> inv (prog ++ [XFormula k]) (mkCS (cs_calls s) (cs_forms s ++ [(k, formula_new)])).
Proof.
  intros [O H E N (ls & F & C)]. constructor; cbn [cs_forms cs_calls].
  - rewrite owners_app, map_app, O. reflexivity.
  - intros f own G J. rewrite c_pushes_app. cbn [c_pushes flat_map]. rewrite app_nil_r. destruct (Nat.lt_ge_cases f (length (cs_forms s))) as [L|L].
    + rewrite nth_error_app1 in J by exact L. apply H. exact J.
    + rewrite nth_error_app2 in J by exact L. rewrite (E f L). destruct (f - length (cs_forms s))%nat as [|n]; [|destruct n; discriminate J].
      cbn [nth_error] in J. apply some_inj, pair_equal_spec in J. destruct J as [<- <-]. exists []. split; [constructor|reflexivity].
  - intros f J. rewrite app_length in J. cbn [length] in J. rewrite c_pushes_app. rewrite (E f) by lia. reflexivity.
  - intros p f J K. rewrite app_length. specialize (N p f J K). lia.
  - exists (ls ++ [[]]). split; [apply Forall2_app; [exact F|constructor; [reflexivity|constructor]]|]. rewrite concat_app, C. cbn [concat app]. rewrite app_nil_r. reflexivity.
Qed.
Lemma inv_push prog s g p own G o : inv prog s -> nth_error (cs_forms s) g = Some (own, G) -> bridge_push p = Ok o ->
  inv (prog ++ [XPush g p]) (mkCS (cs_calls s) (upd g (own, snd (push (Some (Z.of_nat own)) G o)) (cs_forms s))).
Proof.
  intros [O H E N (ls & F & C)] Hg Hp. assert (L : (g < length (cs_forms s))%nat) by (apply nth_error_Some; congruence). constructor; cbn [cs_forms cs_calls].
  - rewrite owners_app. cbn [c_owners flat_map app]. rewrite app_nil_r, <- O.
    clear - Hg. revert g Hg. induction (cs_forms s) as [|x l IH]; intros [|g] Hg; cbn [nth_error upd map] in *; try discriminate Hg; [apply some_inj in Hg; subst x; reflexivity|f_equal; apply IH; exact Hg].
  - intros f own' F' J. rewrite c_pushes_app. cbn [c_pushes flat_map]. rewrite nth_upd in J. destruct (Nat.eq_dec f g) as [->|Ne].
    + rewrite !Nat.eqb_refl, Hg in *. cbn [app]. apply some_inj, pair_equal_spec in J. destruct J as [<- <-]. destruct (H g own G Hg) as (ops & Fo & ->).
      exists (ops ++ [o]). split; [apply Forall2_app; [exact Fo|constructor; [exact Hp|constructor]]|]. unfold pushes. rewrite fold_left_app. reflexivity.
    + replace (Nat.eqb f g) with false in * by (symmetry; apply Nat.eqb_neq; exact Ne). cbn [app]. rewrite app_nil_r. apply H.
      destruct (Nat.eqb g f) eqn:E2; [apply Nat.eqb_eq in E2; congruence|exact J].
  - intros f J. rewrite upd_len in J. rewrite c_pushes_app. rewrite (E f J). cbn [c_pushes flat_map app]. replace (Nat.eqb f g) with false by (symmetry; apply Nat.eqb_neq; lia). reflexivity.
  - intros q f J K. rewrite upd_len. exact (N q f J K).
  - exists (ls ++ [[]]). split; [apply Forall2_app; [exact F|constructor; [reflexivity|constructor]]|]. rewrite concat_app, C. cbn [concat app]. rewrite app_nil_r. reflexivity.
Qed.
(** One step: the state stays as described, and the step is defined exactly for a proper
    call; otherwise the behaviour is undefined. *)
Lemma opttext_cases w p : (has_optional p /\ exists t, c_opttext w p = Ok t) \/ (~ has_optional p /\ c_opttext w p = UB).
Proof.
  unfold c_opttext. destruct (c_optional_cases p) as [[t E]|E]; rewrite E; [left|right]; cbn [bind]; (split; [|try (eexists; reflexivity); try reflexivity]).
  - exists t. apply c_optional_iff. exact E.
  - intros [t Ht]. apply c_optional_iff in Ht. congruence.
Qed.
Lemma string_cases p : (has_text p /\ exists t, c_string p = Ok t) \/ (~ has_text p /\ c_string p = UB).
Proof.
  destruct (c_string_cases p) as [[t E]|E]; rewrite E; [left|right]; (split; [|try (eexists; reflexivity); try reflexivity]).
  - exists t. apply c_string_iff. exact E.
  - intros [t Ht]. apply c_string_iff in Ht. congruence.
Qed.
Lemma text_cases w p : (has_text p /\ exists t, c_text w p = Ok t) \/ (~ has_text p /\ c_text w p = UB).
Proof. unfold c_text. destruct (string_cases p) as [(H & t & E)|(H & E)]; rewrite E; [left|right]; cbn [bind]; (split; [auto|try (eexists; reflexivity); try reflexivity]). Qed.
Definition steps (prog : list ccall) (s : cstate) (q : ccall) : Prop :=
  (call_proper prog q /\ exists s', c_step s q = Ok s' /\ inv (prog ++ [q]) s') \/ (~ call_proper prog q /\ c_step s q = UB).
Lemma known_iff prog s f : inv prog s -> formula_known s f = true <-> made prog f.
Proof. intro I. unfold formula_known, made. rewrite <- (iv_owners _ _ I), map_length. apply Nat.ltb_lt. Qed.
Lemma cond_iff prog s f : inv prog s -> cond_known s f = true <-> cond_made prog f.
Proof. intro I. destruct f as [f|]; [apply known_iff; exact I|cbn; tauto]. Qed.
Lemma step_done prog s q c : inv prog s -> c_step s q = cs_add s (NDone c) -> pend q = Ok [NDone c] -> c_owners [q] = [] -> (forall f, c_pushes f [q] = []) -> call_proper prog q ->
  steps prog s q.
Proof.
  intros I E P O U C. left. split; [exact C|]. eexists. split; [rewrite E; reflexivity|]. apply inv_add; auto. intros p f [<-|[]] [].
Qed.
Lemma step_valid prog s q wide k r o c1 c2 a b c d : inv prog s ->
  c_step s q = validate_as s wide k r o c1 c2 a b c d -> pend q = valid_pend wide k r o c1 c2 a b c d -> c_owners [q] = [] -> (forall f, c_pushes f [q] = []) ->
  (call_proper prog q <-> cond_made prog c1 /\ cond_made prog c2 /\ has_optional a /\ has_optional b /\ has_optional c /\ has_optional d) -> steps prog s q.
Proof.
  intros I E P O U C. unfold steps. rewrite E, C. unfold validate_as. unfold valid_pend in P.
  destruct (opttext_cases wide a) as [(Ha & ta & Ea)|(Ha & Ea)]; rewrite Ea in *; cbn [bind] in *; [|right; tauto].
  destruct (opttext_cases wide b) as [(Hb & tb & Eb)|(Hb & Eb)]; rewrite Eb in *; cbn [bind] in *; [|right; tauto].
  destruct (opttext_cases wide c) as [(Hc & tc & Ec)|(Hc & Ec)]; rewrite Ec in *; cbn [bind] in *; [|right; tauto].
  destruct (opttext_cases wide d) as [(Hd & td & Ed)|(Hd & Ed)]; rewrite Ed in *; cbn [bind] in *; [|right; tauto].
  pose proof (cond_iff prog s c1 I) as K1. pose proof (cond_iff prog s c2 I) as K2.
  destruct (cond_known s c1) eqn:E1; cbn [andb]; [|right; split; [|reflexivity]; intros (X & _); apply K1 in X; discriminate X].
  destruct (cond_known s c2) eqn:E2; [|right; split; [|reflexivity]; intros (_ & X & _); apply K2 in X; discriminate X].
  left. split; [intuition|]. eexists. split; [reflexivity|]. apply inv_add; auto. intros p f [<-|[]] J. cbn [needs] in J. apply in_app_iff in J.
  destruct J as [J|J].
  - destruct c1 as [g|]; [|destruct J]. destruct J as [<-|[]]. apply Nat.ltb_lt. exact E1.
  - destruct c2 as [g|]; [|destruct J]. destruct J as [<-|[]]. apply Nat.ltb_lt. exact E2.
Qed.
Lemma one_step prog s q : inv prog s -> steps prog s q.
Proof.
  intro I. destruct q.
  - destruct (text_cases wide name) as [(H & t & E)|(H & E)]; [eapply step_done; cbn [c_step pend]; try rewrite E; try reflexivity; auto|right; cbn [call_proper c_step]; rewrite E; auto].
  - destruct (string_cases name) as [(H & t & E)|(H & E)]; [eapply step_done; cbn [c_step pend]; try rewrite E; try reflexivity; auto|right; cbn [call_proper c_step]; rewrite E; auto].
  - destruct (text_cases wide name) as [(H & t & E)|(H & E)]; [eapply step_done; cbn [c_step pend]; try rewrite E; try reflexivity; auto|right; cbn [call_proper c_step]; rewrite E; auto].
  - destruct (text_cases wide p) as [(H & t & E)|(H & E)]; [eapply step_done; cbn [c_step pend]; try rewrite E; try reflexivity; auto|right; cbn [call_proper c_step]; rewrite E; auto].
  - eapply step_done; try reflexivity; auto.
  - eapply step_done; try reflexivity; auto.
  - eapply step_done; try reflexivity; auto.
  - eapply step_done; try reflexivity; auto.
  - eapply step_done; try reflexivity; auto.
  - destruct (text_cases wide author) as [(H & t & E)|(H & E)]; [|right; cbn [call_proper c_step]; rewrite E; cbn [bind]; tauto].
    destruct (text_cases wide remark) as [(H' & t' & E')|(H' & E')]; [|right; cbn [call_proper c_step]; rewrite E, E'; cbn [bind]; tauto].
    eapply step_done; cbn [c_step pend]; try rewrite E, E'; try reflexivity; auto. split; auto.
  - left. split; [exact Logic.I|]. eexists. split; [reflexivity|]. apply inv_form. exact I.
  - unfold steps. cbn [call_proper c_step]. pose proof (known_iff prog s f I) as K. unfold formula_known in K. destruct (nth_error (cs_forms s) f) as [[own F]|] eqn:E.
    + assert (L : (f < length (cs_forms s))%nat) by (apply nth_error_Some; congruence).
      destruct (push_cases q) as [(H & o & Eo)|(H & Eo)]; rewrite Eo; cbn [bind]; [left|right; tauto].
      split; [split; [apply K, Nat.ltb_lt, L|exact H]|]. destruct (push (Some (Z.of_nat own)) F o) as [e F1] eqn:Ep. eexists. split; [reflexivity|].
      replace F1 with (snd (push (Some (Z.of_nat own)) F o)) by (rewrite Ep; reflexivity). apply inv_push; auto.
    + right. split; [|reflexivity]. intros [M _]. apply K, Nat.ltb_lt in M. apply nth_error_None in E. lia.
  - unfold steps. cbn [call_proper c_step]. pose proof (known_iff prog s f I) as K. destruct (formula_known s f) eqn:E; [left|right; split; [|reflexivity]; intro M; apply K in M; discriminate M].
    split; [apply K; reflexivity|]. eexists. split; [reflexivity|]. apply inv_add; auto. intros p g [<-|[]] [<-|[]]. apply Nat.ltb_lt. exact E.
  - unfold steps. cbn [call_proper c_step]. pose proof (known_iff prog s f I) as K. destruct (formula_known s f) eqn:E; [left|right; split; [|reflexivity]; intro M; apply K in M; discriminate M].
    split; [apply K; reflexivity|]. eexists. split; [reflexivity|]. apply inv_add; auto. intros p g [<-|[]] [<-|[]]. apply Nat.ltb_lt. exact E.
  - destruct h as [[hk hr] hc]. eapply step_valid; try reflexivity; auto.
  - destruct h1 as [[hk hr] hc], h2 as [[hk' hr'] hc']. eapply step_valid; try reflexivity; auto.
  - destruct (text_cases wide url) as [(H & t & E)|(H & E)]; [|right; cbn [call_proper c_step]; rewrite E; cbn [bind]; tauto].
    destruct (opttext_cases wide mark) as [(H' & t' & E')|(H' & E')]; [|right; cbn [call_proper c_step]; rewrite E, E'; cbn [bind]; tauto].
    eapply step_done; cbn [c_step pend]; try rewrite E, E'; try reflexivity; auto. split; auto.
  - destruct (string_cases name) as [(H & t & E)|(H & E)]; [eapply step_done; cbn [c_step pend]; try rewrite E; try reflexivity; auto|right; cbn [call_proper c_step]; rewrite E; auto].
  - destruct (string_cases name) as [(H & t & E)|(H & E)]; [eapply step_done; cbn [c_step pend]; try rewrite E; try reflexivity; auto|right; cbn [call_proper c_step]; rewrite E; auto].
  - destruct (passes q) eqn:E; [eapply step_done; cbn [c_step pend]; try rewrite E; try reflexivity; auto; apply passes_iff; exact E|right; cbn [call_proper c_step]; rewrite E; split; [rewrite <- passes_iff, E; discriminate|reflexivity]].
Qed.
Lemma fold_res_app {A S} (f : S -> A -> res S) l m s : fold_res f (l ++ m) s = bind (fold_res f l s) (fold_res f m).
Proof. revert s. induction l as [|a l IH]; intro s; [reflexivity|]. cbn [app fold_res]. destruct (f s a); cbn [bind]; auto. Qed.
Lemma runs prog : (proper prog /\ exists s, c_run prog = Ok s /\ inv prog s) \/ (~ proper prog /\ c_run prog = UB).
Proof.
  induction prog as [|q prog IH] using rev_ind.
  - left. split; [intros [|? ?] ? ? E; discriminate E|]. exists cs_new. split; [reflexivity|apply inv_new].
  - unfold c_run in *. rewrite fold_res_app. destruct IH as [(P & s & E & I)|(P & E)]; rewrite E; cbn [bind fold_res].
    + destruct (one_step prog s q I) as [(Pq & s' & E' & I')|(Pq & E')]; rewrite E'; cbn [bind]; [left|right]; (split; [|try reflexivity; eauto]).
      * intros pre q' post Eq. destruct post as [|y post _] using rev_ind.
        -- apply app_inj_tail in Eq. destruct Eq as [<- <-]. exact Pq.
        -- change (q' :: post ++ [y]) with ((q' :: post) ++ [y]) in Eq. rewrite app_assoc in Eq. apply app_inj_tail in Eq. destruct Eq as [-> _]. eapply P. reflexivity.
      * intro P'. apply Pq. eapply (P' prog q []). reflexivity.
    + right. split; [|reflexivity]. intro P'. apply P. intros pre q' post ->. apply (P' pre q' (post ++ [q])). rewrite <- app_assoc. reflexivity.
Qed.

(** The calls at the save. *)
Lemma settle_app forms a b : settle_all forms (a ++ b) = let* x := settle_all forms a in let* y := settle_all forms b in Ok (x ++ y).
Proof.
  induction a as [|q a IH]; cbn [app settle_all bind]; [destruct (settle_all forms b); reflexivity|]. destruct (settle forms q); cbn [bind]; auto.
  rewrite IH. destruct (settle_all forms a); cbn [bind]; auto. destruct (settle_all forms b); reflexivity.
Qed.
Lemma settles prog s : inv prog s -> exists calls, settle_all (cs_forms s) (cs_calls s) = Ok calls.
Proof.
  intro I. pose proof (iv_needs _ _ I) as N. induction (cs_calls s) as [|q l IH]; [eexists; reflexivity|]. cbn [settle_all].
  destruct IH as [r Er]; [intros p f J; apply N; right; exact J|]. rewrite Er.
  assert (B : forall f, In f (needs q) -> exists own ops b, nth_error (cs_forms s) f = Some (own, pushes (Some (Z.of_nat own)) ops formula_new) /\ formula_bytes (pushes (Some (Z.of_nat own)) ops formula_new) = Ok b).
  { intros f J. specialize (N q f (or_introl eq_refl) J). apply nth_error_Some in N. destruct (nth_error (cs_forms s) f) as [[own F]|] eqn:E; [|congruence].
    destruct (iv_held _ _ I f own F E) as (ops & _ & ->). destruct (formula_written (Some (Z.of_nat own)) ops) as [b Eb]. eauto 6. }
  assert (C : exists c, settle (cs_forms s) q = Ok c).
  { destruct q; cbn [settle needs] in *; [eexists; reflexivity| |].
    - destruct (B f (or_introl eq_refl)) as (own & ops & b & E & Eb). rewrite E. unfold stack_value. rewrite Eb. cbn [bind]. eexists. reflexivity.
    - assert (D : forall c, (forall f, c = Some f -> In f (match c1 with Some f => [f] | None => [] end ++ match c2 with Some f => [f] | None => [] end)) -> exists x, cond_settle (cs_forms s) c = Ok x).
      { intros [f|] H; cbn [cond_settle]; [|eexists; reflexivity]. destruct (B f (H f eq_refl)) as (own & ops & b & E & Eb). rewrite E, Eb. eexists. reflexivity. }
      destruct (D c1) as [x Ex]; [intros f ->; apply in_app_iff; left; left; reflexivity|]. destruct (D c2) as [y Ey]; [intros f ->; apply in_app_iff; right; left; reflexivity|].
      rewrite Ex, Ey. eexists. reflexivity. }
  destruct C as [c Ec]. rewrite Ec. eexists. reflexivity.
Qed.
(** Program and calls side by side. *)
Inductive sim (forms : list (nat * formula)) : list ccall -> list call -> Prop :=
| sim_nil : sim forms [] []
| sim_cons q l cs prog calls : pend q = Ok l -> settle_all forms l = Ok cs -> sim forms prog calls -> sim forms (q :: prog) (cs ++ calls).
Lemma calls_sim prog calls : c_calls prog = Ok calls -> exists s, inv prog s /\ sim (cs_forms s) prog calls.
Proof.
  unfold c_calls. intro H. destruct (runs prog) as [(_ & s & E & I)|(_ & E)]; rewrite E in H; cbn [bind] in H; [|discriminate H].
  exists s. split; [exact I|]. destruct (iv_calls _ _ I) as (ls & F & C). rewrite C in H. clear - F H. revert calls H. induction F as [|q l prog ls P F IH]; intros calls H.
  - cbn [concat settle_all] in H. apply ok_inj in H. subst calls. constructor.
  - cbn [concat] in H. rewrite settle_app in H. apply bind_ok in H. destruct H as (cs & E & H). apply bind_ok in H. destruct H as (r & Er & H). apply ok_inj in H. subst calls.
    econstructor; eauto.
Qed.
