(** Legal calls succeed. *)
From Coq Require Import ZArith List Bool Lia ZifyBool ZifyNat Permutation.
From Verif Require Import Bytes UnitModel SpecBuf RecModel SheetModel XfModel WbModel XfInv ApiModel ApiInv SpecBiff SpecApi SpecXf SpecXfOps SpecLook SpecLegal
  ApiEff XfProofs SaveRecs PropsXf RefTrace Looks LookStep FontUse PropsFonts.
Import ListNotations.
Local Open Scope Z_scope.

(* ------------------------------------------------------------------ *)
(** * The fonts of formats exist *)

Definition has_font (fs : fstate) (i : Z) : Prop := font_at fs i <> None.
Record fok (fs : fstate) : Prop := {
  fk_font : forall j x i, xf_at fs j = Some x -> x_font x = Some i -> has_font fs i;
  fk_dflt : has_font fs 0 }.
Definition fok_xf (fs : fstate) (x : xf) : Prop := forall i, x_font x = Some i -> has_font fs i.
Lemma keeps_font a b i : keeps a b -> has_font a i -> has_font b i.
Proof.
  intros K H. unfold has_font in *. destruct (font_at a i) as [d|] eqn:E; [|congruence].
  assert (F : fval a i = Some (fo_val d)) by (unfold fval; rewrite E; reflexivity). apply (kp_font _ _ K) in F. unfold fval in F. destruct (font_at b i); [discriminate|discriminate F].
Qed.
Lemma core_font a b : core a = core b -> x_font a = x_font b.
Proof. intro H. apply (f_equal x_font) in H. exact H. Qed.
Lemma fok_level a b : keeps a b -> level a b -> fok a -> fok b.
Proof.
  intros K L [F D]. constructor; [|exact (keeps_font _ _ _ K D)]. intros j y i E N. destruct (xf_at a j) as [x|] eqn:Ex; [|exfalso; eapply level_none; eauto].
  destruct (kp_xf _ _ K _ _ Ex) as (z & Ez & C). assert (z = y) by congruence. subst z. apply (keeps_font _ _ _ K). eapply F; [exact Ex|]. rewrite <- (core_font _ _ C). exact N.
Qed.
Lemma fok_add fs t : fok fs -> fok_xf fs t -> fok (fst (add_xf fs t)).
Proof.
  intros [F D] T. pose proof (add_xf_keeps fs t) as K. constructor; [|exact (keeps_font _ _ _ K D)]. intros j x i E N. apply (keeps_font _ _ _ K).
  rewrite xf_at_add in E. destruct (j =? _); [apply some_inj in E; subst x; apply T; exact N|eapply F; eauto].
Qed.
Lemma fok_same a b : keeps a b -> (forall j, xf_at b j = xf_at a j) -> fok a -> fok b.
Proof. intros K E [F D]. constructor; [|exact (keeps_font _ _ _ K D)]. intros j x i. rewrite E. intros X N. apply (keeps_font _ _ _ K). eapply F; eauto. Qed.
Lemma fokx_keeps a b x : keeps a b -> fok_xf a x -> fok_xf b x.
Proof. intros K F i N. apply (keeps_font _ _ _ K). exact (F i N). Qed.
Lemma mark_fok fs i : fok fs -> fok (xf_mark fs i).
Proof. apply fok_level; [apply xf_mark_keeps|apply xf_mark_level]. Qed.
Lemma unmark_fok fs i : fok fs -> fok (xf_unmark fs i).
Proof. apply fok_level; [apply xf_unmark_keeps|apply xf_unmark_level]. Qed.
Lemma finish_fok fs t p fs' q : valid fs p -> fok fs -> fok_xf fs t -> finish fs t p = Ok (fs', q) -> fok fs'.
Proof.
  intros V F T H. destruct (finish_cases _ _ _ _ _ V H) as [[_ ->]|(_ & -> & _)]; apply mark_fok.
  - apply fok_add; [apply unmark_fok; exact F|]. eapply fokx_keeps; [apply xf_unmark_keeps|exact T].
  - apply unmark_fok. exact F.
Qed.
Lemma dup_font fs x fs1 t0 : xf_dup fs x = (fs1, t0) -> x_font t0 = x_font x.
Proof.
  intro Ed. pose proof (dup_core _ _ _ _ Ed) as C. apply (f_equal x_font) in C. cbv zeta in C. destruct (x_format x) as [f|]; [destruct (negb (f =? 0))|]; exact C.
Qed.
Lemma dup_fok fs x fs1 t0 : fok fs -> fok_xf fs x -> xf_dup fs x = (fs1, t0) -> fok fs1 /\ fok_xf fs1 t0 /\ level fs fs1 /\ keeps fs fs1.
Proof.
  intros F X Ed. pose proof (dup_keeps fs x) as K1. pose proof (xf_dup_level fs x) as L1. rewrite Ed in K1, L1. cbn [fst] in K1, L1.
  split; [eapply fok_level; eauto|]. split; [|auto]. intros i N. rewrite (dup_font _ _ _ _ Ed) in N. apply (keeps_font _ _ _ K1). exact (X i N).
Qed.
Lemma xf_apply_font o x y : xf_apply o x = Ok y -> x_font y = x_font x.
Proof.
  destruct o; cbn [xf_apply]; intro H; repeat (apply bind_ok in H; destruct H as (? & _ & H)); apply ok_inj in H; rewrite <- H;
    unfold flag_if; repeat match goal with |- context [if ?b then _ else _] => destruct b end; reflexivity.
Qed.
Lemma apply_fok fs x o fs' y : fok fs -> fok_xf fs x -> fmt_apply fs x o = Ok (fs', y) -> fok fs' /\ fok_xf fs' y /\ level fs fs' /\ keeps fs fs'.
Proof.
  intros F X H. pose proof (fmt_apply_level _ _ _ _ _ H) as L. pose proof (fmt_apply_keeps _ _ _ _ _ H) as K.
  split; [eapply fok_level; eauto|]. split; [|auto]. eapply fokx_keeps; [exact K|]. destruct o as [o|f|[f|]]; cbn [fmt_apply] in H.
  - apply bind_ok in H. destruct H as (z & H & E). apply ok_pair in E. destruct E as [_ <-]. intros i N. rewrite (xf_apply_font _ _ _ H) in N. exact (X i N).
  - destruct (font_handle fs f) eqn:Eh; [|discriminate H]. apply ok_inj in H. apply (f_equal snd) in H. cbn [xf_set_font snd] in H. rewrite <- H. intros i N.
    cbn [with_font x_font] in N. exact (font_handle_at _ _ i Eh N).
  - destruct (format_handle fs f); [|discriminate H]. apply ok_inj in H. apply (f_equal snd) in H. cbn [xf_set_format snd] in H. rewrite <- H. intros i N. apply X. rewrite <- N.
    cbn [with_format with_fmt x_font]. unfold flag_if. destruct (negb _); reflexivity.
  - apply ok_pair in H. destruct H as [_ <-]. exact X.
Qed.
Lemma font_set_fok fs i o fs' : fok fs -> font_set fs i o = Ok fs' -> fok fs'.
Proof.
  intros [F D] S. pose proof (fun j => xf_at_font_set _ _ _ _ j S) as E.
  assert (H : forall j, has_font fs j -> has_font fs' j).
  { intro j. unfold font_set in S. destruct (font_at fs i) as [d|] eqn:Ed; [|discriminate S]. apply bind_ok in S. destruct S as (v & _ & S). apply ok_inj in S. subst fs'.
    unfold has_font. rewrite font_at_upd. destruct (i =? j); [|auto]. destruct (font_at fs j); [discriminate|congruence]. }
  constructor; [|auto]. intros j x m. rewrite E. intros X N. apply H. eapply F; eauto.
Qed.
Lemma chosen_fok fs1 t0 fs2 t : fok fs1 -> chosen fs1 t0 fs2 t ->
  fok fs2 /\ fok_xf fs2 t /\ grows fs1 fs2 /\ (exists i, x_font t = Some i).
Proof.
  intros F [(d & _ & E)|(i & d & N & Ei & _ & -> & ->)].
  - apply pair_equal_spec in E. destruct E as [-> ->].
    assert (K : keeps fs1 (fst (xf_set_font (fst (add_font fs1 (fo_val d))) t0 (Some (6 + zlen (fs_fonts fs1)))))).
    { eapply keeps_trans; [apply add_font_keeps|]. exact (set_font_keeps _ t0 (Some _)). }
    assert (G : grows fs1 (fst (xf_set_font (fst (add_font fs1 (fo_val d))) t0 (Some (6 + zlen (fs_fonts fs1)))))).
    { eapply grows_trans; [apply add_font_grows|]. apply level_grows. exact (xf_set_font_level _ t0 (Some _)). }
    split; [|split; [|split; [exact G|]]].
    + eapply fok_same; [exact K| |exact F]. intro i. unfold xf_set_font, font_mark, font_unmark. cbn [fst]. destruct (x_font _); rewrite ?xf_at_font_upd; reflexivity.
    + intros i N. cbn [xf_set_font snd with_font x_font] in N. apply some_inj in N. subst i.
      apply (keeps_font (fst (add_font fs1 (fo_val d)))); [exact (set_font_keeps _ t0 (Some _))|]. unfold has_font. rewrite font_at_add, Z.eqb_refl. discriminate.
    + eexists. reflexivity.
  - split; [exact F|]. split; [intros j Nj|split; [apply grows_refl|eauto]]. rewrite N in Nj. apply some_inj in Nj. subst j. unfold has_font. congruence.
Qed.
Lemma cell_format_fok fs p o fs' q : fok fs -> cell_format fs p o = Ok (fs', q) -> fok fs'.
Proof.
  intros F H. apply cell_format_finish in H. destruct H as (x & fs1 & t0 & fs2 & t & Ex & Ed & Ef & H).
  destruct (dup_fok _ _ _ _ F (fun i => fk_font _ F p x i Ex) Ed) as (F1 & X1 & L1 & K1). destruct (apply_fok _ _ _ _ _ F1 X1 Ef) as (F2 & X2 & L2 & K2).
  eapply finish_fok; [|exact F2|exact X2|exact H]. apply (valid_level _ _ p (level_trans _ _ _ L1 L2)). unfold valid. congruence.
Qed.
Lemma cell_font_fok fs p o fs' q : fok fs -> cell_font fs p o = Ok (fs', q) -> fok fs'.
Proof.
  intros F H. apply cell_font_finish in H. destruct H as (x & fs1 & t0 & fs2 & t & fs6 & y & i & Ex & Ed & C & H & _ & _ & S).
  destruct (dup_fok _ _ _ _ F (fun i => fk_font _ F p x i Ex) Ed) as (F1 & X1 & L1 & K1). destruct (chosen_fok _ _ _ _ F1 C) as (F2 & X2 & G2 & _).
  eapply font_set_fok; [|exact S]. eapply finish_fok; [|exact F2|exact X2|exact H].
  eapply valid_grows; [eapply grows_trans; [apply level_grows, L1|exact G2]|]. unfold valid. congruence.
Qed.
Lemma cellop_fok o fs p fs' q : fok fs -> cellop_apply o fs p = Ok (fs', q) -> fok fs'.
Proof.
  intros F H. destruct o as [o|o|q0]; cbn [cellop_apply] in H; [eapply cell_format_fok; eauto|eapply cell_font_fok; eauto|].
  destruct (xf_valid fs q0); [|discriminate H]. apply ok_inj in H. unfold cell_setxf in H. destruct q0 as [j|]; apply (f_equal fst) in H; cbn [fst] in H; rewrite <- H; [|exact F].
  apply unmark_fok, mark_fok, F.
Qed.
Lemma xf_user_fok fs p o fs' : fok fs -> xf_user fs p o = Ok fs' -> fok fs'.
Proof.
  intros F H. unfold xf_user in H. destruct (xf_at fs p) as [x|] eqn:Ex; [|discriminate H].
  apply bind_ok in H. destruct H as ([fs1 y] & H1 & H2). apply ok_inj in H2. subst fs'.
  destruct (apply_fok _ _ _ _ _ F (fun i => fk_font _ F p x i Ex) H1) as ([F1 D1] & X1 & L1 & K1). constructor.
  - intros j z i E N. unfold has_font. rewrite font_at_xf_upd. rewrite xf_at_upd_all in E. destruct (p =? j); [|eapply F1; eauto].
    destruct (xf_at fs1 j); cbn [option_map] in E; [|discriminate E]. apply some_inj in E. subst z. exact (X1 i N).
  - unfold has_font. rewrite font_at_xf_upd. exact D1.
Qed.
Local Strategy 1000 [wb_xformat xf_user xf_zero].
Lemma zero_font : x_font xf_zero = None.
Proof. vm_compute. reflexivity. Qed.
Lemma xformat_fok fs f m fs' i : fok fs -> wb_xformat fs f m = Ok (fs', i) -> fok fs'.
Proof.
  intros F H. rewrite wb_xformat_eq in H. cbv zeta in H.
  apply bind_ok in H. destruct H as (fs2 & H2 & H). apply bind_ok in H. destruct H as (fs3 & H3 & H). apply ok_pair in H. destruct H as [-> <-].
  assert (F1 : fok (fst (add_xf fs xf_zero))) by (apply fok_add; [exact F|]; intros j N; rewrite zero_font in N; discriminate N).
  assert (F2 : fok fs2) by (destruct f; [eapply xf_user_fok; [exact F1|exact H2]|apply ok_inj in H2; rewrite <- H2; exact F1]).
  destruct m; [eapply xf_user_fok; [exact F2|exact H3]|apply ok_inj in H3; rewrite <- H3; exact F2].
Qed.
Lemma add_font_fok fs v : fok fs -> fok (fst (add_font fs v)).
Proof. apply fok_same; [apply add_font_keeps|]. intro j. reflexivity. Qed.
Lemma own_fok q fs fs' : own q fs fs' -> fok fs -> fok fs'.
Proof.
  destruct q; cbn [own]; try contradiction.
  - intros -> F. exact (add_font_fok fs _ F).
  - intros (i & H) F. unfold wb_fontnum in H. destruct (nth_error _ _); [|discriminate H]. apply ok_inj in H. apply (f_equal fst) in H. cbn [fst] in H. rewrite <- H. exact (add_font_fok fs _ F).
  - intros -> F. destruct F as [F D]. constructor; [exact F|exact D].
  - intros (i & H) F. eapply xformat_fok; eauto.
  - intros H F. eapply xf_user_fok; eauto.
  - intros H F. eapply font_set_fok; eauto.
Qed.
Lemma rsteps_fok q fs R fs' R' : rsteps q fs R fs' R' -> fok fs -> fok fs'.
Proof.
  induction 1 as [|fs R fs1 R1 fs2 R2 S _ IH]; [auto|]. intro F. apply IH. clear IH. destruct S.
  - apply mark_fok, F.
  - apply unmark_fok, F.
  - eapply cellop_fok; eauto.
  - eapply own_fok; eauto.
  - apply mark_fok, F.
  - apply unmark_fok, mark_fok, F.
  - apply unmark_fok, F.
  - exact F.
Qed.
Definition font_known (fs : fstate) (x : xf) : bool := match x_font x with Some i => match font_at fs i with Some _ => true | None => false end | None => true end.
Lemma init_fok fs : fstate_init = Ok fs -> fok fs.
Proof.
  intro H. assert (T : match fstate_init with Ok g => (forallb (font_known g) (fs_dxfs g) && match fs_xfs g with [] => true | _ => false end && match font_at g 0 with Some _ => true | None => false end)%bool | _ => false end = true) by (vm_compute; reflexivity).
  rewrite H in T. apply andb_prop in T. destruct T as [T T3]. apply andb_prop in T. destruct T as [T1 T2]. rewrite forallb_forall in T1. constructor.
  - intros j x i E N. assert (J : In x (fs_dxfs fs)).
    { unfold xf_at in E. destruct (j <? 0); [discriminate E|]. destruct (j <? 21); [eapply nth_error_In; exact E|]. destruct (fs_xfs fs); [|discriminate T2]. destruct (Z.to_nat (j - 21)); discriminate E. }
    specialize (T1 x J). unfold font_known in T1. rewrite N in T1. unfold has_font. destruct (font_at fs i); [discriminate|discriminate T1].
  - unfold has_font. destruct (font_at fs 0); [discriminate|discriminate T3].
Qed.
Lemma doc_fok calls : forall w, Forall typed calls -> document calls = Ok w -> fok (wb_fs w).
Proof.
  induction calls as [|q calls IH] using rev_ind; intros w T D.
  - apply document_nil in D. apply init_fok. apply wb_new_fs. exact D.
  - apply Forall_app in T. destruct T as [T Tq]. apply Forall_inv in Tq. destruct (document_snoc _ _ _ D) as (w1 & D1 & Cl).
    eapply rsteps_fok; [|exact (IH w1 T D1)]. exact (call_rsteps _ _ _ (mn_inv _ _ (run_means _ _ T D1)) Tq Cl).
Qed.

(* ------------------------------------------------------------------ *)
(** * What was made is there *)

Lemma made_limit calls k h w : Forall typed calls -> document calls = Ok w -> made calls k h ->
  match k with AFont => 6 | ANumberFormat => 164 | ACellFormat => 21 end <= h < limit_of k (wb_fs w).
Proof.
  intros T D (e & q & l & E & K & R). subst calls. rewrite cut_call in D, T. destruct (document_prefix _ _ _ D) as (w1 & D1).
  destruct (document_snoc _ _ _ D1) as (w0 & D0 & C). destruct (returns_limit _ _ _ _ _ K D0 R) as [Eh L]. specialize (L w1 C).
  pose proof (run_grows _ _ D1 _ _ T D) as G. pose proof (limit_grows k _ _ G). split; [|lia]. rewrite Eh.
  unfold limit_of. pose proof (zlen_nonneg _ (fs_fonts (wb_fs w0))). pose proof (zlen_nonneg _ (fs_formats (wb_fs w0))). pose proof (zlen_nonneg _ (fs_xfs (wb_fs w0))). destruct k; lia.
Qed.
Lemma xf_there fs h : 21 <= h < limit_of ACellFormat fs -> valid fs h.
Proof. unfold limit_of, valid, xf_at, zlen. intro H. replace (h <? 0) with false by lia. replace (h <? 21) with false by lia. apply nth_error_Some. lia. Qed.
Lemma font_there fs h : 6 <= h < limit_of AFont fs -> has_font fs h.
Proof. unfold limit_of, has_font, font_at, zlen. intro H. replace (h <? 0) with false by lia. replace (h =? 4) with false by lia. cbn [orb]. replace (h <? 6) with false by lia. apply nth_error_Some. lia. Qed.

Section Legal.
Variables (calls : list call) (w : wb).
Hypothesis T : Forall typed calls.
Hypothesis D : document calls = Ok w.

Lemma known_xf p : known calls ACellFormat p -> xf_valid (wb_fs w) p = true.
Proof.
  intro K. destruct p as [h|]; [|reflexivity]. cbn [xf_valid]. pose proof (xf_there _ _ (made_limit _ _ _ _ T D (K h eq_refl))) as V. unfold valid in V.
  destruct (xf_at (wb_fs w) h); [reflexivity|congruence].
Qed.
(** [fs] has at least what [w] has. *)
Lemma known_font fs p : grows (wb_fs w) fs -> known calls AFont p -> font_handle fs p = true.
Proof.
  intros G K. destruct p as [h|]; [|reflexivity]. cbn [font_handle]. pose proof (made_limit _ _ _ _ T D (K h eq_refl)) as M. pose proof (limit_grows AFont _ _ G) as Lg. cbv beta iota in M.
  assert (V : has_font fs h) by (apply font_there; lia). unfold has_font in V. destruct (font_at fs h); [reflexivity|congruence].
Qed.
Lemma known_format fs h : grows (wb_fs w) fs -> made calls ANumberFormat h -> format_handle fs h = true.
Proof.
  intros G K. pose proof (made_limit _ _ _ _ T D K) as M. pose proof (limit_grows ANumberFormat _ _ G). cbv beta iota in M. unfold limit_of in *. unfold format_handle. lia.
Qed.
Lemma table_legal t n v : zlen t = n -> enum n v -> exists x, table t v = Ok x.
Proof. intros <- [A B]. unfold table. replace ((0 <=? v) && (v <? zlen t))%bool with true by lia. eexists. reflexivity. Qed.
Lemma table_ub_legal t n v : zlen t = n -> enum n v -> exists x, table_ub t v = Ok x.
Proof. intros <- [A B]. unfold table_ub. replace ((0 <=? v) && (v <? zlen t))%bool with true by lia. eexists. reflexivity. Qed.
Lemma xf_apply_legal o x : xf_enums o -> exists y, xf_apply o x = Ok y.
Proof.
  assert (Sd : forall side, enum 5 side -> side_ok side = true) by (unfold side_ok, enum; lia).
  destruct o; cbn [xf_enums xf_apply]; intro E; try (eexists; reflexivity);
    try match type of E with enum 5 _ /\ _ => destruct E as [S E]; rewrite (Sd _ S); cbn [xl_assert bind] end;
    try (match goal with |- context [table ?t _] => match type of E with enum ?n _ => destruct (table_legal t n _ eq_refl E) as [z Ez] end end;
         rewrite Ez; cbn [bind]; eexists; reflexivity).
  rewrite (Sd _ E). eexists. reflexivity.
Qed.
Lemma font_apply_legal o f : font_enums o -> exists g, font_apply o f = Ok g.
Proof.
  destruct o; cbn [font_enums font_apply]; intro E; try (eexists; reflexivity);
    match goal with |- context [table_ub ?t _] => match type of E with enum ?n _ => destruct (table_ub_legal t n _ eq_refl E) as [z Ez] end end;
    rewrite Ez; cbn [bind]; eexists; reflexivity.
Qed.
Lemma fmt_apply_legal fs x o : grows (wb_fs w) fs -> set_legal calls o -> exists r, fmt_apply fs x o = Ok r.
Proof.
  intros G L. destruct o as [o|f|[f|]]; cbn [set_legal fmt_apply] in *.
  - destruct (xf_apply_legal o x L) as [y ->]. eexists. reflexivity.
  - rewrite (known_font fs f G L). eexists. reflexivity.
  - rewrite (known_format fs f G (L f eq_refl)). eexists. reflexivity.
  - eexists. reflexivity.
Qed.
Lemma finish_legal fs t p : exists r, finish fs t p = Ok r.
Proof.
  unfold finish. assert (V : valid (xf_unmark (fst (add_xf fs t)) p) (21 + zlen (fs_xfs fs))).
  { apply (valid_level _ _ _ (xf_unmark_level (fst (add_xf fs t)) p)). unfold valid. rewrite xf_at_add, Z.eqb_refl. discriminate. }
  unfold find_xf. unfold valid in V. destruct (xf_at _ _) as [y|]; [|congruence]. destruct (find_pos _ _ _); [destruct (_ =? _)|]; eexists; reflexivity.
Qed.
Lemma cell_format_legal fs p o : grows (wb_fs w) fs -> valid fs p -> set_legal calls o -> exists r, cell_format fs p o = Ok r.
Proof.
  intros G V L. unfold cell_format. unfold valid in V. destruct (xf_at fs p) as [x|] eqn:Ex; [|congruence]. destruct (xf_dup fs x) as [fs1 t0] eqn:Ed.
  pose proof (xf_dup_level fs x) as L1. rewrite Ed in L1. cbn [fst] in L1.
  destruct (fmt_apply_legal fs1 t0 o (grows_trans _ _ _ G (level_grows _ _ L1)) L) as [[fs2 t] Ef]. rewrite Ef. cbn [bind].
  destruct (finish_legal fs2 t p) as [r Er]. exists r. exact Er.
Qed.
Lemma cell_font_legal fs p o : fok fs -> valid fs p -> font_enums o -> exists r, cell_font fs p o = Ok r.
Proof.
  intros F V L. unfold cell_font.
  assert (S : exists fs6 q y i, set_cell_font fs p = Ok (fs6, q) /\ xf_at fs6 q = Some y /\ x_font y = Some i /\ has_font fs6 i).
  { unfold set_cell_font. unfold valid in V. destruct (xf_at fs p) as [x|] eqn:Ex; [|congruence]. destruct (xf_dup fs x) as [fs1 t0] eqn:Ed.
    destruct (dup_fok _ _ _ _ F (fun i => fk_font _ F p x i Ex) Ed) as (F1 & X1 & L1 & _).
    assert (C : exists fs2 t, match x_font t0 with
        | None => match font_at fs1 0 with None => UB | Some d => let (fs', nf) := add_font fs1 (fo_val d) in Ok (xf_set_font fs' t0 (Some nf)) end
        | Some i => match font_at fs1 i with None => UB | Some d => if 1 <? fo_use d then let (fs', nf) := add_font fs1 (fo_val d) in Ok (xf_set_font fs' t0 (Some nf)) else Ok (fs1, t0) end
        end = Ok (fs2, t) /\ chosen fs1 t0 fs2 t).
    { unfold chosen. destruct (x_font t0) as [i|] eqn:Et.
      - pose proof (X1 i Et) as Hf. unfold has_font in Hf. destruct (font_at fs1 i) as [d|] eqn:Ei; [|congruence]. destruct (1 <? fo_use d) eqn:Eu.
        + eexists _, _. split; [reflexivity|]. left. exists d. split; [right; exists i; split; [reflexivity|split; [exact Ei|lia]]|]. repeat split; reflexivity.
        + exists fs1, t0. split; [reflexivity|]. right. exists i, d. repeat split; auto. lia.
      - pose proof (fk_dflt _ F1) as Hf. unfold has_font in Hf. destruct (font_at fs1 0) as [d|] eqn:Ei; [|congruence].
        eexists _, _. split; [reflexivity|]. left. exists d. split; [left; auto|]. repeat split; reflexivity. }
    destruct C as (fs2 & t & Ec & Ch). rewrite Ec. cbn [bind]. destruct (chosen_fok _ _ _ _ F1 Ch) as (F2 & X2 & G2 & i & Ei).
    destruct (finish_legal fs2 t p) as [[fs6 q] Er]. exists fs6, q. pose proof (finish_keeps _ _ _ _ _ Er) as (K & y & Ey & Cy).
    exists y, i. split; [exact Er|]. split; [exact Ey|]. split; [rewrite (core_font _ _ Cy); exact Ei|]. apply (keeps_font _ _ _ K). exact (X2 i Ei). }
  destruct S as (fs6 & q & y & i & -> & Ey & Ei & Hf). cbn [bind]. rewrite Ey, Ei. unfold font_set. unfold has_font in Hf. destruct (font_at fs6 i) as [d|]; [|congruence].
  destruct (font_apply_legal o (fo_val d) L) as [v ->]. eexists. reflexivity.
Qed.
Lemma cellop_legal fs p o : grows (wb_fs w) fs -> fok fs -> valid fs p -> op_legal calls o -> exists r, cellop_apply o fs p = Ok r.
Proof.
  intros G F V L. destruct o as [o|o|q]; cbn [op_legal cellop_apply] in *; [eapply cell_format_legal; eauto|eapply cell_font_legal; eauto|].
  pose proof (known_xf q L) as X. destruct q as [i|]; [|eexists; reflexivity]. cbn [xf_valid] in *. assert (Vi : valid (wb_fs w) i) by (unfold valid; destruct (xf_at (wb_fs w) i); [discriminate|discriminate X]).
  pose proof (valid_grows _ _ _ G Vi) as Vi'. unfold valid in Vi'. destruct (xf_at fs i); [eexists; reflexivity|congruence].
Qed.
Lemma xf_user_legal fs p o : grows (wb_fs w) fs -> valid fs p -> set_legal calls o -> exists r, xf_user fs p o = Ok r.
Proof.
  intros G V L. unfold xf_user. unfold valid in V. destruct (xf_at fs p) as [x|]; [|congruence]. destruct (fmt_apply_legal fs x o G L) as [[fs1 y] ->]. eexists. reflexivity.
Qed.
Lemma xformat_legal f m : (forall x, f = Some x -> known calls AFont x) -> (forall x, m = Some x -> known calls ANumberFormat x) ->
  exists r, wb_xformat (wb_fs w) f m = Ok r.
Proof.
  intros Lf Lm. rewrite wb_xformat_eq. cbv zeta. pose proof (zlen_nonneg _ (fs_xfs (wb_fs w))) as Nn.
  assert (G1 : grows (wb_fs w) (fst (add_xf (wb_fs w) xf_zero))).
  { constructor; cbn [add_xf fst set_xfs fs_dfonts fs_fonts fs_formats fs_dxfs fs_xfs]; rewrite ?app_length; lia. }
  assert (V1 : valid (fst (add_xf (wb_fs w) xf_zero)) (21 + zlen (fs_xfs (wb_fs w)))) by (unfold valid; rewrite xf_at_add, Z.eqb_refl; discriminate).
  remember (fst (add_xf (wb_fs w) xf_zero)) as fs1 eqn:Q. clear Q. remember (21 + zlen (fs_xfs (wb_fs w))) as p eqn:Q. clear Q.
  assert (S2 : exists fs2, match f with Some f => xf_user fs1 p (FFont f) | None => Ok fs1 end = Ok fs2 /\ level fs1 fs2).
  { destruct f as [f|]; [|exists fs1; split; [reflexivity|apply level_refl]]. destruct (xf_user_legal fs1 p (FFont f) G1 V1 (Lf f eq_refl)) as [r Er]. exists r. split; [exact Er|eapply xf_user_level; exact Er]. }
  destruct S2 as (fs2 & -> & L2). cbn [bind].
  assert (S3 : exists fs3, match m with Some f => xf_user fs2 p (FFormat f) | None => Ok fs2 end = Ok fs3).
  { destruct m as [m|]; [|exists fs2; reflexivity]. apply xf_user_legal; [eapply grows_trans; [exact G1|apply level_grows, L2]|apply (valid_level _ _ _ L2); exact V1|exact (Lm m eq_refl)]. }
  destruct S3 as (fs3 & ->). cbn [bind]. eexists. reflexivity.
Qed.

(* ------------------------------------------------------------------ *)
(** * Each call *)

Lemma sheet_nth k : sheet_there calls k -> exists s, nth_error (wb_sheets w) k = Some s.
Proof.
  unfold sheet_there. rewrite <- (mn_len _ _ (run_means _ _ T D)). intro L. apply nth_error_Some in L. destruct (nth_error (wb_sheets w) k); [eauto|congruence].
Qed.
Lemma cell_there k r c : cells_of k calls r c <> None -> exists s x, nth_error (wb_sheets w) k = Some s /\ find_cell s r c = Some x /\ valid (wb_fs w) (c_xf x).
Proof.
  intro N. pose proof (run_means _ _ T D) as M. destruct (nth_error (wb_sheets w) k) as [s|] eqn:E.
  - pose proof (me_vals _ _ _ (mn_sheet _ _ M k s E) r c) as V. unfold fv in V. destruct (find_cell s r c) as [x|] eqn:Ex.
    + exists s, x. split; [reflexivity|]. split; [exact Ex|]. destruct (winv_nth _ _ _ (w2_inv _ (mn_inv _ _ M)) E) as [_ (X & _)]. rewrite Forall_forall in X. apply X. eapply find_some. exact Ex.
    + destruct (cells_of k calls r c); [destruct V|congruence].
  - exfalso. apply N. apply nth_error_None in E. pose proof (mn_silent _ _ M k E) as S. clear - S.
    assert (G : forall l, silent k l -> forall m, (forall r c, m r c = None) -> forall r c, fold_left (cells_step k) l m r c = None).
    { induction l as [|q l IH]; intros Sl m Hm r0 c0; [apply Hm|]. cbn [fold_left]. inversion Sl; subst. apply IH; [assumption|]. intros r1 c1.
      destruct q; cbn [cells_step]; auto; (destruct (Nat.eqb k k0) eqn:Q; [apply Nat.eqb_eq in Q; subst k0; exfalso; auto|]; cbn [andb]; auto). }
    apply G; [exact S|reflexivity].
Qed.
End Legal.
Lemma add_cell_ok w k s r c v p : winv w -> nth_error (wb_sheets w) k = Some s -> xf_valid (wb_fs w) p = true -> exists w', api_cell w k r c v p = Ok w'.
Proof.
  intros I E X. unfold api_cell, on_sheet. rewrite E, X. cbn [negb]. destruct (winv_nth _ _ _ I E) as [Is _].
  destruct (add_cell_spec s (mkCell r c (cell_xf p) (make_val (wb_next w) v)) (si_cells _ Is)) as (old & a & b & -> & _). cbn [bind]. eexists. reflexivity.
Qed.
Lemma blank_ok w k s r c : winv w -> nth_error (wb_sheets w) k = Some s -> exists w', find_or_blank w k r c = Ok w'.
Proof.
  intros I E. unfold find_or_blank. rewrite E. destruct (find_cell s r c); [eexists; reflexivity|]. eapply add_cell_ok; [exact I|exact E|reflexivity].
Qed.
Lemma cell_xf_valid w k s r c x : winv w -> nth_error (wb_sheets w) k = Some s -> find_cell s r c = Some x -> valid (wb_fs w) (c_xf x).
Proof.
  intros I E F. destruct (winv_nth _ _ _ I E) as [_ (X & _)]. rewrite Forall_forall in X. apply X. eapply find_some. exact F.
Qed.
Section Calls.
Variables (calls : list call) (w : wb).
Hypothesis T : Forall typed calls.
Hypothesis D : document calls = Ok w.

Lemma op_ok w1 k r c o s x : winv w1 -> grows (wb_fs w) (wb_fs w1) -> fok (wb_fs w1) -> nth_error (wb_sheets w1) k = Some s -> find_cell s r c = Some x -> op_legal calls o ->
  exists w', api_cellop w1 k r c o = Ok w'.
Proof.
  intros I G F E Fx L. unfold api_cellop, on_cell, on_sheet. rewrite E, Fx.
  destruct (cellop_legal calls w T D (wb_fs w1) (c_xf x) o G F (cell_xf_valid _ _ _ _ _ _ I E Fx) L) as [[fs q] ->]. cbn [bind]. eexists. reflexivity.
Qed.
Lemma range_ok k (r1 c1 r2 c2 : Z) o l : op_legal calls o -> Forall (fun p => u32 (fst p) /\ u32 (snd p)) l ->
  forall w1 s, winv2 w1 -> grows (wb_fs w) (wb_fs w1) -> fok (wb_fs w1) -> nth_error (wb_sheets w1) k = Some s -> exists w', fold_res (range_step k o) l w1 = Ok w'.
Proof.
  intros L. induction 1 as [|p l [Hr Hc] F IH]; intros w1 s I G Fk E; cbn [fold_res]; [eexists; reflexivity|].
  assert (S : exists w2, range_step k o w1 p = Ok w2).
  { unfold range_step. destruct (blank_ok w1 k s (fst p) (snd p) (w2_inv _ I) E) as [w0 Hb]. rewrite Hb. cbn [bind].
    destruct (blank_step _ _ _ _ _ I Hr Hc Hb) as (Q1 & s1 & s' & E1 & E' & F1 & _).
    assert (R : rsteps (KRange k r1 c1 r2 c2 o) (wb_fs w1) (refs w1) (wb_fs w0) (refs w0)).
    { unfold find_or_blank in Hb. rewrite E in Hb. destruct (find_cell s (fst p) (snd p)).
      + apply ok_inj in Hb. subst w0. constructor.
      + eapply cell_rsteps; [apply (w2_inv _ I)| | | |exact Hb]; [reflexivity|intros j J; exact J|intros []]. }
    assert (N : find_cell s' (fst p) (snd p) <> None).
    { intro N. rewrite N in F1. destruct (find_cell s1 (fst p) (snd p)); discriminate F1. }
    destruct (find_cell s' (fst p) (snd p)) as [x|] eqn:Ex; [|congruence].
    eapply op_ok; [apply (w2_inv _ (qu_inv _ _ _ Q1))|eapply grows_trans; [exact G|eapply rsteps_grows; exact R]|eapply rsteps_fok; [exact R|exact Fk]|exact E'|exact Ex|exact L]. }
  destruct S as [w2 H1]. rewrite H1. cbn [bind].
  destruct (range_one _ _ _ _ _ I (conj Hr Hc) H1) as [Q _].
  assert (R : rsteps (KRange k r1 c1 r2 c2 o) (wb_fs w1) (refs w1) (wb_fs w2) (refs w2)).
  { apply (range_rsteps k r1 c1 r2 c2 o [p]); [exact I|constructor; [split; assumption|constructor]|]. cbn [fold_res]. rewrite H1. reflexivity. }
  assert (Ls : exists s2, nth_error (wb_sheets w2) k = Some s2).
  { destruct (nth_error (wb_sheets w2) k) as [s2|] eqn:E2; [eauto|]. exfalso. apply nth_error_None in E2. rewrite (qu_len _ _ _ Q) in E2. apply nth_error_None in E2. congruence. }
  destruct Ls as [s2 E2]. eapply IH; [exact (qu_inv _ _ _ Q)|eapply grows_trans; [exact G|eapply rsteps_grows; exact R]|eapply rsteps_fok; [exact R|exact Fk]|exact E2].
Qed.
Lemma pure_ok k f : sheet_there calls k -> exists w', pure_sheet w k f = Ok w'.
Proof. intro S. destruct (sheet_nth calls w T D k S) as [s E]. unfold pure_sheet, on_sheet. rewrite E. eexists. reflexivity. Qed.
Lemma font_set_ok i o : made calls AFont i -> font_enums o -> exists r, font_set (wb_fs w) i o = Ok r.
Proof.
  intros M L. pose proof (font_there _ _ (made_limit _ _ _ _ T D M)) as V. unfold font_set. unfold has_font in V. destruct (font_at (wb_fs w) i) as [d|]; [|congruence].
  destruct (font_apply_legal o (fo_val d) L) as [v ->]. eexists. reflexivity.
Qed.
Lemma note_ok k r c a t : sheet_there calls k -> exists w', api_note w k r c a t = Ok w'.
Proof.
  intro S. destruct (sheet_nth calls w T D k S) as [s E]. unfold api_note, on_sheet. rewrite E. cbn [bind].
  pose proof (w2_inv _ (mn_inv _ _ (run_means _ _ T D))) as I. rewrite (wi_idx _ I _ _ E).
  assert (Lk : (k < length (wb_sheets w))%nat) by (apply nth_error_Some; congruence).
  assert (Lb : (Z.to_nat (Z.of_nat k mod 65536) < length (wb_bs w))%nat).
  { rewrite (wi_len _ I). pose proof (Z.mod_le (Z.of_nat k) 65536 ltac:(lia) ltac:(lia)). lia. }
  apply nth_error_Some in Lb. destruct (nth_error (wb_bs w) (Z.to_nat (Z.of_nat k mod 65536))); [|congruence]. eexists. reflexivity.
Qed.
Lemma call_ok q : typed q -> legal calls q -> exists w', api_call w q = Ok w'.
Proof.
  pose proof (run_means _ _ T D) as M. pose proof (mn_inv _ _ M) as I2. pose proof (w2_inv _ I2) as I. pose proof (doc_fok _ _ T D) as F.
  intros Ty L. destruct q; cbn [legal] in L; unfold api_call; cbv zeta; try (eexists; reflexivity); try (apply pure_ok; exact L).
  - destruct L as [S K]. destruct (sheet_nth calls w T D k S) as [s E]. eapply add_cell_ok; [exact I|exact E|]. eapply known_xf; eauto.
  - apply note_ok. exact L.
  - destruct L as [N O]. destruct (cell_there calls w T D k row col N) as (s & x & E & Fx & _). eapply op_ok; [exact I|apply grows_refl|exact F|exact E|exact Fx|exact O].
  - destruct L as (S & Lr & Lc & O). destruct (sheet_nth calls w T D k S) as [s E]. unfold api_range. replace (negb ((r1 <=? r2) && (c1 <=? c2))%bool) with false by lia.
    replace ((r2 =? 4294967295) || (c2 =? 4294967295))%bool with false by lia. apply (range_ok k r1 c1 r2 c2 o) with (s := s); [exact O| |exact I2|apply grows_refl|exact F|exact E].
    cbn [typed] in Ty. apply Forall_forall. intros p J. apply block_in in J. unfold u32 in *. lia.
  - destruct L as [S K]. destruct (sheet_nth calls w T D k S) as [s E]. unfold api_colwidth, on_sheet. rewrite E, (known_xf calls w T D p K). eexists. reflexivity.
  - destruct L as [S K]. destruct (sheet_nth calls w T D k S) as [s E]. unfold api_rowheight, on_sheet. rewrite E, (known_xf calls w T D p K). eexists. reflexivity.
  - destruct (cell_there calls w T D k row col L) as (s & x & E & Fx & _). rewrite E, Fx. unfold pure_sheet, on_sheet. rewrite E. eexists. reflexivity.
  - destruct (sheet_nth calls w T D k L) as [s E]. rewrite E. eexists. reflexivity.
  - unfold wb_fontnum. assert (V : nth_error (fs_dfonts (wb_fs w)) (Z.to_nat n) <> None) by (apply nth_error_Some; rewrite (wi_dfonts _ I); unfold enum in L; lia).
    destruct (nth_error (fs_dfonts (wb_fs w)) (Z.to_nat n)) as [d|]; [|congruence]. cbn [bind]. eexists. reflexivity.
  - destruct L as [Lf Lm]. destruct (xformat_legal calls w T D fnt fmt Lf Lm) as [[fs q] ->]. eexists. reflexivity.
  - destruct L as [Lm Lo]. destruct (xf_user_legal calls w T D (wb_fs w) p o (grows_refl _) (xf_there _ _ (made_limit _ _ _ _ T D Lm)) Lo) as [fs ->]. eexists. reflexivity.
  - destruct L as [Lm Lo]. destruct (font_set_ok i o Lm Lo) as [fs ->]. eexists. reflexivity.
Qed.
End Calls.
Lemma document_cons calls q w w' : document calls = Ok w -> api_call w q = Ok w' -> document (calls ++ [q]) = Ok w'.
Proof.
  unfold document, api_run. intros D C. destruct wb_new as [w0| |]; cbn [bind] in *; try discriminate D. rewrite fold_res_app, D. cbn [bind fold_res]. rewrite C. reflexivity.
Qed.
