(** C43: every cell of a saved workbook has a complete, readable look. *)
From Coq Require Import ZArith List Bool Lia ZifyBool ZifyNat Permutation.
From Verif Require Import Bytes UnitModel SpecBuf RecModel SheetModel XfModel WbModel RecProofs RecFrames SpecXf XfProofs SpecXfOps PropsXf XfInv Looks ApiModel ApiInv
  SpecBiff SpecApi SpecSaved ApiEff XfTrace SpecLook LookInv RefTrace LookStep FontUse FontLook SpecBook
  BookRecs SaveRecs SaveRead SaveOk SavedView ViewPay ViewLook CellLook PropsSheet PropsRows PropsLook PropsFonts DemoDoc PropsBook.
Import ListNotations.
Local Open Scope Z_scope.

(* ------------------------------------------------------------------ *)
(** * Fonts referred to exist, and can be read *)

Lemma font_valid_grows a b i : grows a b -> font_at a i <> None -> font_at b i <> None.
Proof.
  intros [A _ B _ _]. unfold font_at. destruct (_ || _)%bool; [auto|]. destruct (i <? 6); intro H; apply nth_error_Some in H; apply nth_error_Some; lia.
Qed.
Lemma level_sym a b : level a b -> level b a.
Proof. intros []. constructor; lia. Qed.
Definition linked (fs : fstate) (x : xf) : Prop := forall i, x_font x = Some i -> font_at fs i <> None.
Definition legible (v : font) : Prop := read_font (font_bytes v) <> None.
Record fine (fs : fstate) : Prop := {
  fi_xf : forall j x, xf_at fs j = Some x -> linked fs x;
  fi_font : forall i v, fval fs i = Some v -> legible v }.

Lemma core_linked fs x y : core x = core y -> linked fs x -> linked fs y.
Proof. intros E L i H. apply L. rewrite (core_font _ _ E). exact H. Qed.
Lemma linked_grows a b x : grows a b -> linked a x -> linked b x.
Proof. intros G L i H. eapply font_valid_grows; [exact G|]. apply L. exact H. Qed.
Lemma fval_back a b i v : keeps a b -> level a b -> fval b i = Some v -> fval a i = Some v.
Proof.
  intros K L E. destruct (fval a i) as [u|] eqn:Ea; [rewrite (kp_font _ _ K _ _ Ea) in E; exact E|]. exfalso. unfold fval in *.
  destruct (font_at a i) eqn:F; [discriminate Ea|]. assert (N : font_at b i <> None) by (destruct (font_at b i); [discriminate|discriminate E]).
  apply (font_valid_grows _ a i (level_grows _ _ (level_sym _ _ L))) in N. congruence.
Qed.
Lemma fine_keep a b : keeps a b -> grows a b -> (forall i y, xf_at b i = Some y -> xf_at a i = None -> linked b y) -> (forall i v, fval b i = Some v -> fval a i = None -> legible v) -> fine a -> fine b.
Proof.
  intros K G N M [X F]. constructor.
  - intros j y E. destruct (xf_at a j) as [x|] eqn:Ea; [|eapply N; eauto]. destruct (kp_xf _ _ K _ _ Ea) as (z & Ez & Cz). rewrite E in Ez. injection Ez as <-.
    apply (core_linked _ x); [congruence|]. eapply linked_grows; [exact G|]. eapply X; eauto.
  - intros i v E. destruct (fval a i) as [u|] eqn:Ea; [|eapply M; eauto]. rewrite (kp_font _ _ K _ _ Ea) in E. injection E as <-. eapply F; eauto.
Qed.
Lemma fine_level a b : keeps a b -> level a b -> fine a -> fine b.
Proof.
  intros K L. apply fine_keep; [exact K|apply level_grows; exact L| |].
  - intros i y E N. exfalso. eapply level_none; eauto.
  - intros i v E N. rewrite (fval_back _ _ _ _ K L E) in N. discriminate N.
Qed.
Lemma fine_add fs v : legible v -> fine fs -> fine (fst (add_font fs v)).
Proof.
  intros Lv F. apply (fine_keep fs); [apply add_font_keeps|apply add_font_grows| | |exact F].
  - intros i y E N. change (xf_at (fst (add_font fs v)) i) with (xf_at fs i) in E. congruence.
  - intros i u E N. unfold fval in E, N. rewrite font_at_add in E. destruct (i =? _); [|congruence]. cbn in E. injection E as <-. exact Lv.
Qed.
Lemma finish_fine fs t p fs' q : valid fs p -> linked fs t -> finish fs t p = Ok (fs', q) -> fine fs -> fine fs'.
Proof.
  intros V T H F. pose proof (proj1 (finish_keeps _ _ _ _ _ H)) as K.
  assert (Lz : zlen (fs_xfs (xf_unmark fs p)) = zlen (fs_xfs fs)) by (unfold zlen; rewrite (lv_xfs _ _ (xf_unmark_level fs p)); reflexivity).
  destruct (finish_cases _ _ _ _ _ V H) as [[-> ->]|(_ & -> & _)].
  - assert (F1 : fine (fst (add_xf (xf_unmark fs p) t))).
    { pose proof (fine_level _ _ (xf_unmark_keeps fs p) (xf_unmark_level fs p) F) as [X M]. constructor.
      - intros j x E. rewrite xf_at_add in E. destruct (j =? _); [|eapply X; eauto]. injection E as <-. intros i Hi.
        change (font_at (fst (add_xf (xf_unmark fs p) t)) i) with (font_at (xf_unmark fs p) i). eapply font_valid_grows; [apply level_grows, xf_unmark_level|]. apply T. exact Hi.
      - intros i v E. apply (M i). exact E. }
    eapply fine_level; [apply xf_mark_keeps|apply xf_mark_level|exact F1].
  - eapply fine_level; [apply xf_mark_keeps|apply xf_mark_level|]. eapply fine_level; [apply xf_unmark_keeps|apply xf_unmark_level|exact F].
Qed.
Lemma fmt_apply_linked fs x o fs' y : fmt_apply fs x o = Ok (fs', y) -> linked fs x -> linked fs' y.
Proof.
  intros H L. pose proof (level_grows _ _ (fmt_apply_level _ _ _ _ _ H)) as G. destruct o as [o|f|[f|]]; cbn [fmt_apply] in H.
  - apply bind_ok in H. destruct H as (z & H & K). apply ok_pair in K. destruct K as [<- <-]. intros i E. apply L. rewrite <- (proj1 (xf_apply_use _ _ _ H)). exact E.
  - destruct (font_handle fs f) eqn:Hf; [|discriminate H]. apply ok_inj in H. intros i E. apply (font_valid_grows fs fs' i G). apply (font_handle_at fs f i Hf).
    unfold xf_set_font in H. cbv zeta in H. apply (f_equal (fun z => x_font (snd z))) in H. cbn [snd] in H. rewrite <- E, <- H. reflexivity.
  - destruct (format_handle fs f); [|discriminate H]. apply ok_inj in H. pose proof (f_equal (fun z => x_font (snd z)) H) as E. cbn [snd] in E.
    rewrite (proj1 (proj2 (proj2 (set_format_use fs x f)))) in E. intros i Hi. apply (font_valid_grows fs fs' i G). apply L. congruence.
  - apply ok_pair in H. destruct H as [<- <-]. exact L.
Qed.
Lemma dup_linked fs x fs1 t : xf_dup fs x = (fs1, t) -> linked fs x -> linked fs1 t.
Proof.
  intros E L i H. pose proof (xf_dup_level fs x) as Lv. rewrite E in Lv. cbn [fst] in Lv. apply (font_valid_grows fs fs1 i (level_grows _ _ Lv)). apply L.
  rewrite <- (proj1 (dup_use _ _ _ _ E)). exact H.
Qed.
Lemma cell_format_fine fs p o fs' q : cell_format fs p o = Ok (fs', q) -> fine fs -> fine fs'.
Proof.
  intros H F. apply cell_format_finish in H. destruct H as (x & fs1 & t0 & fs2 & t & Ex & Ed & Ef & H).
  pose proof (xf_dup_level fs x) as L1. pose proof (dup_keeps fs x) as K1. rewrite Ed in L1, K1. cbn [fst] in L1, K1.
  pose proof (fmt_apply_level _ _ _ _ _ Ef) as L2. pose proof (fmt_apply_keeps _ _ _ _ _ Ef) as K2.
  eapply finish_fine; [|eapply fmt_apply_linked; [exact Ef|]; eapply dup_linked; [exact Ed|]; exact (fi_xf _ F _ _ Ex)|exact H|].
  - eapply valid_grows; [apply level_grows; eapply level_trans; [exact L1|exact L2]|]. unfold valid. congruence.
  - eapply fine_level; [exact K2|exact L2|]. eapply fine_level; [exact K1|exact L1|exact F].
Qed.
Lemma font_set_fine fs i o fs' : font_arg o -> font_set fs i o = Ok fs' -> fine fs -> fine fs'.
Proof.
  intros A H F. constructor.
  - intros j x E. rewrite (xf_at_font_set _ _ _ _ _ H) in E. eapply linked_grows; [apply level_grows; exact (font_set_level _ _ _ _ H)|]. exact (fi_xf _ F _ _ E).
  - unfold font_set in H. destruct (font_at fs i) as [d|] eqn:Ed; [|discriminate H]. apply bind_ok in H. destruct H as (v & Hv & H). apply ok_inj in H. subst fs'.
    intros j u E. unfold fval in E. rewrite font_at_upd in E. destruct (i =? j) eqn:Q.
    + apply Z.eqb_eq in Q. subst j. rewrite Ed in E. cbn in E. injection E as <-. assert (Ld : legible (fo_val d)) by (apply (fi_font _ F i); unfold fval; rewrite Ed; reflexivity).
      unfold legible in *. destruct (read_font (font_bytes (fo_val d))) as [f|] eqn:R; [|congruence]. rewrite (font_apply_spec _ _ _ _ A Hv R). discriminate.
    + apply (fi_font _ F j). exact E.
Qed.
Lemma chosen_fine fs1 t0 fs2 t : linked fs1 t0 -> fine fs1 -> chosen fs1 t0 fs2 t -> linked fs2 t /\ fine fs2.
Proof.
  intros L F [(d & Hd & E)|(i & d & _ & _ & _ & -> & ->)]; [|auto].
  assert (Ld : legible (fo_val d)) by (destruct Hd as [[_ Hd]|(i & _ & Hd & _)]; eapply (fi_font _ F); unfold fval; rewrite Hd; reflexivity).
  pose proof (fine_add _ _ Ld F) as Fa. pose proof (set_font_keeps (fst (add_font fs1 (fo_val d))) t0 (Some (6 + zlen (fs_fonts fs1)))) as K.
  pose proof (xf_set_font_level (fst (add_font fs1 (fo_val d))) t0 (Some (6 + zlen (fs_fonts fs1)))) as Lv. rewrite <- E in K, Lv. cbn [fst] in K, Lv.
  split; [|eapply fine_level; eauto]. intros i Hi. eapply font_valid_grows; [apply level_grows; exact Lv|]. rewrite font_at_add.
  pose proof (f_equal (fun z => x_font (snd z)) E) as Es. cbn [snd] in Es. rewrite Hi in Es. cbn in Es. injection Es as ->. rewrite Z.eqb_refl. discriminate.
Qed.
Lemma cell_font_fine fs p o fs' q : font_arg o -> cell_font fs p o = Ok (fs', q) -> fine fs -> fine fs'.
Proof.
  intros A H F. apply cell_font_finish in H. destruct H as (x & fs1 & t0 & fs2 & t & fs6 & y & i & Ex & Ed & C & H & _ & _ & S).
  pose proof (xf_dup_level fs x) as L1. pose proof (dup_keeps fs x) as K1. pose proof (dup_cell fs x) as C0. rewrite Ed in L1, K1, C0. cbn [fst snd] in L1, K1, C0.
  assert (Lt : linked fs1 t0) by (eapply dup_linked; [exact Ed|]; exact (fi_xf _ F _ _ Ex)).
  destruct (chosen_fine _ _ _ _ Lt (fine_level _ _ K1 L1 F) C) as [Ct F2]. destruct (chosen_kinds _ _ _ _ C0 C) as (_ & G2 & _).
  eapply font_set_fine; [exact A|exact S|]. eapply finish_fine; [|exact Ct|exact H|exact F2].
  eapply valid_grows; [eapply grows_trans; [apply level_grows, L1|exact G2]|]. unfold valid. congruence.
Qed.
Lemma xf_user_fine fs p o fs' : xf_user fs p o = Ok fs' -> fine fs -> fine fs'.
Proof.
  intros H F. unfold xf_user in H. destruct (xf_at fs p) as [x|] eqn:Ex; [|discriminate H].
  apply bind_ok in H. destruct H as ([fs1 y] & H1 & H2). apply ok_inj in H2. subst fs'.
  pose proof (fmt_apply_level _ _ _ _ _ H1) as L. pose proof (fmt_apply_keeps _ _ _ _ _ H1) as K. pose proof (fine_level _ _ K L F) as F1. constructor.
  - intros i z E. intros j Hj. rewrite font_at_xf_upd. rewrite xf_at_upd_all in E. destruct (p =? i) eqn:Q.
    + apply Z.eqb_eq in Q. subst i. destruct (xf_at fs1 p); cbn [option_map] in E; [|discriminate E]. injection E as <-. apply (fmt_apply_linked _ _ _ _ _ H1 (fi_xf _ F _ _ Ex)). exact Hj.
    + exact (fi_xf _ F1 _ _ E _ Hj).
  - intros i v E. apply (fi_font _ F1 i). unfold fval in *. rewrite font_at_xf_upd in E. exact E.
Qed.
Local Strategy 1000 [wb_xformat xf_user].
Lemma xformat_fine fs f m fs' i : wb_xformat fs f m = Ok (fs', i) -> fine fs -> fine fs'.
Proof.
  intros H F. rewrite wb_xformat_eq in H. cbv zeta in H.
  apply bind_ok in H. destruct H as (fs2 & H2 & H). apply bind_ok in H. destruct H as (fs3 & H3 & H). apply ok_pair in H. destruct H as [-> <-].
  assert (T1 : fine (fst (add_xf fs xf_zero))).
  { destruct F as [X M]. constructor; [|exact M]. intros j x E. rewrite xf_at_add in E. destruct (j =? _) eqn:Q; [|exact (X _ _ E)]. injection E as <-. intros k Hk. discriminate Hk. }
  assert (T2 : fine fs2) by (destruct f; [eapply xf_user_fine; eauto|apply ok_inj in H2; rewrite <- H2; exact T1]).
  destruct m; [eapply xf_user_fine; eauto|apply ok_inj in H3; rewrite <- H3; exact T2].
Qed.
Lemma named_legible n : font_arg (NName n) -> legible (mkFont n 200 0 32767 400 0 0 0 1).
Proof.
  intros [A B]. assert (R : read_font (font_bytes (mkFont [] 200 0 32767 400 0 0 0 1)) <> None) by (vm_compute; discriminate). unfold legible.
  destruct (read_font (font_bytes (mkFont [] 200 0 32767 400 0 0 0 1))) as [f|] eqn:E; [|congruence].
  rewrite (font_apply_spec (NName n) (mkFont [] 200 0 32767 400 0 0 0 1) (mkFont n 200 0 32767 400 0 0 0 1) f (conj A B) eq_refl E). discriminate.
Qed.
Lemma dfont_at fs n d : length (fs_dfonts fs) = 5%nat -> nth_error (fs_dfonts fs) n = Some d -> exists i, fval fs i = Some (fo_val d).
Proof.
  intros L E. assert (B : (n < 5)%nat) by (rewrite <- L; apply nth_error_Some; congruence). unfold fval, font_at.
  destruct (Nat.eqb n 4) eqn:Q; [exists 5|exists (Z.of_nat n)].
  - apply Nat.eqb_eq in Q. subst n. change (dfont_pos 5) with 4%nat. cbn [Z.ltb Z.compare Z.eqb orb Pos.compare Pos.compare_cont Pos.eqb]. rewrite E. reflexivity.
  - apply Nat.eqb_neq in Q. replace ((Z.of_nat n <? 0) || (Z.of_nat n =? 4))%bool with false by lia. replace (Z.of_nat n <? 6) with true by lia.
    replace (dfont_pos (Z.of_nat n)) with n by (unfold dfont_pos; destruct (_ =? 5) eqn:Q5; lia). rewrite E. reflexivity.
Qed.
Lemma own_fine q fs fs' : length (fs_dfonts fs) = 5%nat -> args q -> own q fs fs' -> fine fs -> fine fs'.
Proof.
  intros D A H. destruct q; cbn [own args] in *; try contradiction; intro F.
  - subst fs'. unfold wb_font. apply fine_add; [apply named_legible; exact A|exact F].
  - destruct H as (i & H). unfold wb_fontnum in H. destruct (nth_error _ _) as [d|] eqn:E; [|discriminate H]. apply ok_inj in H. apply (f_equal fst) in H. cbn [fst] in H. subst fs'.
    destruct (dfont_at _ _ _ D E) as (j & Ej). apply (fine_add fs (fo_val d)); [exact (fi_font _ F _ _ Ej)|exact F].
  - subst fs'. destruct F as [X M]. constructor; [exact X|exact M].
  - destruct H as (i & H). eapply xformat_fine; eauto.
  - eapply xf_user_fine; eauto.
  - eapply font_set_fine; [apply A|exact H|exact F].
Qed.
Lemma rstep_fine q fs R fs' R' : length (fs_dfonts fs) = 5%nat -> args q -> rstep q fs R fs' R' -> fine fs -> fine fs'.
Proof.
  intros D A H T. destruct H.
  - eapply fine_level; [apply xf_mark_keeps|apply xf_mark_level|exact T].
  - eapply fine_level; [apply xf_unmark_keeps|apply xf_unmark_level|exact T].
  - pose proof (args_op _ _ A H) as Ao. destruct o as [o|o|[j|]]; cbn [cellop_apply] in H1.
    + eapply cell_format_fine; eauto.
    + eapply cell_font_fine; eauto.
    + destruct (xf_valid fs (Some j)); [|discriminate H1]. apply ok_pair in H1. destruct H1 as [<- <-].
      eapply fine_level; [apply xf_unmark_keeps|apply xf_unmark_level|]. eapply fine_level; [apply xf_mark_keeps|apply xf_mark_level|exact T].
    + destruct (xf_valid fs None); [|discriminate H1]. apply ok_pair in H1. destruct H1 as [<- <-]. exact T.
  - eapply own_fine; eauto.
  - eapply fine_level; [apply xf_mark_keeps|apply xf_mark_level|exact T].
  - eapply fine_level; [apply xf_unmark_keeps|apply xf_unmark_level|]. eapply fine_level; [apply xf_mark_keeps|apply xf_mark_level|exact T].
  - eapply fine_level; [apply xf_unmark_keeps|apply xf_unmark_level|exact T].
  - exact T.
Qed.
Lemma rsteps_fine q fs R fs' R' : args q -> rsteps q fs R fs' R' -> length (fs_dfonts fs) = 5%nat -> fine fs -> fine fs'.
Proof.
  intro A. induction 1; [auto|]. intros D T. apply IHrsteps; [rewrite (gr_dfonts _ _ (rstep_grows _ _ _ _ _ H)); exact D|]. eapply rstep_fine; eauto.
Qed.
Definition fine_now (fs : fstate) : bool :=
  forallb (fun x => match x_font x with Some i => match font_at fs i with Some _ => true | None => false end | None => true end) (fs_dxfs fs ++ fs_xfs fs)
  && forallb (fun f => match read_font (font_bytes (fo_val f)) with Some _ => true | None => false end) (fs_dfonts fs ++ fs_fonts fs).
Lemma fine_now_spec fs : fine_now fs = true -> fine fs.
Proof.
  unfold fine_now. intro H. apply andb_prop in H. destruct H as [A B]. rewrite forallb_forall in A, B. constructor.
  - intros j x E i Hi. assert (J : In x (fs_dxfs fs ++ fs_xfs fs)).
    { unfold xf_at in E. apply in_or_app. destruct (j <? 0); [discriminate E|]. destruct (j <? 21); apply nth_error_In in E; auto. }
    specialize (A x J). cbv beta in A. rewrite Hi in A. destruct (font_at fs i); [discriminate|discriminate A].
  - intros i v E. unfold fval in E. destruct (font_at fs i) as [f|] eqn:Ef; [|discriminate E]. cbn in E. injection E as <-.
    assert (J : In f (fs_dfonts fs ++ fs_fonts fs)).
    { unfold font_at in Ef. apply in_or_app. destruct (_ || _)%bool; [discriminate Ef|]. destruct (i <? 6); apply nth_error_In in Ef; auto. }
    specialize (B f J). cbv beta in B. unfold legible. destruct (read_font _); [discriminate|discriminate B].
Qed.
Lemma init_fine fs : fstate_init = Ok fs -> fine fs.
Proof.
  intro H. apply fine_now_spec. assert (K : match fstate_init with Ok f => fine_now f | _ => false end = true) by (vm_compute; reflexivity). rewrite H in K. exact K.
Qed.
Local Strategy 1000 [wb_new fstate_init default_xfs].
Theorem doc_fine calls : forall w, Forall typed calls -> Forall args calls -> document calls = Ok w -> fine (wb_fs w).
Proof.
  induction calls as [|q calls IH] using rev_ind; intros w T A D.
  - apply document_nil in D. apply init_fine. apply wb_new_fs. exact D.
  - apply Forall_app in T. destruct T as [T Tq]. inversion Tq as [|? ? Tq' _]; subst. apply Forall_app in A. destruct A as [A Aq]. inversion Aq as [|? ? Aq' _]; subst.
    destruct (document_snoc _ _ _ D) as (w0 & D0 & C). pose proof (mn_inv _ _ (run_means _ _ T D0)) as I.
    eapply rsteps_fine; [exact Aq'|exact (call_rsteps _ _ _ I Tq' C)|apply I|]. apply IH; assumption.
Qed.

(* ------------------------------------------------------------------ *)
(** * C43 *)

(** Every cell has a complete look: its format record, the font record and the number
    format this refers to are there and can be read. *)
Theorem C43_cells_readable R moves calls stream k r c x : saved_ok R moves calls stream -> Forall args calls -> few_records stream ->
  cell_record stream k r c = Some x -> exists l, cell_look stream k r c = Some l.
Proof.
  intros S A Fr H. destruct (saved_view _ _ _ _ S) as (w & V). destruct (view_few _ _ _ _ V Fr) as [Fw M].
  pose proof (vw_typed _ _ _ _ V) as T. pose proof (vw_doc _ _ _ _ V) as D. destruct (doc_tidy _ _ T A D Fw) as [O Td]. pose proof (doc_fine _ _ T A D) as F.
  destruct (view_cell_xf _ _ _ _ V k r c x H) as (p & Xp & _). rewrite (view_cell_look _ _ _ _ V), Xp.
  assert (Vp : valid (wb_fs w) p) by exact (xfat_valid _ _ _ _ _ (mn_inv _ _ (vw_means _ _ _ _ V)) Xp). rewrite (M _ Vp). rewrite (view_look _ _ _ _ V).
  unfold valid in Vp. destruct (xf_at (wb_fs w) p) as [z|] eqn:Ez; [|congruence]. rewrite Forall_forall in O.
  pose proof (Td _ _ (O p (xfat_refs _ _ _ _ _ Xp)) Ez) as Tz. rewrite (xf_rec_tidy _ _ _ Ez Tz). unfold look_at.
  assert (Fn : exists f, font_rec (wb_fs w) (xa_font (attrs_of z)) = Some f).
  { pose proof (fi_xf _ F _ _ Ez) as Lz. unfold linked in Lz. unfold font_rec, fval. cbn [attrs_of xa_font].
    assert (N : font_at (wb_fs w) (match x_font z with Some i => i | None => 0 end) <> None).
    { destruct (x_font z) as [i|]; [apply Lz; reflexivity|]. unfold font_at. change ((0 <? 0) || (0 =? 4))%bool with false. change (0 <? 6) with true. cbv iota. apply nth_error_Some.
      rewrite (wi_dfonts _ (w2_inv _ (mn_inv _ _ (vw_means _ _ _ _ V)))). cbn. lia. }
    pose proof (fun v => fi_font _ F (match x_font z with Some i => i | None => 0 end) v) as Lg. unfold fval in Lg.
    destruct (font_at (wb_fs w) (match x_font z with Some i => i | None => 0 end)) as [d|]; [|congruence]. specialize (Lg (fo_val d) eq_refl). unfold legible in Lg.
    cbn [option_map]. destruct (read_font (font_bytes (fo_val d))) as [f|]; [eauto|congruence]. }
  destruct Fn as (f & ->). unfold number_rec.
  pose proof (formats_typed _ _ T A D) as Ft. pose proof (li_formats _ _ (vw_limits _ _ _ _ V)) as Lm.
  destruct (read_formats (fs_formats (wb_fs w)) 164) as (l & -> & _ & _); [lia|destruct Fw as (_ & Fw & _); lia| |eauto].
  apply Forall_forall. intros y J. split; [rewrite Forall_forall in Ft; apply Ft; unfold fstrs; apply in_map; exact J|]. rewrite Forall_forall in Lm. specialize (Lm y J). cbv beta in Lm. lia.
Qed.
Print Assumptions C43_cells_readable.
(** A document with a font, a number format, a format carrying both and a cell made bold. *)
Example C43_case : exists s g x, saved_ok 40 (fun _ _ => false) objects s /\ globals_in s g /\ Forall args objects /\ few_records s /\ cell_record s 0 0 0 = Some x /\ rc_xf x = 22
  /\ zlen (payloads T_XF g) = 23.
Proof.
  assert (E : match stream_of 400 objects with Some s => (few_now s && match substream s 0, cell_record s 0 0 0 with Some (kd, g), Some x => (kd =? K_GLOBALS) && (rc_xf x =? 22) && (zlen (payloads T_XF g) =? 23) | _, _ => false end)%bool | None => false end = true)
    by (vm_compute; reflexivity).
  destruct (stream_of 400 objects) as [s|] eqn:Es; [|discriminate E]. apply andb_prop in E. destruct E as [E1 E].
  destruct (substream s 0) as [[kd g]|] eqn:Eg; [|discriminate E]. destruct (cell_record s 0 0 0) as [x|] eqn:Ex; [|discriminate E].
  apply andb_prop in E. destruct E as [E E4]. apply andb_prop in E. destruct E as [E2 E3]. apply Z.eqb_eq in E2, E3, E4. subst kd. exists s, g, x.
  split; [apply (small_saved 400); [exact objects_typed|exact objects_fits|exact Es]|]. split; [exact Eg|]. split; [exact objects_args|]. split; [apply few_now_spec; exact E1|]. auto.
Qed.
