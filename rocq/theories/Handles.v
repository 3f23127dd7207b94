(** What calls do to fonts, number formats and cell formats held by the user. *)
From Coq Require Import ZArith List Bool Lia ZifyBool ZifyNat Sorted.
From Verif Require Import Bytes UnitModel SpecBuf BufProofs RecModel SheetModel XfModel WbModel RecProofs RecFrames SpecXf XfProofs SpecXfOps PropsXf XfInv Looks ApiModel SpecBiff BookRecs ApiInv
  SpecApi ApiEff SheetProofs SheetTrace GlobTrace WbProofs SaveOk SaveRecs SaveRead SpecSaved SaveMeans DocLimits SavedView XfTrace SpecLook LookInv ViewPay RefTrace LookStep FontUse Careful ViewLook FontLook CellLook.
Import ListNotations.
Local Open Scope Z_scope.

(** What one call does to the objects that exist. *)
Record holds (q : call) (a b : fstate) : Prop := {
  hd_font : forall i d, fval a i = Some d -> exists d', fval b i = Some d'
    /\ match q with KFontSet j o => if j =? i then font_apply o d = Ok d' else d' = d | _ => d' = d end;
  hd_xf : forall i x, xf_at a i = Some x -> exists y, xf_at b i = Some y
    /\ match q with KXfSet j o => if j =? i then exists z fs', fmt_apply a x o = Ok (fs', z) /\ core y = core z else core y = core x | _ => core y = core x end;
  hd_fmt : fstrs b = fstrs a ++ match q with KFormat t => [to16 t] | _ => [] end }.
Lemma keeps_holds q a b : keeps a b -> (match q with KFontSet _ _ | KXfSet _ _ | KFormat _ => False | _ => True end) -> holds q a b.
Proof.
  intros K N. constructor.
  - intros i d E. exists d. split; [apply (kp_font _ _ K); exact E|]. destruct q; try reflexivity; contradiction N.
  - intros i x E. destruct (kp_xf _ _ K _ _ E) as (y & Ey & C). exists y. split; [exact Ey|]. destruct q; try exact C; contradiction N.
  - destruct q; try contradiction N; rewrite app_nil_r; apply (kp_fmt _ _ K).
Qed.
(** Setters of fonts that belong to cells are only covered in careful histories. *)
Definition covers (calls : list call) (q : call) : Prop :=
  match q with KCellOp _ _ _ o | KRange _ _ _ _ _ o => covered calls o | _ => True end.
Lemma xf_user_keeps fs p o fs' : xf_user fs p o = Ok fs' ->
  exists x fs1 y, xf_at fs p = Some x /\ fmt_apply fs x o = Ok (fs1, y) /\ keeps fs fs1 /\ fs' = xf_upd fs1 p (fun _ => y).
Proof.
  unfold xf_user. destruct (xf_at fs p) as [x|]; [|discriminate]. intro H. apply bind_ok in H. destruct H as ([fs1 y] & H1 & H2). apply ok_inj in H2. subst fs'.
  exists x, fs1, y. split; [reflexivity|]. split; [exact H1|]. split; [exact (fmt_apply_keeps _ _ _ _ _ H1)|reflexivity].
Qed.
Lemma xf_user_fonts fs p o fs' i d : xf_user fs p o = Ok fs' -> fval fs i = Some d -> fval fs' i = Some d.
Proof.
  intros H E. destruct (xf_user_keeps _ _ _ _ H) as (x & fs1 & y & _ & _ & K & ->). unfold fval. rewrite font_at_xf_upd. apply (kp_font _ _ K). exact E.
Qed.
Lemma xf_user_strs fs p o fs' : xf_user fs p o = Ok fs' -> fstrs fs' = fstrs fs.
Proof. intros H. destruct (xf_user_keeps _ _ _ _ H) as (x & fs1 & y & _ & _ & K & ->). unfold fstrs. rewrite fmts_xf_upd. apply (kp_fmt _ _ K). Qed.
Lemma xf_user_others fs p o fs' i x : xf_user fs p o = Ok fs' -> i <> p -> xf_at fs i = Some x -> exists y, xf_at fs' i = Some y /\ core y = core x.
Proof.
  intros H N E. destruct (xf_user_keeps _ _ _ _ H) as (x0 & fs1 & y & _ & _ & K & ->). destruct (kp_xf _ _ K _ _ E) as (z & Ez & C). exists z. split; [|exact C].
  rewrite xf_at_upd_all. replace (p =? i) with false by lia. exact Ez.
Qed.
Lemma xf_user_own fs p o fs' x : xf_user fs p o = Ok fs' -> xf_at fs p = Some x -> exists z fs1, fmt_apply fs x o = Ok (fs1, z) /\ xf_at fs' p = Some z.
Proof.
  intros H E. destruct (xf_user_keeps _ _ _ _ H) as (x0 & fs1 & y & E0 & A & K & ->). rewrite E in E0. apply some_inj in E0. subst x0. exists y, fs1. split; [exact A|].
  rewrite xf_at_upd_all, Z.eqb_refl. destruct (kp_xf _ _ K _ _ E) as (z & -> & _). reflexivity.
Qed.
Lemma xformat_keeps fs f m fs' i : wb_xformat fs f m = Ok (fs', i) -> keeps fs fs'.
Proof.
  intro H. rewrite wb_xformat_eq in H. cbv zeta in H. apply bind_ok in H. destruct H as (fs2 & H2 & H). apply bind_ok in H. destruct H as (fs3 & H3 & H). apply ok_pair in H. destruct H as [-> <-].
  pose proof (add_xf_keeps fs xf_zero) as K1. set (fs1 := fst (add_xf fs xf_zero)) in *. clearbody fs1. set (p := 21 + zlen (fs_xfs fs)) in *.
  assert (Np : forall j x, xf_at fs j = Some x -> j <> p).
  { intros j x E ->. apply xf_at_bound in E. pose proof (zlen_nonneg _ (fs_xfs fs)). unfold p in E. lia. }
  clearbody p. constructor.
  - intros j x E. destruct (kp_xf _ _ K1 _ _ E) as (y & Ey & C). specialize (Np _ _ E).
    assert (S2 : exists y, xf_at fs2 j = Some y /\ core y = core x).
    { destruct f; [|apply ok_inj in H2; subst fs2; eauto]. destruct (xf_user_others _ _ _ _ _ _ H2 Np Ey) as (z & Ez & Cz). exists z. split; [exact Ez|congruence]. }
    destruct S2 as (z & Ez & Cz). destruct m; [|apply ok_inj in H3; subst fs'; eauto]. destruct (xf_user_others _ _ _ _ _ _ H3 Np Ez) as (u & Eu & Cu). exists u. split; [exact Eu|congruence].
  - intros j d E. apply (kp_font _ _ K1) in E. assert (E2 : fval fs2 j = Some d) by (destruct f; [eapply xf_user_fonts; eauto|apply ok_inj in H2; subst fs2; exact E]).
    destruct m; [eapply xf_user_fonts; eauto|apply ok_inj in H3; subst fs'; exact E2].
  - rewrite <- (kp_fmt _ _ K1). assert (E2 : fstrs fs2 = fstrs fs1) by (destruct f; [eapply xf_user_strs; eauto|apply ok_inj in H2; subst fs2; reflexivity]). rewrite <- E2.
    destruct m; [eapply xf_user_strs; eauto|apply ok_inj in H3; subst fs'; reflexivity].
Qed.
Lemma own_holds q fs fs' : own q fs fs' -> holds q fs fs'.
Proof.
  intro C. destruct q; cbn [own] in C; try contradiction C.
  - (* font *) subst fs'. apply keeps_holds; [apply add_font_keeps|exact Logic.I].
  - destruct C as (i & H). apply keeps_holds; [|exact Logic.I]. unfold wb_fontnum in H. destruct (nth_error _ _); [|discriminate H].
    apply ok_inj in H. apply (f_equal fst) in H. cbn [fst] in H. subst fs'. apply add_font_keeps.
  - (* number format *) subst fs'. constructor.
    + intros i d E. exists d. split; [exact E|reflexivity].
    + intros i x E. exists x. split; [exact E|reflexivity].
    + unfold add_format, fstrs. cbn [fst set_formats fs_formats]. rewrite map_app. reflexivity.
  - (* cell format *) destruct C as (i & H). apply keeps_holds; [|exact Logic.I]. exact (xformat_keeps _ _ _ _ _ H).
  - (* its setters *) rename C into H. constructor.
    + intros i d E. exists d. split; [eapply xf_user_fonts; eauto|reflexivity].
    + intros i x E. destruct (p =? i) eqn:Ep.
      * apply Z.eqb_eq in Ep. subst i. destruct (xf_user_own _ _ _ _ _ H E) as (z & fs1 & A & Ez). exists z. split; [exact Ez|]. exists z, fs1. auto.
      * eapply xf_user_others; eauto. lia.
    + rewrite app_nil_r. eapply xf_user_strs; eauto.
  - (* setters of fonts *) rename C into H. constructor.
    + intros j d E. unfold font_set in H. destruct (font_at fs i) as [fo|] eqn:Ei; [|discriminate H]. apply bind_ok in H. destruct H as (v & Hv & H). apply ok_inj in H. subst fs'.
      unfold fval in *. rewrite font_at_upd. destruct (i =? j) eqn:Ej.
      * apply Z.eqb_eq in Ej. subst j. rewrite Ei in E |- *. cbn [option_map fo_val] in E |- *. apply some_inj in E. subst d. exists v. split; [reflexivity|exact Hv].
      * exists d. split; [exact E|reflexivity].
    + intros j x E. exists x. split; [rewrite (xf_at_font_set _ _ _ _ j H); exact E|reflexivity].
    + rewrite app_nil_r. unfold fstrs. unfold font_set in H. destruct (font_at fs i); [|discriminate H]. apply bind_ok in H. destruct H as (v & _ & H). apply ok_inj in H. subst fs'. rewrite fmts_font_upd. reflexivity.
Qed.
Lemma op_holds calls w k r c o w' : Forall typed calls -> document calls = Ok w -> covered calls o -> api_call w (KCellOp k r c o) = Ok w' -> holds (KCellOp k r c o) (wb_fs w) (wb_fs w').
Proof.
  intros T D Co C. cbn [api_call] in C. pose proof (mn_inv _ _ (run_means _ _ T D)) as I. apply keeps_holds; [|exact Logic.I]. destruct (cellop_xfat _ _ _ _ _ _ I C) as (p & q & X & Ho & _).
  exact (covered_keeps _ _ _ _ _ _ _ _ _ T D Co X Ho).
Qed.
Lemma range_holds calls w k r1 c1 r2 c2 o w' : Forall typed calls -> document calls = Ok w -> typed (KRange k r1 c1 r2 c2 o) -> op_args o -> covered calls o ->
  api_call w (KRange k r1 c1 r2 c2 o) = Ok w' -> holds (KRange k r1 c1 r2 c2 o) (wb_fs w) (wb_fs w').
Proof.
  intros T D Tq Aq Co C. cbn [api_call] in C. apply keeps_holds; [|exact Logic.I]. destruct Tq as (U1 & U2 & U3 & U4). destruct (range_inv _ _ _ _ _ _ _ _ C) as (_ & _ & G).
  exact (proj1 (range_looks k o _ Aq (block_u32 _ _ _ _ U1 U2 U3 U4) (block_nodup _ _ _ _) calls w w' T D Co G)).
Qed.
Lemma call_holds calls w q w' : Forall typed calls -> document calls = Ok w -> typed q -> args q -> covers calls q -> api_call w q = Ok w' -> holds q (wb_fs w) (wb_fs w').
Proof.
  intros T D Tq Aq Co C.
  assert (Own : ownish q -> holds q (wb_fs w) (wb_fs w')) by (intro O; apply own_holds; exact (proj1 (own_call _ _ _ O C))).
  assert (Oth : (forall a b, ~ own q a b) -> (forall o, ~ op_in q o) -> match q with KFontSet _ _ | KXfSet _ _ | KFormat _ => False | _ => True end -> holds q (wb_fs w) (wb_fs w')).
  { intros N1 N2 N3. apply keeps_holds; [|exact N3]. eapply rsteps_keeps; [exact N1|exact N2|]. exact (call_rsteps _ _ _ (mn_inv _ _ (run_means _ _ T D)) Tq C). }
  destruct q; try (apply Oth; [solve [intros ? ? []]|solve [intros ? []]|exact Logic.I]); try exact (Own Logic.I).
  - exact (op_holds _ _ _ _ _ _ _ T D Co C).
  - exact (range_holds _ _ _ _ _ _ _ _ _ T D Tq Aq Co C).
Qed.

(** Cell formats and number formats are kept in every history. *)
Record retains (a b : fstate) : Prop := {
  rt_xf : forall i x, xf_at a i = Some x -> exists y, xf_at b i = Some y /\ core y = core x;
  rt_fmt : fstrs b = fstrs a }.
Lemma retains_trans a b c : retains a b -> retains b c -> retains a c.
Proof.
  intros [X1 F1] [X2 F2]. constructor; [|congruence]. intros i x E. destruct (X1 _ _ E) as (y & Ey & Cy). destruct (X2 _ _ Ey) as (z & Ez & Cz). exists z. split; [exact Ez|congruence].
Qed.
Lemma keeps_retains a b : keeps a b -> retains a b.
Proof. intros [X F M]. constructor; auto. Qed.
Lemma cell_font_retains fs p o fs' q : cell_font fs p o = Ok (fs', q) -> retains fs fs'.
Proof.
  intro H. apply cell_font_finish in H. destruct H as (x & fs1 & t0 & fs2 & t & fs6 & y & i & Ex & Ed & C & H & _ & _ & S).
  pose proof (dup_keeps fs x) as K1. rewrite Ed in K1. cbn [fst] in K1.
  assert (K2 : keeps fs1 fs2).
  { destruct C as [(d & _ & E)|(i0 & d & _ & _ & _ & -> & _)]; [|apply keeps_refl]. apply (f_equal fst) in E. cbn [fst] in E. subst fs2. eapply keeps_trans; [apply add_font_keeps|apply set_font_keeps]. }
  pose proof (proj1 (finish_keeps _ _ _ _ _ H)) as K3. eapply retains_trans; [apply keeps_retains; eapply keeps_trans; [exact K1|eapply keeps_trans; eauto]|].
  constructor.
  - intros j z E. exists z. split; [rewrite (xf_at_font_set _ _ _ _ j S); exact E|reflexivity].
  - unfold fstrs. unfold font_set in S. destruct (font_at fs6 i); [|discriminate S]. apply bind_ok in S. destruct S as (v & _ & S). apply ok_inj in S. subst fs'. rewrite fmts_font_upd. reflexivity.
Qed.
Lemma rsteps_retains q fs R fs' R' : (forall a b, ~ own q a b) -> rsteps q fs R fs' R' -> retains fs fs'.
Proof.
  intros No. induction 1 as [|fs R fs1 R1 fs2 R2 H H1 IH]; [apply keeps_retains, keeps_refl|]. eapply retains_trans; [|exact IH]. clear IH H1.
  destruct H; [apply keeps_retains, xf_mark_keeps|apply keeps_retains, xf_unmark_keeps| |exfalso; eapply No; eauto|apply keeps_retains, xf_mark_keeps|
    apply keeps_retains; eapply keeps_trans; [apply xf_mark_keeps|apply xf_unmark_keeps]|apply keeps_retains, xf_unmark_keeps|apply keeps_retains, keeps_refl].
  destruct o as [o|o|o].
  - apply keeps_retains. eapply cellop_keeps; [|eassumption]. intros f E. discriminate E.
  - eapply cell_font_retains. cbn [cellop_apply] in *. eassumption.
  - apply keeps_retains. eapply cellop_keeps; [|eassumption]. intros f E. discriminate E.
Qed.
(** The part of [holds] that needs no care. *)
Lemma call_retains calls w q w' : Forall typed calls -> document calls = Ok w -> typed q -> api_call w q = Ok w' ->
  (forall i x, xf_at (wb_fs w) i = Some x -> exists y, xf_at (wb_fs w') i = Some y
    /\ match q with KXfSet j o => if j =? i then exists z fs', fmt_apply (wb_fs w) x o = Ok (fs', z) /\ core y = core z else core y = core x | _ => core y = core x end)
  /\ fstrs (wb_fs w') = fstrs (wb_fs w) ++ match q with KFormat t => [to16 t] | _ => [] end.
Proof.
  intros T D Tq C.
  assert (Own : ownish q -> holds q (wb_fs w) (wb_fs w')) by (intro O; apply own_holds; exact (proj1 (own_call _ _ _ O C))).
  assert (Oth : (forall a b, ~ own q a b) -> retains (wb_fs w) (wb_fs w')).
  { intros N1. eapply rsteps_retains; [exact N1|]. exact (call_rsteps _ _ _ (mn_inv _ _ (run_means _ _ T D)) Tq C). }
  destruct q; try (destruct (Oth ltac:(intros ? ? [])) as [X F]; split; [exact X|rewrite app_nil_r; exact F]); try (destruct (Own Logic.I) as [_ X F]; split; [exact X|exact F]).
Qed.

(* ------------------------------------------------------------------ *)
(** * Histories *)

Lemma since_snoc_font h later q f : font_since h (later ++ [q]) f = match q with KFontSet i o => if i =? h then spec_font o (font_since h later f) else font_since h later f | _ => font_since h later f end.
Proof. unfold font_since. rewrite fold_left_app. reflexivity. Qed.
Lemma since_snoc_attrs h later q f : attrs_since h (later ++ [q]) f = match q with KXfSet i o => if i =? h then spec_set o (attrs_since h later f) else attrs_since h later f | _ => attrs_since h later f end.
Proof. unfold attrs_since. rewrite fold_left_app. reflexivity. Qed.
Lemma careful_covers calls q : careful calls -> Forall args calls -> covers calls q.
Proof. intros C A. destruct q; try exact I; destruct o; try exact I; split; assumption. Qed.

Lemma font_history base w0 h d f : document base = Ok w0 -> fval (wb_fs w0) h = Some d -> read_font (font_bytes d) = Some f ->
  forall later w, Forall typed (base ++ later) -> Forall args (base ++ later) -> careful (base ++ later) -> document (base ++ later) = Ok w ->
  exists d', fval (wb_fs w) h = Some d' /\ read_font (font_bytes d') = Some (font_since h later f).
Proof.
  intros D0 E0 F0. induction later as [|q later IH] using rev_ind; intros w T A C D.
  - rewrite app_nil_r in D. rewrite D0 in D. apply ok_inj in D. subst w. exists d. split; [exact E0|exact F0].
  - rewrite app_assoc in *. apply Forall_app in T. destruct T as [T Tq]. inversion Tq as [|? ? Tq' _]; subst. apply Forall_app in A. destruct A as [A Aq]. inversion Aq as [|? ? Aq' _]; subst.
    apply careful_prefix in C. destruct C as [C _]. destruct (document_snoc _ _ _ D) as (w1 & D1 & Cl). destruct (IH w1 T A C D1) as (d1 & E1 & F1). clear IH.
    pose proof (call_holds _ _ _ _ T D1 Tq' Aq' (careful_covers _ q C A) Cl) as [Hf _ _]. destruct (Hf _ _ E1) as (d2 & E2 & M). exists d2. split; [exact E2|]. rewrite since_snoc_font.
    destruct q; try (subst d2; exact F1). destruct (i =? h); [|subst d2; exact F1]. cbn [args] in Aq'. exact (font_apply_spec _ _ _ _ (proj2 Aq') M F1).
Qed.
Lemma xf_history base w0 h x0 : document base = Ok w0 -> xf_at (wb_fs w0) h = Some x0 -> 21 <= h ->
  forall later w, Forall typed (base ++ later) -> Forall args (base ++ later) -> document (base ++ later) = Ok w -> few (wb_fs w) ->
  exists x, xf_at (wb_fs w) h = Some x /\ attrs_of x = attrs_since h later (attrs_of x0).
Proof.
  intros D0 E0 Lh. induction later as [|q later IH] using rev_ind; intros w T A D F.
  - rewrite app_nil_r in D. rewrite D0 in D. apply ok_inj in D. subst w. exists x0. split; [exact E0|reflexivity].
  - rewrite app_assoc in *. apply Forall_app in T. destruct T as [T Tq]. inversion Tq as [|? ? Tq' _]; subst. apply Forall_app in A. destruct A as [A Aq]. inversion Aq as [|? ? Aq' _]; subst.
    destruct (document_snoc _ _ _ D) as (w1 & D1 & Cl).
    assert (F1 : few (wb_fs w1)) by (eapply few_back; [eapply rsteps_grows; exact (call_rsteps _ _ _ (mn_inv _ _ (run_means _ _ T D1)) Tq' Cl)|exact F]).
    destruct (IH w1 T A D1 F1) as (x1 & E1 & A1). clear IH.
    destruct (call_retains _ _ _ _ T D1 Tq' Cl) as [Hx _]. destruct (Hx _ _ E1) as (x2 & E2 & M). exists x2. split; [exact E2|]. rewrite since_snoc_attrs.
    destruct q; try (rewrite (attrs_core _ _ M); exact A1). destruct (p =? h) eqn:Ep; [|rewrite (attrs_core _ _ M); exact A1].
    destruct M as (z & fs' & Ez & Cz). rewrite (attrs_core _ _ Cz), <- A1. destruct Aq' as [_ Ao].
    destruct (doc_tidy _ _ T A D1 F1) as [_ Td]. exact (proj2 (fmt_apply_tidy _ _ _ _ _ F1 (Td _ _ (or_intror Lh) E1) (fmt_args _ Ao) Ez)).
Qed.
Lemma fmt_history base w0 : document base = Ok w0 -> forall later w, Forall typed (base ++ later) -> document (base ++ later) = Ok w ->
  fstrs (wb_fs w) = fstrs (wb_fs w0) ++ flat_map (fun q => match q with KFormat t => [to16 t] | _ => [] end) later.
Proof.
  intros D0. induction later as [|q later IH] using rev_ind; intros w T D.
  - rewrite app_nil_r in D. rewrite D0 in D. apply ok_inj in D. subst w. rewrite app_nil_r. reflexivity.
  - rewrite app_assoc in *. apply Forall_app in T. destruct T as [T Tq]. inversion Tq as [|? ? Tq' _]; subst. destruct (document_snoc _ _ _ D) as (w1 & D1 & Cl).
    rewrite (proj2 (call_retains _ _ _ _ T D1 Tq' Cl)), (IH w1 T D1), flat_map_app. cbn [flat_map]. rewrite app_nil_r, app_assoc. reflexivity.
Qed.
