(** What the steps of a call do to the looks of format objects. *)
From Coq Require Import ZArith List Bool Lia ZifyBool ZifyNat.
From Verif Require Import Bytes UnitModel RecModel SheetModel XfModel WbModel RecProofs RecFrames SpecXf XfProofs SpecXfOps PropsXf XfInv Looks ApiModel ApiInv
  SpecBiff SpecApi ApiEff XfTrace SpecLook LookInv RefTrace.
Import ListNotations.
Local Open Scope Z_scope.

(* ------------------------------------------------------------------ *)
(** * The end of a setter *)

Lemma font_upd_add fs t i f : font_upd (fst (add_xf fs t)) i f = fst (add_xf (font_upd fs i f) t).
Proof. unfold font_upd, add_xf, set_xfs, set_fonts, font_at. cbn [fst fs_dfonts fs_fonts fs_formats fs_dxfs fs_xfs]. repeat match goal with |- context [match ?e with _ => _ end] => destruct e end; reflexivity. Qed.
Lemma fmt_upd_add fs t i f : fmt_upd (fst (add_xf fs t)) i f = fst (add_xf (fmt_upd fs i f) t).
Proof. unfold fmt_upd, add_xf, set_xfs, set_formats. cbn [fst fs_dfonts fs_fonts fs_formats fs_dxfs fs_xfs]. repeat match goal with |- context [match ?e with _ => _ end] => destruct e end; reflexivity. Qed.
Lemma upd_app_l {A} k (x : A) l m : (k < length l)%nat -> upd k x (l ++ m) = upd k x l ++ m.
Proof. revert l. induction k; intros [|y l] H; cbn in *; try lia; [reflexivity|]. rewrite IHk by lia. reflexivity. Qed.
Lemma xf_upd_add fs t i f : valid fs i -> xf_upd (fst (add_xf fs t)) i f = fst (add_xf (xf_upd fs i f) t).
Proof.
  intro V. unfold valid in V. unfold xf_upd, xf_at in *. destruct fs as [df fo fm dx xs]. cbn [add_xf fst set_xfs fs_dfonts fs_fonts fs_formats fs_dxfs fs_xfs] in *.
  destruct (i <? 0) eqn:E0; [congruence|]. destruct (i <? 21) eqn:E1.
  - destruct (nth_error dx (Z.to_nat i)); reflexivity.
  - apply nth_error_Some in V. rewrite nth_error_app1 by exact V. destruct (nth_error xs (Z.to_nat (i - 21))); [|reflexivity].
    rewrite upd_app_l by exact V. reflexivity.
Qed.
Lemma unmark_add fs t p : valid fs p -> xf_unmark (fst (add_xf fs t)) p = fst (add_xf (xf_unmark fs p) t).
Proof.
  intro V. pose proof V as V'. unfold valid in V'. unfold xf_unmark. rewrite xf_at_add.
  destruct (xf_at fs p) as [x|] eqn:E; [|congruence]. pose proof (xf_at_bound _ _ _ E) as [B1 B2].
  replace (p =? 21 + zlen (fs_xfs fs)) with false by (pose proof (zlen_nonneg _ (fs_xfs fs)); lia).
  cbv iota zeta. rewrite xf_upd_add by exact V. destruct (use_down (x_use x) =? 0); [|reflexivity].
  unfold font_unmark, fmt_unmark. destruct (x_font x); [rewrite font_upd_add|]; destruct (x_format x); try rewrite fmt_upd_add; reflexivity.
Qed.
Lemma finish_cases fs t p fs' q : valid fs p -> finish fs t p = Ok (fs', q) ->
  (q = 21 + zlen (fs_xfs fs) /\ fs' = xf_mark (fst (add_xf (xf_unmark fs p) t)) q)
  \/ (21 <= q < 21 + zlen (fs_xfs fs) /\ fs' = xf_mark (xf_unmark fs p) q
      /\ exists y, xf_at (xf_unmark fs p) q = Some y /\ core y = core t).
Proof.
  intros V. unfold finish. rewrite unmark_add by exact V.
  assert (L : zlen (fs_xfs (xf_unmark fs p)) = zlen (fs_xfs fs)) by (unfold zlen; rewrite (lv_xfs _ _ (xf_unmark_level fs p)); reflexivity).
  remember (xf_unmark fs p) as fu eqn:Q. clear Q. rewrite <- L. clear L V fs.
  unfold find_xf. rewrite xf_at_add, Z.eqb_refl. cbn [add_xf fst set_xfs fs_xfs fs_dxfs].
  destruct (find_pos (fs_xfs fu ++ [t]) t 0) as [k|] eqn:E.
  - destruct (21 + Z.of_nat k =? 21 + zlen (fs_xfs fu)) eqn:Ek; cbn [bind]; intro H; apply ok_pair in H; destruct H as [<- <-].
    + left. split; reflexivity.
    + right. pose proof (find_pos_bound _ _ _ _ E) as B. rewrite app_length in B. cbn [length] in B. unfold zlen in *. split; [lia|].
      apply find_pos_eq in E. destruct E as (y & Ny & Ey & _). rewrite Nat.sub_0_r in Ny. rewrite nth_error_app1 in Ny by lia.
      unfold set_xfs. rewrite removelast_last. destruct fu as [df fo fm dx xs]. cbn [fs_dfonts fs_fonts fs_formats fs_dxfs fs_xfs] in *.
      split; [reflexivity|]. exists y. split; [|apply xf_eqb_core; exact Ey].
      unfold xf_at. cbn [fs_xfs fs_dxfs]. replace (_ <? 0) with false by lia. replace (_ <? 21) with false by lia.
      replace (Z.to_nat (21 + Z.of_nat k - 21)) with k by lia. exact Ny.
  - cbn [bind]. intro H. apply ok_pair in H. destruct H as [<- <-]. left. split; reflexivity.
Qed.

(** Which font the copy gets. *)
Definition chosen (fs1 : fstate) (t0 : xf) (fs2 : fstate) (t : xf) : Prop :=
  (exists d, (x_font t0 = None /\ font_at fs1 0 = Some d \/ exists i, x_font t0 = Some i /\ font_at fs1 i = Some d /\ 1 < fo_use d)
     /\ (fs2, t) = xf_set_font (fst (add_font fs1 (fo_val d))) t0 (Some (6 + zlen (fs_fonts fs1))))
  \/ (exists i d, x_font t0 = Some i /\ font_at fs1 i = Some d /\ fo_use d <= 1 /\ fs2 = fs1 /\ t = t0).
Lemma cell_font_finish fs p o fs' q : cell_font fs p o = Ok (fs', q) ->
  exists x fs1 t0 fs2 t fs6 y i, xf_at fs p = Some x /\ xf_dup fs x = (fs1, t0) /\ chosen fs1 t0 fs2 t
    /\ finish fs2 t p = Ok (fs6, q) /\ xf_at fs6 q = Some y /\ x_font y = Some i /\ font_set fs6 i o = Ok fs'.
Proof.
  unfold cell_font. intro H. apply bind_ok in H. destruct H as ([fs6 q6] & H1 & H2).
  destruct (xf_at fs6 q6) as [y|] eqn:Ey; [|discriminate H2]. destruct (x_font y) as [i|] eqn:Ei; [|discriminate H2].
  apply bind_ok in H2. destruct H2 as (fs7 & H2 & H3). apply ok_pair in H3. destruct H3 as [-> ->].
  unfold set_cell_font in H1. destruct (xf_at fs p) as [x|] eqn:Ex; [|discriminate H1]. destruct (xf_dup fs x) as [fs1 t0] eqn:Ed.
  apply bind_ok in H1. destruct H1 as ([fs2 t] & H1 & H3). exists x, fs1, t0, fs2, t, fs6, y, i.
  split; [reflexivity|]. split; [first [exact Ed|reflexivity]|]. split; [|split; [exact H3|auto]]. unfold chosen.
  destruct (x_font t0) as [j|] eqn:Et.
  - destruct (font_at fs1 j) as [d|] eqn:Ej; [|discriminate H1]. destruct (1 <? fo_use d) eqn:Eu.
    + left. exists d. split; [right; exists j; split; [first [exact Et|reflexivity]|]; split; [exact Ej|lia]|]. apply ok_inj in H1. symmetry. exact H1.
    + right. exists j, d. apply ok_pair in H1. destruct H1 as [<- <-]. repeat split; auto. lia.
  - destruct (font_at fs1 0) as [d|] eqn:Ej; [|discriminate H1]. left. exists d. split; [left; auto|]. apply ok_inj in H1. symmetry. exact H1.
Qed.

(* ------------------------------------------------------------------ *)
(** * Growth *)

Lemma own_grows q fs fs' : own q fs fs' -> grows fs fs'.
Proof.
  destruct q; cbn [own]; try contradiction; intro H.
  - subst fs'. apply add_font_grows.
  - destruct H as (i & H). exact (wb_fontnum_grows _ _ _ _ H).
  - subst fs'. apply add_format_grows.
  - destruct H as (i & H). exact (wb_xformat_grows _ _ _ _ _ H).
  - apply level_grows. exact (xf_user_level _ _ _ _ H).
  - apply level_grows. exact (font_set_level _ _ _ _ H).
Qed.
Lemma rstep_grows q fs R fs' R' : rstep q fs R fs' R' -> grows fs fs'.
Proof.
  destruct 1.
  - apply level_grows, xf_mark_level.
  - apply level_grows, xf_unmark_level.
  - eapply cellop_grows in H1; [tauto|exact H0].
  - eapply own_grows; eauto.
  - apply level_grows, xf_mark_level.
  - eapply grows_trans; apply level_grows; [apply xf_mark_level|apply xf_unmark_level].
  - apply level_grows, xf_unmark_level.
  - apply grows_refl.
Qed.
Lemma few_back a b : grows a b -> few b -> few a.
Proof. intros [] (A & B & C). unfold few, zlen in *. lia. Qed.

(* ------------------------------------------------------------------ *)
(** * Formats of cells stay well-formed *)

Definition okref (i : Z) : Prop := i = 15 \/ 21 <= i.
Definition tidies (fs : fstate) : Prop := forall i x, okref i -> xf_at fs i = Some x -> tidy x.

Lemma tidies_keep a b : keeps a b -> (forall i y, xf_at b i = Some y -> xf_at a i = None -> tidy y) -> tidies a -> tidies b.
Proof.
  intros K N T i y O E. destruct (xf_at a i) as [x|] eqn:Ea; [|eapply N; eauto].
  destruct (kp_xf _ _ K _ _ Ea) as (z & Ez & Cz). rewrite E in Ez. injection Ez as <-. apply (tidy_core x); [congruence|]. apply (T i); auto.
Qed.
Lemma level_none a b i y : level a b -> xf_at b i = Some y -> xf_at a i = None -> False.
Proof. intros L E N. assert (V : valid b i) by (unfold valid; congruence). apply (valid_level _ _ i L) in V. unfold valid in V. congruence. Qed.
Lemma tidies_level a b : keeps a b -> level a b -> tidies a -> tidies b.
Proof. intros K L. apply tidies_keep; [exact K|]. intros i y E N. exfalso. eapply level_none; eauto. Qed.

Lemma finish_tidies fs t p fs' q : valid fs p -> tidy t -> finish fs t p = Ok (fs', q) -> tidies fs -> tidies fs'.
Proof.
  intros V T H. pose proof (proj1 (finish_keeps _ _ _ _ _ H)) as K. apply tidies_keep; [exact K|]. intros i y E N.
  destruct (finish_cases _ _ _ _ _ V H) as [[-> ->]|(_ & -> & _)].
  - unfold xf_mark in E. rewrite xf_at_upd_all, xf_at_add in E.
    assert (Lz : zlen (fs_xfs (xf_unmark fs p)) = zlen (fs_xfs fs)) by (unfold zlen; rewrite (lv_xfs _ _ (xf_unmark_level fs p)); reflexivity).
    rewrite Lz in E. rewrite (Z.eqb_sym (21 + zlen (fs_xfs fs)) i) in E. destruct (i =? 21 + zlen (fs_xfs fs)) eqn:Q.
    + cbn [option_map] in E. injection E as <-. apply (tidy_core t); [reflexivity|exact T].
    + exfalso. eapply level_none; [apply (xf_unmark_level fs p)|exact E|exact N].
  - exfalso. eapply level_none; [|exact E|exact N]. eapply level_trans; [apply xf_unmark_level|apply xf_mark_level].
Qed.
Lemma fmt_args o : op_args (CFormat o) -> fmtop_ok o.
Proof. destruct o; auto. Qed.

Lemma cell_format_tidies fs p o fs' q : okref p -> few fs -> op_args (CFormat o) -> cell_format fs p o = Ok (fs', q) -> tidies fs -> tidies fs'.
Proof.
  intros O F A H T. apply cell_format_finish in H. destruct H as (x & fs1 & t0 & fs2 & t & Ex & Ed & Ef & H).
  pose proof (xf_dup_level fs x) as L1. pose proof (dup_keeps fs x) as K1. rewrite Ed in L1, K1. cbn [fst] in L1, K1.
  pose proof (fmt_apply_level _ _ _ _ _ Ef) as L2. pose proof (fmt_apply_keeps _ _ _ _ _ Ef) as K2.
  destruct (dup_tidy _ _ _ _ (T _ _ O Ex) Ed) as [T0 _].
  assert (F1 : few fs1) by (eapply few_back; [|exact F]; apply level_grows; destruct L1; constructor; auto).
  destruct (fmt_apply_tidy _ _ _ _ _ F1 T0 (fmt_args _ A) Ef) as [Tt _].
  eapply finish_tidies; [|exact Tt|exact H|].
  - eapply valid_grows; [apply level_grows; eapply level_trans; [exact L1|exact L2]|]. unfold valid. congruence.
  - eapply tidies_level; [exact K2|exact L2|]. eapply tidies_level; [exact K1|exact L1|exact T].
Qed.
Lemma xf_at_font_set fs i o fs' j : font_set fs i o = Ok fs' -> xf_at fs' j = xf_at fs j.
Proof.
  unfold font_set. destruct (font_at fs i) as [d|]; [|discriminate]. intro H. apply bind_ok in H. destruct H as (v & _ & H). apply ok_inj in H. subst fs'. apply xf_at_font_upd.
Qed.
Lemma few_level a b : level a b -> few a -> few b.
Proof. intros [] (A & B & C). unfold few, zlen in *. rewrite lv_fonts, lv_formats, lv_xfs. auto. Qed.
Lemma chosen_tidy fs1 t0 fs2 t : few fs1 -> tidy t0 -> chosen fs1 t0 fs2 t -> tidy t /\ keeps fs1 fs2 /\ grows fs1 fs2 /\ (forall i, xf_at fs2 i = xf_at fs1 i).
Proof.
  intros F T [(d & _ & E)|(i & d & _ & _ & _ & -> & ->)]; [|split; [exact T|split; [apply keeps_refl|split; [apply grows_refl|reflexivity]]]].
  apply pair_equal_spec in E. destruct E as [-> ->]. split; [|split; [|split]].
  - apply set_font_tidy; [exact T|]. destruct F as (F & _). pose proof (zlen_nonneg _ (fs_fonts fs1)). lia.
  - eapply keeps_trans; [apply add_font_keeps|]. exact (set_font_keeps _ t0 (Some _)).
  - eapply grows_trans; [apply add_font_grows|]. apply level_grows. exact (xf_set_font_level _ t0 (Some _)).
  - intro i. unfold font_mark, font_unmark. destruct (x_font _); rewrite ?xf_at_font_upd; reflexivity.
Qed.
Lemma tidies_same a b : (forall i, xf_at b i = xf_at a i) -> tidies a -> tidies b.
Proof. intros E T i x O H. rewrite E in H. eapply T; eauto. Qed.
Lemma cell_font_tidies fs p o fs' q : okref p -> few fs -> cell_font fs p o = Ok (fs', q) -> tidies fs -> tidies fs'.
Proof.
  intros O F H T. apply cell_font_finish in H. destruct H as (x & fs1 & t0 & fs2 & t & fs6 & y & i & Ex & Ed & C & H & _ & _ & S).
  pose proof (xf_dup_level fs x) as L1. pose proof (dup_keeps fs x) as K1. rewrite Ed in L1, K1. cbn [fst] in L1, K1.
  destruct (dup_tidy _ _ _ _ (T _ _ O Ex) Ed) as [T0 _].
  destruct (chosen_tidy _ _ _ _ (few_level _ _ L1 F) T0 C) as (Tt & K2 & G2 & E2).
  eapply tidies_same; [intro j; eapply xf_at_font_set; exact S|].
  eapply finish_tidies; [|exact Tt|exact H|].
  - eapply valid_grows; [eapply grows_trans; [apply level_grows, L1|exact G2]|]. unfold valid. congruence.
  - eapply tidies_same; [exact E2|]. eapply tidies_level; [exact K1|exact L1|exact T].
Qed.
Lemma xf_user_tidies fs p o fs' : okref p -> few fs -> op_args (CFormat o) -> xf_user fs p o = Ok fs' -> tidies fs -> tidies fs'.
Proof.
  intros O F A H T. unfold xf_user in H. destruct (xf_at fs p) as [x|] eqn:Ex; [|discriminate H].
  apply bind_ok in H. destruct H as ([fs1 y] & H1 & H2). apply ok_inj in H2. subst fs'.
  destruct (fmt_apply_tidy _ _ _ _ _ F (T _ _ O Ex) (fmt_args _ A) H1) as [Ty _].
  pose proof (fmt_apply_level _ _ _ _ _ H1) as L. pose proof (fmt_apply_keeps _ _ _ _ _ H1) as K.
  intros i z Oi E. rewrite xf_at_upd_all in E. destruct (p =? i) eqn:Q.
  - destruct (xf_at fs1 i); cbn [option_map] in E; [|discriminate E]. injection E as <-. exact Ty.
  - eapply tidies_level; [exact K|exact L|exact T|exact Oi|exact E].
Qed.
Lemma tidy_zero : tidy xf_zero.
Proof.
  destruct rel_zero as (A & B & C & D & _). constructor; auto; unfold xf_zero; cbn; congruence.
Qed.
Lemma okref_new fs : okref (21 + zlen (fs_xfs fs)).
Proof. right. pose proof (zlen_nonneg _ (fs_xfs fs)). lia. Qed.
Lemma wb_xformat_eq fs f m : wb_xformat fs f m =
  let fs1 := fst (add_xf fs xf_zero) in let p := 21 + zlen (fs_xfs fs) in
  let* fs2 := match f with Some f => xf_user fs1 p (FFont f) | None => Ok fs1 end in
  let* fs3 := match m with Some f => xf_user fs2 p (FFormat f) | None => Ok fs2 end in
  Ok (fs3, p).
Proof. unfold wb_xformat. rewrite xf_new_zero. reflexivity. Qed.
Local Strategy 1000 [wb_xformat xf_user xf_zero].
Lemma xformat_tidies fs f m fs' i : few fs' -> wb_xformat fs f m = Ok (fs', i) -> tidies fs -> tidies fs'.
Proof.
  intros F H T. rewrite wb_xformat_eq in H. cbv zeta in H.
  apply bind_ok in H. destruct H as (fs2 & H2 & H). apply bind_ok in H. destruct H as (fs3 & H3 & H). apply ok_pair in H. destruct H as [-> <-].
  assert (T1 : tidies (fst (add_xf fs xf_zero))).
  { intros j x O E. rewrite xf_at_add in E. destruct (j =? _); [|eapply T; eauto]. injection E as <-. apply tidy_zero. }
  assert (L2 : level (fst (add_xf fs xf_zero)) fs2) by (destruct f; [eapply xf_user_level; exact H2|apply ok_inj in H2; rewrite <- H2; apply level_refl]).
  assert (L3 : level fs2 fs') by (destruct m; [eapply xf_user_level; exact H3|apply ok_inj in H3; rewrite <- H3; apply level_refl]).
  assert (F2 : few fs2) by (eapply few_back; [apply level_grows; exact L3|exact F]).
  assert (F1 : few (fst (add_xf fs xf_zero))) by (eapply few_back; [apply level_grows; exact L2|exact F2]).
  assert (T2 : tidies fs2) by (destruct f; [eapply xf_user_tidies; [apply okref_new|exact F1| |exact H2|exact T1]; exact I|apply ok_inj in H2; rewrite <- H2; exact T1]).
  destruct m; [eapply xf_user_tidies; [apply okref_new|exact F2| |exact H3|exact T2]; exact I|apply ok_inj in H3; rewrite <- H3; exact T2].
Qed.
Lemma own_tidies q fs fs' : args q -> few fs' -> own q fs fs' -> tidies fs -> tidies fs'.
Proof.
  intros A F H. pose proof (own_grows _ _ _ H) as G. destruct q; cbn [own args] in *; try contradiction; intro T.
  - subst fs'. exact T.
  - destruct H as (i & H). unfold wb_fontnum in H. destruct (nth_error _ _); [|discriminate H]. apply ok_inj in H. apply (f_equal fst) in H. cbn [fst] in H. subst fs'. exact T.
  - subst fs'. exact T.
  - destruct H as (i & H). eapply xformat_tidies; eauto.
  - eapply xf_user_tidies; [right; apply A|eapply few_back; eauto|apply A|exact H|exact T].
  - eapply tidies_same; [intro j; eapply xf_at_font_set; exact H|exact T].
Qed.
Lemma args_op q o : args q -> op_in q o -> op_args o.
Proof. destruct q; cbn; try contradiction; intros A ->; exact A. Qed.
Lemma args_attaches q i : args q -> attaches q i -> okref i.
Proof.
  unfold okref. destruct q; cbn [args attaches]; try contradiction.
  - intros A ->. destruct p; cbn [cell_xf]; auto.
  - intros _ ->. auto.
  - intros A ->. auto.
  - intros A ->. auto.
Qed.
Lemma rstep_tidies q fs R fs' R' : args q -> few fs' -> rstep q fs R fs' R' -> Forall okref R -> tidies fs -> Forall okref R' /\ tidies fs'.
Proof.
  intros A F H O T. pose proof (rstep_grows _ _ _ _ _ H) as G. pose proof (few_back _ _ G F) as F0. destruct H.
  - split; [constructor; [eapply args_attaches; eauto|exact O]|]. eapply tidies_level; [apply xf_mark_keeps|apply xf_mark_level|exact T].
  - inversion O; subst. split; [assumption|]. eapply tidies_level; [apply xf_unmark_keeps|apply xf_unmark_level|exact T].
  - inversion O as [|? ? Op Or]; subst. pose proof (args_op _ _ A H) as Ao. destruct o as [o|o|[j|]]; cbn [cellop_apply] in H1.
    + split; [constructor; [right; apply (cell_format_grows _ _ _ _ _ H1)|exact Or]|]. eapply cell_format_tidies; eauto.
    + split; [constructor; [right; apply (cell_font_grows _ _ _ _ _ H1)|exact Or]|]. eapply cell_font_tidies; eauto.
    + destruct (xf_valid fs (Some j)); [|discriminate H1]. apply ok_pair in H1. destruct H1 as [<- <-]. split; [constructor; [right; exact Ao|exact Or]|].
      eapply tidies_level; [apply xf_unmark_keeps|apply xf_unmark_level|]. eapply tidies_level; [apply xf_mark_keeps|apply xf_mark_level|exact T].
    + destruct (xf_valid fs None); [|discriminate H1]. apply ok_pair in H1. destruct H1 as [<- <-]. split; assumption.
  - split; [exact O|]. eapply own_tidies; eauto.
  - split; [exact O|]. eapply tidies_level; [apply xf_mark_keeps|apply xf_mark_level|exact T].
  - split; [exact O|]. eapply tidies_level; [apply xf_unmark_keeps|apply xf_unmark_level|]. eapply tidies_level; [apply xf_mark_keeps|apply xf_mark_level|exact T].
  - split; [exact O|]. eapply tidies_level; [apply xf_unmark_keeps|apply xf_unmark_level|exact T].
  - split; [|exact T]. eapply Permutation.Permutation_Forall; eauto.
Qed.
Lemma rsteps_grows q fs R fs' R' : rsteps q fs R fs' R' -> grows fs fs'.
Proof. induction 1; [apply grows_refl|]. eapply grows_trans; [eapply rstep_grows; eauto|auto]. Qed.
Lemma rsteps_tidies q fs R fs' R' : args q -> rsteps q fs R fs' R' -> few fs' -> Forall okref R -> tidies fs -> Forall okref R' /\ tidies fs'.
Proof.
  intros A. induction 1; [auto|]. intros F O T. destruct (rstep_tidies q fs R fs1 R1) as [O1 T1]; auto.
  eapply few_back; [eapply rsteps_grows; eauto|exact F].
Qed.

(* ------------------------------------------------------------------ *)
(** * Histories *)

Lemma xfat_refs w k r c p : xfat w k r c = Some p -> In p (refs w).
Proof.
  unfold xfat. destruct (nth_error (wb_sheets w) k) as [s|] eqn:E; [|discriminate]. destruct (find_cell s r c) as [x|] eqn:Ex; [|discriminate].
  cbn [option_map]. intro H. injection H as <-. unfold refs. apply in_flat_map. exists s. split; [eapply nth_error_In; exact E|].
  unfold sheet_refs. apply in_or_app. left. apply in_map. apply (find_cell_in _ _ _ _ Ex).
Qed.
Definition xf_15 : xf := mkXf 0 None None 0 2 0 0 0 64 65 true false false true false [0; 0; 0; 0; 0] [0; 0; 0; 0; 0] 0 2.
Lemma init_xfs fs : fstate_init = Ok fs -> xf_at fs 15 = Some xf_15 /\ fs_xfs fs = [].
Proof.
  intro H. apply (f_equal (fun r => match r with Ok g => (xf_at g 15, fs_xfs g) | _ => (None, []) end)) in H. cbv beta iota in H.
  assert (E : (match fstate_init with Ok g => (xf_at g 15, fs_xfs g) | _ => (None, []) end) = (Some xf_15, @nil xf)) by (vm_compute; reflexivity).
  rewrite E in H. apply pair_equal_spec in H. destruct H as [<- <-]. auto.
Qed.
Lemma init_tidies fs : fstate_init = Ok fs -> tidies fs.
Proof.
  intro H. destruct (init_xfs _ H) as [E1 E2]. intros i x [->|O] E.
  - rewrite E1 in E. injection E as <-. destruct tidy_zero. constructor; auto.
  - unfold xf_at in E. rewrite E2 in E. replace (i <? 0) with false in E by lia. replace (i <? 21) with false in E by lia. destruct (Z.to_nat (i - 21)); discriminate E.
Qed.
Local Strategy 1000 [wb_new fstate_init default_xfs].
Lemma wb_new_fs w : wb_new = Ok w -> fstate_init = Ok (wb_fs w).
Proof. unfold wb_new. destruct fstate_init as [fs| |]; cbn [bind]; intro H; [|discriminate H|discriminate H]. apply ok_inj in H. rewrite <- H. reflexivity. Qed.
Lemma new_tidy w : wb_new = Ok w -> Forall okref (refs w) /\ tidies (wb_fs w).
Proof.
  intro D. destruct (wb_new_sheets _ D) as [E _]. unfold refs. rewrite E. split; [constructor|]. apply init_tidies. apply wb_new_fs. exact D.
Qed.
Theorem doc_tidy calls : forall w, Forall typed calls -> Forall args calls -> document calls = Ok w -> few (wb_fs w) ->
  Forall okref (refs w) /\ tidies (wb_fs w).
Proof.
  induction calls as [|q calls IH] using rev_ind; intros w T A D F.
  - apply document_nil in D. apply new_tidy. exact D.
  - apply Forall_app in T. destruct T as [T Tq]. inversion Tq as [|? ? Tq' _]; subst. apply Forall_app in A. destruct A as [A Aq]. inversion Aq as [|? ? Aq' _]; subst.
    destruct (document_snoc _ _ _ D) as (w0 & D0 & C). pose proof (mn_inv _ _ (run_means _ _ T D0)) as I.
    pose proof (call_rsteps _ _ _ I Tq' C) as S. destruct (IH w0 T A D0) as [O0 T0]; [eapply few_back; [eapply rsteps_grows; exact S|exact F]|].
    eapply rsteps_tidies; eauto.
Qed.

(** Setters other than the font setters keep what every format object says. *)
Lemma cellop_keeps o fs p fs' q : (forall f, o <> CFont f) -> cellop_apply o fs p = Ok (fs', q) -> keeps fs fs'.
Proof.
  intros N H. destruct o as [o|o|[j|]]; cbn [cellop_apply] in H.
  - apply (cell_format_keeps _ _ _ _ _ H).
  - exfalso. eapply N. reflexivity.
  - destruct (xf_valid fs (Some j)); [|discriminate H]. apply ok_pair in H. destruct H as [<- _]. eapply keeps_trans; [apply xf_mark_keeps|apply xf_unmark_keeps].
  - destruct (xf_valid fs None); [|discriminate H]. apply ok_pair in H. destruct H as [<- _]. apply keeps_refl.
Qed.
