(** Looks of cells in a saved document, read off the document. *)
From Coq Require Import ZArith List Bool Lia ZifyBool ZifyNat Sorted.
From Verif Require Import Bytes UnitModel SpecBuf RecModel SheetModel XfModel WbModel RecProofs RecFrames SpecXf XfProofs SpecXfOps PropsXf XfInv Looks ApiModel SpecBiff BookRecs ApiInv
  SpecApi ApiEff SheetProofs SheetTrace GlobTrace WbProofs SaveOk SaveRecs SaveRead SpecSaved SaveMeans DocLimits SavedView XfTrace SpecLook LookInv ViewPay RefTrace LookStep.
Import ListNotations.
Local Open Scope Z_scope.

Definition font_rec (fs : fstate) (i : Z) : option rfont := olet v := fval fs i in read_font (font_bytes v).
Definition xf_rec (fs : fstate) (i : Z) : option xfattrs := olet x := xf_at fs i in read_xf (xbytes (xstate x)).

Definition number_rec (fs : fstate) (i : Z) : option numform :=
  olet l := traverse read_format (map format_bytes (indexed_formats (fs_formats fs) 164)) in
  Some (match find (fun x => fst x =? i) l with Some x => Custom (snd x) | None => Builtin i end).
Definition look_at (fs : fstate) (a : xfattrs) : option look :=
  olet f := font_rec fs (xa_font a) in olet n := number_rec fs (xa_numfmt a) in Some (mkLook a f n).

Section View.
Variables (R : Z) (calls : list call) (stream : list Z) (w : wb).
Hypothesis V : view R calls stream w.
Let g := globals_body (dg w) (dstarts w).

Lemma view_gof : globals_of stream = Some g.
Proof. unfold globals_of. pose proof (view_has_globals _ _ _ _ V) as H. unfold globals_in in H. rewrite H. reflexivity. Qed.
Lemma view_pays : payloads T_FONT g = map (fun f => font_bytes (fo_val f)) (fs_dfonts (wb_fs w) ++ fs_fonts (wb_fs w))
  /\ payloads T_FORMAT g = map format_bytes (indexed_formats (fs_formats (wb_fs w)) 164)
  /\ payloads T_XF g = map (fun x => xbytes (xstate x)) (fs_dxfs (wb_fs w) ++ fs_xfs (wb_fs w)).
Proof.
  pose proof (view_has_globals _ _ _ _ V) as Hg. fold g in Hg. pose proof (vw_limits _ _ _ _ V) as L.
  split; [|split].
  - assert (N : ~ In T_FONT sst_types_all) by not_in. pose proof (view_global_pay _ _ _ _ V g T_FONT Hg N) as Pay.
    rewrite (pay_globals_cat _ _ _ N) in Pay. picks Pay. rewrite ?app_nil_r in Pay. cbn [app] in Pay. apply Pay.
    cbn [dg bk_g wb_book g_fs]. rewrite Forall_forall. intros p J. apply in_map_iff in J. destruct J as (f & <- & J).
    pose proof (li_fonts _ _ L) as Lf. rewrite Forall_forall in Lf. specialize (Lf f J). unfold font_bytes, pl. cbn [appended op_bytes].
    pose proof (ustr_le (fo_name (fo_val f)) LEN1). szs. lia.
  - assert (N : ~ In T_FORMAT sst_types_all) by not_in. pose proof (view_global_pay _ _ _ _ V g T_FORMAT Hg N) as Pay.
    rewrite (pay_globals_cat _ _ _ N) in Pay. picks Pay. rewrite ?app_nil_r in Pay. cbn [app] in Pay. apply Pay.
    cbn [dg bk_g wb_book g_fs]. rewrite Forall_forall. intros p J. apply in_map_iff in J. destruct J as (f & <- & J).
    pose proof (li_formats _ _ L) as Lm. revert Lm J. generalize 164.
    induction (fs_formats (wb_fs w)) as [|y t IH]; intros n Lm J; [destruct J|]. inversion Lm; subst. cbn [indexed_formats] in J.
    destruct J as [<-|J]; [|eapply IH; eauto]. unfold format_bytes, pl. cbn [appended op_bytes fm_str fm_index].
    pose proof (ustr_le (fmo_str y) LEN2). szs. lia.
  - assert (N : ~ In T_XF sst_types_all) by not_in. pose proof (view_global_pay _ _ _ _ V g T_XF Hg N) as Pay.
    rewrite (pay_globals_cat _ _ _ N) in Pay. picks Pay. rewrite ?app_nil_r in Pay. cbn [app] in Pay. apply Pay.
    cbn [dg bk_g wb_book g_fs]. rewrite Forall_forall. intros p J. apply in_map_iff in J. destruct J as (f & <- & J).
    unfold xbytes. szs. lia.
Qed.
Lemma view_font i : font_record g i = font_rec (wb_fs w) i.
Proof.
  destruct view_pays as (P & _ & _). unfold font_record, font_rec, fval, font_at. rewrite P, nth_error_map.
  destruct ((i <? 0) || (i =? 4))%bool eqn:E; [reflexivity|].
  pose proof (wi_dfonts _ (w2_inv _ (mn_inv _ _ (vw_means _ _ _ _ V)))) as D. unfold dfont_pos.
  destruct (i <? 6) eqn:E6.
  - rewrite nth_error_app1 by (destruct (i <? 4) eqn:E4; lia). replace (Z.to_nat (if i <? 4 then i else i - 1)) with (Z.to_nat (if i =? 5 then 4 else i)).
    + destruct (nth_error _ _); reflexivity.
    + f_equal. destruct (i =? 5) eqn:E5, (i <? 4) eqn:E4; lia.
  - replace (i <? 4) with false by lia. rewrite nth_error_app2 by lia. replace (Z.to_nat (i - 1) - length (fs_dfonts (wb_fs w)))%nat with (Z.to_nat (i - 6)) by lia.
    destruct (nth_error _ _); reflexivity.
Qed.
Lemma view_xf i : (if i <? 0 then None else olet p := nth_error (payloads T_XF g) (Z.to_nat i) in read_xf p) = xf_rec (wb_fs w) i.
Proof.
  destruct view_pays as (_ & _ & P). unfold xf_rec, xf_at. rewrite P, nth_error_map.
  destruct (i <? 0) eqn:E; [reflexivity|].
  pose proof (wi_dxfs _ (w2_inv _ (mn_inv _ _ (vw_means _ _ _ _ V)))) as D.
  destruct (i <? 21) eqn:E6.
  - rewrite nth_error_app1 by lia. destruct (nth_error _ _); reflexivity.
  - rewrite nth_error_app2 by lia. replace (Z.to_nat i - length (fs_dxfs (wb_fs w)))%nat with (Z.to_nat (i - 21)) by lia.
    destruct (nth_error _ _); reflexivity.
Qed.
Lemma view_look_of a : look_of g a = look_at (wb_fs w) a.
Proof. unfold look_of, look_at. rewrite view_font. unfold number_format. destruct view_pays as (_ & -> & _). reflexivity. Qed.
Lemma view_look i : read_look g i = olet a := xf_rec (wb_fs w) i in look_at (wb_fs w) a.
Proof.
  rewrite <- view_xf. unfold read_look. destruct (i <? 0); [reflexivity|]. destruct (nth_error _ _) as [p|]; [|reflexivity].
  destruct (read_xf p); [apply view_look_of|reflexivity].
Qed.
Lemma view_cell_look k r c : cell_look stream k r c = olet p := xfat w k r c in read_look g (p mod 65536).
Proof.
  unfold cell_look. rewrite view_gof. unfold cell_record. rewrite view_gof. unfold xfat.
  destruct (substream stream (S k)) as [[kind b]|] eqn:E.
  - apply (view_kind _ _ _ _ V) in E. destruct (view_cells _ _ _ _ V k g b (view_has_globals _ _ _ _ V) E) as (s & Es & -> & ->).
    rewrite Es. unfold find_cell. induction (sh_cells s) as [|x l IH]; [reflexivity|]. cbn [map find]. unfold cell_as at 1. cbn [rc_row rc_col].
    unfold cell_as at 1. cbn [rc_col].
    destruct ((c_row x =? r) && (c_col x =? c))%bool; [reflexivity|exact IH].
  - destruct (nth_error (wb_sheets w) k) as [s|] eqn:Es; [|reflexivity]. exfalso.
    assert (K : exists body, sheet_in stream k body).
    { apply (view_has_sheet _ _ _ _ V). rewrite <- (mn_len _ _ (vw_means _ _ _ _ V)). apply nth_error_Some. congruence. }
    destruct K as (b & K). unfold sheet_in in K. congruence.
Qed.
Lemma view_few : few_records stream -> few (wb_fs w) /\ forall i, valid (wb_fs w) i -> i mod 65536 = i.
Proof.
  intros (g' & G & X & F & M). rewrite view_gof in G. injection G as <-. destruct view_pays as (P1 & P2 & P3). rewrite P1 in F. rewrite P2 in M. rewrite P3 in X.
  rewrite zlen_map in F, M, X. rewrite zlen_app in F, X.
  assert (Lm : forall n, zlen (indexed_formats (fs_formats (wb_fs w)) n) = zlen (fs_formats (wb_fs w))).
  { unfold zlen. clear. induction (fs_formats (wb_fs w)) as [|y t IH]; intro n; cbn [indexed_formats length]; [reflexivity|]. specialize (IH (n + 1)). lia. }
  rewrite Lm in M. pose proof (zlen_nonneg _ (fs_dfonts (wb_fs w))). pose proof (zlen_nonneg _ (fs_dxfs (wb_fs w))).
  split; [unfold few; lia|]. intros i Vi. unfold valid in Vi. destruct (xf_at (wb_fs w) i) as [x|] eqn:E; [|congruence]. apply xf_at_bound in E.
  apply Z.mod_small. lia.
Qed.
End View.

(* ------------------------------------------------------------------ *)
(** * Two saved documents *)

Lemma xstate_core x : xstate x = xstate (core x).
Proof. reflexivity. Qed.
Lemma xf_rec_keeps a b i v : keeps a b -> xf_rec a i = Some v -> xf_rec b i = Some v.
Proof.
  unfold xf_rec. intros K H. destruct (xf_at a i) as [x|] eqn:E; [|discriminate H]. destruct (kp_xf _ _ K _ _ E) as (y & -> & C).
  rewrite xstate_core, C, <- xstate_core. exact H.
Qed.
Lemma font_rec_keeps a b i v : keeps a b -> font_rec a i = Some v -> font_rec b i = Some v.
Proof.
  unfold font_rec. intros K H. destruct (fval a i) as [x|] eqn:E; [|discriminate H]. rewrite (kp_font _ _ K _ _ E). exact H.
Qed.
Lemma formats_strs a b : fstrs a = fstrs b -> forall n, indexed_formats (fs_formats a) n = indexed_formats (fs_formats b) n.
Proof.
  unfold fstrs. generalize (fs_formats a) (fs_formats b). intro l. induction l as [|x l IH]; intros [|y m] H n; try discriminate H; [reflexivity|].
  cbn [map] in H. injection H as H1 H2. cbn [indexed_formats]. rewrite H1, (IH m H2). reflexivity.
Qed.

Lemma look_at_keeps a b v l : keeps a b -> look_at a v = Some l -> look_at b v = Some l.
Proof.
  intro K. unfold look_at, number_rec. rewrite (formats_strs _ _ (kp_fmt _ _ K)).
  destruct (font_rec a (xa_font v)) as [f|] eqn:E; [|discriminate]. rewrite (font_rec_keeps _ _ _ _ K E). auto.
Qed.
(** The look described by the format object of a cell. *)
Definition xlook (fs : fstate) (i : Z) : option look := olet a := xf_rec fs i in look_at fs a.
Lemma xlook_keeps a b i l : keeps a b -> xlook a i = Some l -> xlook b i = Some l.
Proof.
  intro K. unfold xlook. destruct (xf_rec a i) as [v|] eqn:E; [|discriminate]. rewrite (xf_rec_keeps _ _ _ _ K E). apply look_at_keeps. exact K.
Qed.
Lemma look_at_attrs fs a l : look_at fs a = Some l -> lk_attrs l = a.
Proof.
  unfold look_at. destruct (font_rec fs (xa_font a)); [|discriminate]. destruct (number_rec fs (xa_numfmt a)); [|discriminate].
  intro H. injection H as <-. reflexivity.
Qed.
Lemma xf_rec_tidy fs i x : xf_at fs i = Some x -> tidy x -> xf_rec fs i = Some (attrs_of x).
Proof. unfold xf_rec. intros -> T. apply read_xstate. apply T. Qed.
Lemma attrs_core x y : core x = core y -> attrs_of x = attrs_of y.
Proof. intro E. change (attrs_of x) with (attrs_of (core x)). rewrite E. reflexivity. Qed.

(** What a setter does to the look of the format object of its cell. *)
Lemma format_step fs p o fs' q l : okref p -> few fs -> tidies fs -> op_args (CFormat o) -> cell_format fs p o = Ok (fs', q) ->
  xlook fs p = Some l -> xf_rec fs' q = Some (spec_set o (lk_attrs l)).
Proof.
  intros O F T A H L. destruct (cell_format_keeps _ _ _ _ _ H) as (_ & x & t0 & fs1 & fs2 & t & y & Ex & Ed & Ef & Ey & Cy).
  pose proof (T _ _ O Ex) as Tx. destruct (dup_tidy _ _ _ _ Tx Ed) as [T0 A0].
  pose proof (xf_dup_level fs x) as L1. rewrite Ed in L1. cbn [fst] in L1.
  destruct (fmt_apply_tidy _ _ _ _ _ (few_level _ _ L1 F) T0 (fmt_args _ A) Ef) as [Tt At].
  rewrite (xf_rec_tidy _ _ _ Ey) by (apply (tidy_core t); [congruence|exact Tt]).
  unfold xlook in L. rewrite (xf_rec_tidy _ _ _ Ex Tx) in L. apply look_at_attrs in L. rewrite L, <- A0, <- At. f_equal. apply attrs_core. exact Cy.
Qed.
