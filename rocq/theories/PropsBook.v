(** C43: the fixed part of every saved workbook, and which formats are styles. *)
From Coq Require Import ZArith List Bool Lia ZifyBool ZifyNat Permutation.
From Verif Require Import Bytes UnitModel SpecBuf RecModel SheetModel XfModel WbModel RecProofs RecFrames SpecXf XfProofs SpecXfOps PropsXf XfInv Looks ApiModel ApiInv
  SpecBiff SpecApi SpecSaved ApiEff XfTrace SpecLook LookInv RefTrace LookStep SpecBook
  BookRecs SaveRecs SaveRead SaveOk SavedView ViewPay ViewLook CellLook PropsSheet PropsRows DemoDoc.
Import ListNotations.
Local Open Scope Z_scope.

(* ------------------------------------------------------------------ *)
(** * Which format objects are for cells *)

Definition for_cells (i : Z) : bool := ((i =? 15) || (21 <=? i))%bool.
Definition kinds (fs : fstate) : Prop := forall i x, xf_at fs i = Some x -> x_cell x = for_cells i.

Lemma cell_core x y : core x = core y -> x_cell x = x_cell y.
Proof. destruct x, y. unfold core. cbn. intro E. injection E. auto. Qed.
Lemma set_flag_cell f x : x_cell (set_flag f x) = x_cell x.
Proof. reflexivity. Qed.
Lemma flag_if_cell b f x : x_cell (flag_if b f x) = x_cell x.
Proof. destruct b; reflexivity. Qed.
Lemma xf_apply_cell o x y : xf_apply o x = Ok y -> x_cell y = x_cell x.
Proof.
  destruct o; cbn [xf_apply]; intro H; repeat (apply bind_ok in H; destruct H as (? & _ & H)); apply ok_inj in H; subst y;
  repeat match goal with |- context [if ?b then _ else _] => destruct b end;
  cbn [x_cell with_fmt with_font with_format with_ha with_va with_ind with_ori with_fill with_fg with_bg with_locked with_hidden with_wrap with_bs with_bc];
  rewrite ?flag_if_cell; reflexivity.
Qed.
Lemma set_font_cell fs x f : x_cell (snd (xf_set_font fs x f)) = x_cell x.
Proof. unfold xf_set_font. repeat match goal with |- context [match ?e with _ => _ end] => destruct e end; try reflexivity. Qed.
Lemma set_format_cell fs x f : x_cell (snd (xf_set_format fs x f)) = x_cell x.
Proof. unfold xf_set_format. cbn [snd with_format with_fmt x_cell]. apply flag_if_cell. Qed.
Lemma fmt_apply_cell fs x o fs' y : fmt_apply fs x o = Ok (fs', y) -> x_cell y = x_cell x.
Proof.
  destruct o as [o|f|[f|]]; cbn [fmt_apply]; intro H.
  - apply bind_ok in H. destruct H as (z & H & K). apply ok_pair in K. destruct K as [_ <-]. exact (xf_apply_cell _ _ _ H).
  - destruct (font_handle fs f); [|discriminate H]. apply ok_inj in H. rewrite <- (set_font_cell fs x f), H. reflexivity.
  - destruct (format_handle fs f); [|discriminate H]. apply ok_inj in H. rewrite <- (set_format_cell fs x f), H. reflexivity.
  - apply ok_pair in H. destruct H as [_ <-]. reflexivity.
Qed.
Lemma dup_cell fs x : x_cell (snd (xf_dup fs x)) = true.
Proof.
  unfold xf_dup. destruct (xf_set_font _ _ _) as [fs1 x1] eqn:E. apply (f_equal snd) in E. cbn [snd] in E.
  destruct (x_format x) as [f|].
  - rewrite set_format_cell. rewrite <- E, set_font_cell. reflexivity.
  - cbn [snd]. rewrite <- E, set_font_cell. reflexivity.
Qed.

Lemma kinds_keep a b : keeps a b -> (forall i y, xf_at b i = Some y -> xf_at a i = None -> x_cell y = for_cells i) -> kinds a -> kinds b.
Proof.
  intros K N T i y E. destruct (xf_at a i) as [x|] eqn:Ea; [|eapply N; eauto].
  destruct (kp_xf _ _ K _ _ Ea) as (z & Ez & Cz). rewrite E in Ez. injection Ez as <-. rewrite <- (T i x Ea). apply cell_core. congruence.
Qed.
Lemma kinds_level a b : keeps a b -> level a b -> kinds a -> kinds b.
Proof. intros K L. apply kinds_keep; [exact K|]. intros i y E N. exfalso. eapply level_none; eauto. Qed.
Lemma kinds_same a b : (forall i, xf_at b i = xf_at a i) -> kinds a -> kinds b.
Proof. intros E T i x H. rewrite E in H. eapply T; eauto. Qed.
Lemma new_for_cells fs : for_cells (21 + zlen (fs_xfs fs)) = true.
Proof. unfold for_cells. pose proof (zlen_nonneg _ (fs_xfs fs)). lia. Qed.

Lemma finish_kinds fs t p fs' q : valid fs p -> x_cell t = true -> finish fs t p = Ok (fs', q) -> kinds fs -> kinds fs'.
Proof.
  intros V T H. pose proof (proj1 (finish_keeps _ _ _ _ _ H)) as K. apply kinds_keep; [exact K|]. intros i y E N.
  destruct (finish_cases _ _ _ _ _ V H) as [[-> ->]|(_ & -> & _)].
  - unfold xf_mark in E. rewrite xf_at_upd_all, xf_at_add in E.
    assert (Lz : zlen (fs_xfs (xf_unmark fs p)) = zlen (fs_xfs fs)) by (unfold zlen; rewrite (lv_xfs _ _ (xf_unmark_level fs p)); reflexivity).
    rewrite Lz in E. rewrite (Z.eqb_sym (21 + zlen (fs_xfs fs)) i) in E. destruct (i =? 21 + zlen (fs_xfs fs)) eqn:Q.
    + cbn [option_map] in E. injection E as <-. apply Z.eqb_eq in Q. subst i. rewrite new_for_cells. rewrite <- T. apply cell_core. reflexivity.
    + exfalso. eapply level_none; [apply (xf_unmark_level fs p)|exact E|exact N].
  - exfalso. eapply level_none; [|exact E|exact N]. eapply level_trans; [apply xf_unmark_level|apply xf_mark_level].
Qed.
Lemma cell_format_kinds fs p o fs' q : cell_format fs p o = Ok (fs', q) -> kinds fs -> kinds fs'.
Proof.
  intros H T. apply cell_format_finish in H. destruct H as (x & fs1 & t0 & fs2 & t & Ex & Ed & Ef & H).
  pose proof (xf_dup_level fs x) as L1. pose proof (dup_keeps fs x) as K1. pose proof (dup_cell fs x) as C. rewrite Ed in L1, K1, C. cbn [fst snd] in L1, K1, C.
  pose proof (fmt_apply_level _ _ _ _ _ Ef) as L2. pose proof (fmt_apply_keeps _ _ _ _ _ Ef) as K2.
  eapply finish_kinds; [|rewrite (fmt_apply_cell _ _ _ _ _ Ef); exact C|exact H|].
  - eapply valid_grows; [apply level_grows; eapply level_trans; [exact L1|exact L2]|]. unfold valid. congruence.
  - eapply kinds_level; [exact K2|exact L2|]. eapply kinds_level; [exact K1|exact L1|exact T].
Qed.
Lemma chosen_kinds fs1 t0 fs2 t : x_cell t0 = true -> chosen fs1 t0 fs2 t -> x_cell t = true /\ grows fs1 fs2 /\ (forall i, xf_at fs2 i = xf_at fs1 i).
Proof.
  intros C [(d & _ & E)|(i & d & _ & _ & _ & -> & ->)]; [|split; [exact C|split; [apply grows_refl|reflexivity]]].
  pose proof (f_equal snd E) as Es. cbn [snd] in Es. split; [rewrite Es, set_font_cell; exact C|].
  apply pair_equal_spec in E. destruct E as [-> _]. split.
  - eapply grows_trans; [apply add_font_grows|]. apply level_grows. exact (xf_set_font_level _ t0 (Some _)).
  - intro i. unfold font_mark, font_unmark. destruct (x_font _); rewrite ?xf_at_font_upd; reflexivity.
Qed.
Lemma cell_font_kinds fs p o fs' q : cell_font fs p o = Ok (fs', q) -> kinds fs -> kinds fs'.
Proof.
  intros H T. apply cell_font_finish in H. destruct H as (x & fs1 & t0 & fs2 & t & fs6 & y & i & Ex & Ed & C & H & _ & _ & S).
  pose proof (xf_dup_level fs x) as L1. pose proof (dup_keeps fs x) as K1. pose proof (dup_cell fs x) as C0. rewrite Ed in L1, K1, C0. cbn [fst snd] in L1, K1, C0.
  destruct (chosen_kinds _ _ _ _ C0 C) as (Ct & G2 & E2).
  eapply kinds_same; [intro j; eapply xf_at_font_set; exact S|].
  eapply finish_kinds; [|exact Ct|exact H|].
  - eapply valid_grows; [eapply grows_trans; [apply level_grows, L1|exact G2]|]. unfold valid. congruence.
  - eapply kinds_same; [exact E2|]. eapply kinds_level; [exact K1|exact L1|exact T].
Qed.
Lemma xf_user_kinds fs p o fs' : xf_user fs p o = Ok fs' -> kinds fs -> kinds fs'.
Proof.
  intros H T. unfold xf_user in H. destruct (xf_at fs p) as [x|] eqn:Ex; [|discriminate H].
  apply bind_ok in H. destruct H as ([fs1 y] & H1 & H2). apply ok_inj in H2. subst fs'.
  pose proof (fmt_apply_level _ _ _ _ _ H1) as L. pose proof (fmt_apply_keeps _ _ _ _ _ H1) as K.
  intros i z E. rewrite xf_at_upd_all in E. destruct (p =? i) eqn:Q.
  - apply Z.eqb_eq in Q. subst i. destruct (xf_at fs1 p); cbn [option_map] in E; [|discriminate E]. injection E as <-. rewrite (fmt_apply_cell _ _ _ _ _ H1). apply T. exact Ex.
  - eapply kinds_level; [exact K|exact L|exact T|exact E].
Qed.
Local Strategy 1000 [wb_xformat xf_user].
Lemma xformat_kinds fs f m fs' i : wb_xformat fs f m = Ok (fs', i) -> kinds fs -> kinds fs'.
Proof.
  intros H T. rewrite wb_xformat_eq in H. cbv zeta in H.
  apply bind_ok in H. destruct H as (fs2 & H2 & H). apply bind_ok in H. destruct H as (fs3 & H3 & H). apply ok_pair in H. destruct H as [-> <-].
  assert (T1 : kinds (fst (add_xf fs xf_zero))).
  { intros j x E. rewrite xf_at_add in E. destruct (j =? _) eqn:Q; [|eapply T; eauto]. injection E as <-. apply Z.eqb_eq in Q. subst j. rewrite new_for_cells. reflexivity. }
  assert (T2 : kinds fs2) by (destruct f; [eapply xf_user_kinds; eauto|apply ok_inj in H2; rewrite <- H2; exact T1]).
  destruct m; [eapply xf_user_kinds; eauto|apply ok_inj in H3; rewrite <- H3; exact T2].
Qed.
Lemma own_kinds q fs fs' : own q fs fs' -> kinds fs -> kinds fs'.
Proof.
  intros H. destruct q; cbn [own] in *; try contradiction; intro T.
  - subst fs'. exact T.
  - destruct H as (i & H). unfold wb_fontnum in H. destruct (nth_error _ _); [|discriminate H]. apply ok_inj in H. apply (f_equal fst) in H. cbn [fst] in H. subst fs'. exact T.
  - subst fs'. exact T.
  - destruct H as (i & H). eapply xformat_kinds; eauto.
  - eapply xf_user_kinds; eauto.
  - eapply kinds_same; [intro j; eapply xf_at_font_set; exact H|exact T].
Qed.
Lemma rstep_kinds q fs R fs' R' : rstep q fs R fs' R' -> kinds fs -> kinds fs'.
Proof.
  intros H T. destruct H.
  - eapply kinds_level; [apply xf_mark_keeps|apply xf_mark_level|exact T].
  - eapply kinds_level; [apply xf_unmark_keeps|apply xf_unmark_level|exact T].
  - destruct o as [o|o|[j|]]; cbn [cellop_apply] in H1.
    + eapply cell_format_kinds; eauto.
    + eapply cell_font_kinds; eauto.
    + destruct (xf_valid fs (Some j)); [|discriminate H1]. apply ok_pair in H1. destruct H1 as [<- <-].
      eapply kinds_level; [apply xf_unmark_keeps|apply xf_unmark_level|]. eapply kinds_level; [apply xf_mark_keeps|apply xf_mark_level|exact T].
    + destruct (xf_valid fs None); [|discriminate H1]. apply ok_pair in H1. destruct H1 as [<- <-]. exact T.
  - eapply own_kinds; eauto.
  - eapply kinds_level; [apply xf_mark_keeps|apply xf_mark_level|exact T].
  - eapply kinds_level; [apply xf_unmark_keeps|apply xf_unmark_level|]. eapply kinds_level; [apply xf_mark_keeps|apply xf_mark_level|exact T].
  - eapply kinds_level; [apply xf_unmark_keeps|apply xf_unmark_level|exact T].
  - exact T.
Qed.
Lemma rsteps_kinds q fs R fs' R' : rsteps q fs R fs' R' -> kinds fs -> kinds fs'.
Proof. induction 1; [auto|]. intro T. apply IHrsteps. eapply rstep_kinds; eauto. Qed.

Definition cells_first (fs : fstate) : list bool := map x_cell (fs_dxfs fs).
Lemma init_cells fs : fstate_init = Ok fs -> map x_cell (fs_dxfs fs) = map for_cells (map Z.of_nat (seq 0 21)) /\ fs_xfs fs = [].
Proof.
  intro H. apply (f_equal (fun r => match r with Ok g => (map x_cell (fs_dxfs g), fs_xfs g) | _ => ([], []) end)) in H. cbv beta iota in H.
  assert (E : (match fstate_init with Ok g => (map x_cell (fs_dxfs g), fs_xfs g) | _ => ([], []) end) = (map for_cells (map Z.of_nat (seq 0 21)), @nil xf)) by (vm_compute; reflexivity).
  rewrite E in H. apply pair_equal_spec in H. destruct H as [<- <-]. auto.
Qed.
Local Strategy 1000 [wb_new fstate_init default_xfs].
Lemma init_kinds fs : fstate_init = Ok fs -> kinds fs.
Proof.
  intro H. destruct (init_cells _ H) as [E1 E2]. clear H. intros i x E. unfold xf_at in E. rewrite E2 in E.
  destruct (i <? 0) eqn:Q0; [discriminate E|]. destruct (i <? 21) eqn:Q1; [|destruct (Z.to_nat (i - 21)); discriminate E].
  assert (M : nth_error (map x_cell (fs_dxfs fs)) (Z.to_nat i) = Some (x_cell x)) by (rewrite nth_error_map, E; reflexivity).
  rewrite E1, !nth_error_map in M. rewrite (nth_error_nth' _ 0%nat) in M by (rewrite seq_length; lia). cbn [option_map] in M. rewrite seq_nth in M by lia.
  injection M as <-. f_equal. lia.
Qed.
Theorem doc_kinds calls : forall w, Forall typed calls -> document calls = Ok w -> kinds (wb_fs w).
Proof.
  induction calls as [|q calls IH] using rev_ind; intros w T D.
  - apply document_nil in D. apply init_kinds. apply wb_new_fs. exact D.
  - apply Forall_app in T. destruct T as [T Tq]. inversion Tq as [|? ? Tq' _]; subst.
    destruct (document_snoc _ _ _ D) as (w0 & D0 & C). pose proof (mn_inv _ _ (run_means _ _ T D0)) as I.
    eapply rsteps_kinds; [exact (call_rsteps _ _ _ I Tq' C)|]. apply IH; assumption.
Qed.

(* ------------------------------------------------------------------ *)
(** * What their records say *)

Lemma bits_tb v lo w : 0 <= lo -> 0 <= w -> forall n, 0 <= n -> Z.testbit (bits lo w v) n = ((n <? w) && Z.testbit v (n + lo))%bool.
Proof.
  intros Hl Hw n Hn. unfold bits. rewrite <- Z.shiftr_div_pow2 by lia. destruct (n <? w) eqn:E.
  - rewrite Z.mod_pow2_bits_low by lia. rewrite Z.shiftr_spec by lia. reflexivity.
  - rewrite Z.mod_pow2_bits_high by lia. reflexivity.
Qed.
Lemma xbytes_kind x : xf_kind (xbytes (xstate x)) = Some (if x_cell x then CellXf 0 else StyleXf).
Proof.
  unfold xf_kind. replace (zlen (xbytes (xstate x)) =? 20) with true by (unfold xbytes; szs; reflexivity).
  change (word 2 4 (xbytes (xstate x))) with (le_value (le16 (q_prot (xstate x)))). rewrite le16_value.
  assert (Ep : q_prot (xstate x) =
      let q := put_bit 2 (x_hidden x) (put_bit 1 (x_locked x) ((if x_cell x then 0 else 65524) mod 65536) mod 65536) in
      if x_cell x then put_field 65520 0 (q mod 65536) else q).
  { unfold xstate, xstate0. destruct (x_cell x); reflexivity. }
  rewrite Ep. destruct (x_cell x), (x_locked x), (x_hidden x); reflexivity.
Qed.

Section View.
Variables (R : Z) (calls : list call) (stream : list Z) (w : wb) (g : list brec).
Hypothesis V : view R calls stream w.
Hypothesis Hg : globals_in stream g.

Lemma view_kind_at i : kind_at g i = olet x := xf_at (wb_fs w) i in Some (if x_cell x then CellXf 0 else StyleXf).
Proof.
  pose proof (view_globals _ _ _ _ V _ Hg) as Eg. destruct (view_pays _ _ _ _ V) as (_ & _ & P). rewrite <- Eg in P. unfold kind_at, xf_at. rewrite P, nth_error_map.
  destruct (i <? 0) eqn:E; [reflexivity|].
  pose proof (wi_dxfs _ (w2_inv _ (mn_inv _ _ (vw_means _ _ _ _ V)))) as D.
  destruct (i <? 21) eqn:E6.
  - rewrite nth_error_app1 by lia. destruct (nth_error _ _); cbn [option_map]; [apply xbytes_kind|reflexivity].
  - rewrite nth_error_app2 by lia. replace (Z.to_nat i - length (fs_dxfs (wb_fs w)))%nat with (Z.to_nat (i - 21)) by lia.
    destruct (nth_error _ _); cbn [option_map]; [apply xbytes_kind|reflexivity].
Qed.
Lemma view_fixed : payloads T_CODEPAGE g = [le16 1200] /\ payloads T_DATEMODE g = [le16 0]
  /\ payloads T_STYLE g = map (fun s => le16 (Z.lor (st_xf s) 32768) ++ [byte_k 0 (st_builtin s)] ++ [byte_k 0 (st_level s)]) default_styles.
Proof.
  split; [|split].
  - assert (N : ~ In T_CODEPAGE sst_types_all) by not_in. pose proof (view_global_pay _ _ _ _ V g T_CODEPAGE Hg N) as Pay.
    rewrite (pay_globals_cat _ _ _ N) in Pay. picks Pay. rewrite ?app_nil_r in Pay. cbn [app] in Pay. apply Pay. repeat constructor. vm_compute. discriminate.
  - assert (N : ~ In T_DATEMODE sst_types_all) by not_in. pose proof (view_global_pay _ _ _ _ V g T_DATEMODE Hg N) as Pay.
    rewrite (pay_globals_cat _ _ _ N) in Pay. picks Pay. rewrite ?app_nil_r in Pay. cbn [app] in Pay. apply Pay. repeat constructor. vm_compute. discriminate.
  - assert (N : ~ In T_STYLE sst_types_all) by not_in. pose proof (view_global_pay _ _ _ _ V g T_STYLE Hg N) as Pay.
    rewrite (pay_globals_cat _ _ _ N) in Pay. picks Pay. rewrite ?app_nil_r in Pay. cbn [app] in Pay. apply Pay. apply Forall_map, Forall_forall. intros s _. szs. lia.
Qed.
End View.

Section Cells.
Variables (R : Z) (calls : list call) (stream : list Z) (w : wb).
Hypothesis V : view R calls stream w.
Lemma view_cell_xf k r c x : cell_record stream k r c = Some x -> exists p, xfat w k r c = Some p /\ rc_xf x = p mod 65536.
Proof.
  intro H. unfold cell_record in H. rewrite (view_gof _ _ _ _ V) in H. destruct (substream stream (Datatypes.S k)) as [[kind b]|] eqn:E; [|discriminate H].
    apply (view_kind _ _ _ _ V) in E. destruct (view_cells _ _ _ _ V k _ b (view_has_globals _ _ _ _ V) E) as (s & Es & E1 & E2). rewrite E1, E2 in H.
    unfold xfat. rewrite Es. unfold find_cell. clear E1 E2 Es E. revert H. induction (sh_cells s) as [|y l IH]; [discriminate|]. cbn [map find]. unfold cell_as at 1 2. cbn [rc_row rc_col].
    destruct ((c_row y =? r) && (c_col y =? c))%bool; [|exact IH]. intro H. apply some_inj in H. subst x. exists (c_xf y). split; reflexivity.
Qed.
End Cells.

(* ------------------------------------------------------------------ *)
(** * C43 *)

(** A saved workbook says that its text is UTF-16 and that its dates count from 1900, and
    names the built-in styles, each with the format the file has for it. *)
Theorem C43_fixed_part R moves calls stream g : saved_ok R moves calls stream -> globals_in stream g ->
  (exists c d, payloads T_CODEPAGE g = [c] /\ codepage c = Some 1200 /\ payloads T_DATEMODE g = [d] /\ date1904 d = Some false)
  /\ exists l, traverse read_style (payloads T_STYLE g) = Some l
     /\ l = [mkRStyle 16 S_COMMA 255; mkRStyle 17 S_COMMA0 255; mkRStyle 18 S_CURRENCY 255; mkRStyle 19 S_CURRENCY0 255; mkRStyle 0 S_NORMAL 255; mkRStyle 20 S_PERCENT 255]
     /\ forall y, In y l -> kind_at g (rs_xf y) = Some StyleXf.
Proof.
  intros S Hg. destruct (saved_view _ _ _ _ S) as (w & V). destruct (view_fixed _ _ _ _ _ V Hg) as (A & B & C).
  split; [exists (le16 1200), (le16 0); auto|]. rewrite C.
  exists [mkRStyle 16 S_COMMA 255; mkRStyle 17 S_COMMA0 255; mkRStyle 18 S_CURRENCY 255; mkRStyle 19 S_CURRENCY0 255; mkRStyle 0 S_NORMAL 255; mkRStyle 20 S_PERCENT 255].
  split; [reflexivity|]. split; [reflexivity|].
  intros y J. rewrite (view_kind_at _ _ _ _ _ V Hg). pose proof (doc_kinds _ _ (so_typed _ _ _ _ S) (vw_doc _ _ _ _ V)) as K.
  pose proof (wi_dxfs _ (w2_inv _ (mn_inv _ _ (vw_means _ _ _ _ V)))) as D.
  assert (B' : 0 <= rs_xf y < 21 /\ for_cells (rs_xf y) = false) by (cbn [In] in J; repeat (destruct J as [J|J]; [rewrite <- J; cbn; split; [lia|reflexivity]|]); contradiction).
  destruct B' as [Br Bk]. assert (X : exists x, xf_at (wb_fs w) (rs_xf y) = Some x).
  { unfold xf_at. replace (rs_xf y <? 0) with false by lia. replace (rs_xf y <? 21) with true by lia. destruct (nth_error _ _) eqn:E; [eauto|]. apply nth_error_None in E. lia. }
  destruct X as (x & X). rewrite X, (K _ _ X), Bk. reflexivity.
Qed.
Print Assumptions C43_fixed_part.

(** Format 15 and those after the first 21 are cell formats based on format 0, which is the
    style Normal; the other formats are styles. *)
Theorem C43_format_kinds R moves calls stream g i : saved_ok R moves calls stream -> globals_in stream g -> 0 <= i < zlen (payloads T_XF g) ->
  kind_at g i = Some (if ((i =? 15) || (21 <=? i))%bool then CellXf 0 else StyleXf).
Proof.
  intros S Hg B. destruct (saved_view _ _ _ _ S) as (w & V). rewrite (view_kind_at _ _ _ _ _ V Hg). pose proof (doc_kinds _ _ (so_typed _ _ _ _ S) (vw_doc _ _ _ _ V)) as K.
  pose proof (wi_dxfs _ (w2_inv _ (mn_inv _ _ (vw_means _ _ _ _ V)))) as D.
  pose proof (view_globals _ _ _ _ V _ Hg) as Eg. destruct (view_pays _ _ _ _ V) as (_ & _ & P). rewrite <- Eg in P. rewrite P, zlen_map, zlen_app in B. unfold zlen in B. rewrite D in B.
  assert (X : exists x, xf_at (wb_fs w) i = Some x).
  { unfold xf_at. replace (i <? 0) with false by lia. destruct (i <? 21) eqn:Q; destruct (nth_error _ _) eqn:E; eauto; apply nth_error_None in E; lia. }
  destruct X as (x & X). rewrite X, (K _ _ X). reflexivity.
Qed.
Print Assumptions C43_format_kinds.

(** Every cell refers to a cell format of the file. *)
Theorem C43_cells_use_cell_formats R moves calls stream g k r c x : saved_ok R moves calls stream -> globals_in stream g -> Forall args calls -> few_records stream ->
  cell_record stream k r c = Some x -> kind_at g (rc_xf x) = Some (CellXf 0).
Proof.
  intros S Hg A F H. destruct (saved_view _ _ _ _ S) as (w & V). destruct (view_few _ _ _ _ V F) as [Fw M].
  destruct (doc_tidy _ _ (so_typed _ _ _ _ S) A (vw_doc _ _ _ _ V) Fw) as [O _].
  pose proof (view_cell_xf _ _ _ _ V k r c x H) as X.
  destruct X as (p & Xp & ->). assert (Vp : valid (wb_fs w) p) by exact (xfat_valid _ _ _ _ _ (mn_inv _ _ (vw_means _ _ _ _ V)) Xp).
  rewrite (M _ Vp). rewrite (view_kind_at _ _ _ _ _ V Hg). unfold valid in Vp. destruct (xf_at (wb_fs w) p) as [z|] eqn:Ez; [|congruence].
  rewrite (doc_kinds _ _ (so_typed _ _ _ _ S) (vw_doc _ _ _ _ V) _ _ Ez). rewrite Forall_forall in O. pose proof (O p (xfat_refs _ _ _ _ _ Xp)) as Op. unfold for_cells, okref in *.
  replace ((p =? 15) || (21 <=? p))%bool with true by lia. reflexivity.
Qed.
Print Assumptions C43_cells_use_cell_formats.
