(** What the hypotheses [saved_ok] give about the document model. *)
From Coq Require Import ZArith List Bool Lia ZifyBool ZifyNat Sorted Permutation.
From Verif Require Import Bytes UnitModel SpecBuf RecModel SheetModel XfModel WbModel XfInv ApiModel SpecBiff BookRecs ApiInv SpecApi ApiEff
  RecFrames SheetProofs SheetTrace GlobTrace WbProofs SaveOk SaveRecs SpecSaved FsBound Lookups SaveMeans DocLimits.
Import ListNotations.
Local Open Scope Z_scope.

Definition Bof (R : Z) : Z := Z.max 8228 (24 + R / 4).
Lemma Bof_small R : 0 <= R <= 32819 -> Bof R = 8228.
Proof. unfold Bof. lia. Qed.
Lemma never_stable moves w : (forall e n, moves e n = false) -> stable_for moves w.
Proof. intros H. unfold stable_for, stable. intros _. intros. apply H. Qed.
Lemma calm_stable R moves w : 0 <= R <= 65535 -> (R <= 32819 \/ forall e n, moves e n = false) -> winv2 w -> limits (Bof R) w -> stable_for moves w.
Proof.
  intros HR [H|H] I L; [|apply never_stable; exact H]. rewrite Bof_small in L by lia. apply stable_small.
  destruct (limits_ok 8228 (li_B _ _ L) w I L) as (_ & _ & S). exact S.
Qed.

Record view (R : Z) (calls : list call) (stream : list Z) (w : wb) : Prop := {
  vw_rows : 0 <= R <= 65535;
  vw_typed : Forall typed calls;
  vw_fits : fits R calls;
  vw_doc : document calls = Ok w;
  vw_means : means calls w;
  vw_limits : limits (Bof R) w;
  vw_stream : stream = concat (store_of w) }.
Lemma saved_view R moves calls stream : saved_ok R moves calls stream -> exists w, view R calls stream w.
Proof.
  intros [HR T F C (w & after & D & Sv)]. exists w. pose proof (run_means calls w T D) as M.
  pose proof (doc_limits R calls w HR T F D) as L. fold (Bof R) in L. pose proof (mn_inv _ _ M) as I.
  constructor; auto. assert (Sv' : saves moves w stream after) by exact Sv.
  apply (saves_iff (Bof R)) in Sv'; [apply Sv'|exact I|exact L|]. eapply calm_stable; eauto.
Qed.
Lemma view_saved R moves calls w : 0 <= R <= 65535 -> Forall typed calls -> fits R calls -> (R <= 32819 \/ forall e n, moves e n = false) ->
  document calls = Ok w -> saved_ok R moves calls (concat (store_of w)).
Proof.
  intros HR T F C D. constructor; auto. exists w, (map sheet_after (wb_sheets w)). split; [exact D|].
  pose proof (run_means calls w T D) as M. pose proof (doc_limits R calls w HR T F D) as L. fold (Bof R) in L. pose proof (mn_inv _ _ M) as I.
  change (saves moves w (concat (store_of w)) (map sheet_after (wb_sheets w))).
  apply (saves_iff (Bof R)); auto. eapply calm_stable; eauto.
Qed.

Section View.
Variables (R : Z) (calls : list call) (stream : list Z) (w : wb).
Hypothesis V : view R calls stream w.
Let I : winv2 w := mn_inv _ _ (vw_means _ _ _ _ V).

Lemma view_globals g : globals_in stream g -> g = globals_body (dg w) (dstarts w).
Proof. intro H. unfold globals_in in H. rewrite (vw_stream _ _ _ _ V) in H. apply (globals_at (Bof R)) in H; [apply H|exact I|apply V]. Qed.
Lemma view_has_globals : globals_in stream (globals_body (dg w) (dstarts w)).
Proof. unfold globals_in. rewrite (vw_stream _ _ _ _ V). rewrite (substream_eq (Bof R)); [reflexivity|exact I|apply V]. Qed.
Lemma view_sheet k body : sheet_in stream k body ->
  exists s p, nth_error (wb_sheets w) k = Some s /\ nth_error (dstarts w) k = Some p
    /\ sheet_inv s /\ meaning k calls s /\ sheet_limits (Bof R) s /\ body = flat_map rx (inner (wb_labels w) (dac w) p s)
    /\ (R <= 32819 -> body = concat (inner (wb_labels w) (dac w) p s)).
Proof.
  intro H. unfold sheet_in in H. rewrite (vw_stream _ _ _ _ V) in H. apply (sheet_body (Bof R)) in H; [|exact I|apply V].
  destruct H as (_ & s & p & Es & Ep & E). exists s, p. split; [exact Es|]. split; [exact Ep|]. pose proof (nth_sheet_in _ _ _ Es) as J.
  pose proof (wi_sheets _ (w2_inv _ I)) as Fs. rewrite Forall_forall in Fs.
  split; [exact (Fs s J)|]. split; [apply (mn_sheet _ _ (vw_means _ _ _ _ V)); exact Es|].
  pose proof (li_sheets _ _ (vw_limits _ _ _ _ V)) as Ls. rewrite Forall_forall in Ls. split; [exact (Ls s J)|].
  split; [exact E|]. intro HR. rewrite E. apply small_body; [exact I| |exact J]. pose proof (vw_limits _ _ _ _ V) as L.
  rewrite Bof_small in L by (pose proof (vw_rows _ _ _ _ V); lia). exact L.
Qed.
Lemma view_kind k kind body : substream stream (S k) = Some (kind, body) -> sheet_in stream k body.
Proof.
  intro H. unfold sheet_in. rewrite (vw_stream _ _ _ _ V) in *. pose proof H as H'. apply (sheet_body (Bof R)) in H; [|exact I|apply V].
  destruct H as (-> & _). exact H'.
Qed.
Lemma view_has_sheet k : (k < length (sheet_names calls))%nat <-> exists body, sheet_in stream k body.
Proof.
  unfold sheet_in. rewrite (vw_stream _ _ _ _ V), (substream_eq (Bof R)); [|exact I|apply V]. cbn [nth_error]. rewrite nth_error_map.
  rewrite <- (mn_len _ _ (vw_means _ _ _ _ V)).
  assert (L : forall g ac pos l, length (bodies g ac pos l) = length l) by (intros g ac pos l; revert pos; induction l; intros; cbn; auto).
  split.
  - intro H. destruct (nth_error (dbodies w) k) as [b|] eqn:E; [exists b; reflexivity|]. apply nth_error_None in E. unfold dbodies in E. rewrite L in E. lia.
  - intros [b H]. destruct (nth_error (dbodies w) k) as [x|] eqn:E; [|discriminate]. assert (K : nth_error (dbodies w) k <> None) by congruence.
    apply nth_error_Some in K. unfold dbodies in K. rewrite L in K. exact K.
Qed.
Lemma view_parts : exists rs bodies, records stream = Some rs /\ substreams (length rs) rs = Some ((K_GLOBALS, globals_body (dg w) (dstarts w)) :: map (fun b => (K_SHEET, b)) bodies)
  /\ length bodies = length (sheet_names calls).
Proof.
  rewrite (vw_stream _ _ _ _ V). destruct (store_records (Bof R) w I (vw_limits _ _ _ _ V)) as [_ ->].
  eexists. exists (dbodies w). split; [reflexivity|]. split; [apply book_substreams|].
  rewrite <- (mn_len _ _ (vw_means _ _ _ _ V)). unfold dbodies. generalize (g_size (dg w)). induction (wb_sheets w); intros; cbn; auto.
Qed.
Lemma view_cells k gl body : globals_in stream gl -> sheet_in stream k body ->
  exists s, nth_error (wb_sheets w) k = Some s /\ read_sst gl = Some (map sst_str (map snd (wb_labels w)))
    /\ read_cells (map sst_str (map snd (wb_labels w))) body = Some (map SaveRead.cell_as (sh_cells s)).
Proof.
  intros Hg Hk. apply view_globals in Hg. subst gl. destruct (view_sheet k body Hk) as (s & p & Es & Ep & Is & Me & Ls & -> & _).
  exists s. split; [exact Es|]. pose proof (vw_limits _ _ _ _ V) as L. pose proof (li_labels _ _ L) as Ll. pose proof (vw_typed _ _ _ _ V) as T.
  split.
  - apply SaveRead.globals_sst; [apply (labels_typed calls w T (vw_means _ _ _ _ V))|cbn; lia].
  - pose proof (nth_sheet_in _ _ _ Es) as J.
    pose proof (doc_places R calls w (vw_rows _ _ _ _ V) T (vw_fits _ _ _ _ V) (vw_doc _ _ _ _ V)) as Pl. rewrite Forall_forall in Pl.
    pose proof (doc_small R calls w T (vw_fits _ _ _ _ V) (vw_doc _ _ _ _ V)) as Sm. unfold small_vals in Sm. rewrite Forall_forall in Sm.
    apply SaveRead.read_inner.
    + pose proof (sheets_limits (Bof R) (li_B _ _ L) w I L) as Q. rewrite Forall_forall in Q. destruct (Q s J) as (O & _). apply O.
    + apply (cells_good calls w k s T (vw_means _ _ _ _ V)); auto; [lia|]. apply (limits_more 8228); [lia|exact (Sm s J)].
    + eapply Forall_impl; [|exact (Sm s J)]. intros c Hc. apply cell_size_le; [lia|exact Hc].
Qed.
End View.
