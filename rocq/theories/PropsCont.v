(** Records above the format limit are continued without loss (C38). *)
From Coq Require Import ZArith List Bool Lia ZifyBool ZifyNat Sorted.
From Verif Require Import Bytes UnitModel SpecBuf BufProofs RecModel SheetModel XfModel WbModel XfInv ApiModel SpecBiff BookRecs ApiInv SpecApi ApiEff
  RecFrames RecProofs SheetProofs SheetTrace GlobTrace WbProofs SaveOk SaveRecs SaveRead SpecSaved SaveMeans DocLimits SavedView DemoDoc ViewPay PropsSheet RowBlocks PropsRows
  SpecObj PropsObj SpecCont.
Import ListNotations.
Local Open Scope Z_scope.

(* ------------------------------------------------------------------ *)
(** * Joining *)

Definition CONT : Z := T_CONTINUE.
Lemma following_app a b : following b = [] -> following (a ++ b) = following a.
Proof. intro H. induction a as [|[t p] a IH]; [exact H|]. cbn [app following]. destruct (t =? T_CONTINUE); [rewrite IH|]; reflexivity. Qed.
Lemma join_app a b : following b = [] -> join (a ++ b) = join a ++ join b.
Proof.
  intro H. induction a as [|[t p] a IH]; [reflexivity|]. cbn [app join]. destruct (t =? T_CONTINUE); [exact IH|].
  rewrite IH, following_app by exact H. reflexivity.
Qed.
Definition plain (rs : list brec) : Prop := Forall (fun r => fst r <> CONT) rs.
Lemma join_plain rs : plain rs -> join rs = rs.
Proof.
  induction 1 as [|[t p] rs N F IH]; [reflexivity|]. cbn [join fst] in *. unfold CONT in N. replace (t =? T_CONTINUE) with false by lia. rewrite IH.
  replace (following rs) with (@nil Z); [rewrite app_nil_r; reflexivity|]. inversion F as [|[t2 p2] ? N2 ?]; [reflexivity|]. subst. cbn [following fst] in *.
  unfold CONT in N2. replace (t2 =? T_CONTINUE) with false by lia. reflexivity.
Qed.
Lemma join_types ts rs : has_types ts rs -> has_types ts (join rs).
Proof. induction 1 as [|[t p] rs N F IH]; [constructor|]. cbn [join]. destruct (t =? T_CONTINUE); [exact IH|]. constructor; auto. Qed.
Lemma pieces_all f : forall l, (length l < f)%nat -> concat (pieces f l) = l.
Proof.
  pose proof M_pos. induction f; intros l L; [lia|]. cbn [pieces]. destruct l as [|a t]; [reflexivity|]. cbn [concat]. rewrite IHf.
  - apply firstn_skipn.
  - rewrite skipn_length. cbn [length] in *. lia.
Qed.
Lemma following_conts l : following (map (fun q => (RT_CONTINUE, q)) l) = concat l.
Proof. induction l as [|q l IH]; [reflexivity|]. cbn [map following concat]. change (RT_CONTINUE =? T_CONTINUE) with true. rewrite IH. reflexivity. Qed.
Lemma join_conts l : join (map (fun q => (RT_CONTINUE, q)) l) = [].
Proof. induction l as [|q l IH]; [reflexivity|]. exact IH. Qed.
(** A unit that does not begin with a continuation record. *)
Definition starts (rs : list brec) : Prop := match rs with (t, _) :: _ => t <> CONT | [] => True end.
Lemma join_rx rs : starts rs -> join (rx rs) = join rs.
Proof.
  intro H. destruct rs as [|[t p] [|r rs]]; try reflexivity. cbn [rx starts] in *. destruct (8224 <? zlen p); [|reflexivity]. unfold CONT in H.
  cbn [join following]. replace (t =? T_CONTINUE) with false by lia. unfold conts. rewrite following_conts, join_conts, pieces_all by lia.
  rewrite firstn_skipn, app_nil_r. reflexivity.
Qed.
Lemma following_rx rss : Forall starts rss -> following (flat_map rx rss) = [].
Proof.
  induction 1 as [|rs rss S F IH]; [reflexivity|]. cbn [flat_map]. destruct rs as [|[t p] rs]; [exact IH|]. cbn [starts] in S. unfold CONT in S.
  unfold rx. destruct rs as [|r rs].
  - destruct (8224 <? zlen p); cbn [app following]; replace (t =? T_CONTINUE) with false by lia; reflexivity.
  - cbn [app following]. replace (t =? T_CONTINUE) with false by lia. reflexivity.
Qed.
Lemma join_all rss : Forall starts rss -> join (flat_map rx rss) = flat_map join rss.
Proof.
  induction 1 as [|rs rss S F IH]; [reflexivity|]. cbn [flat_map]. rewrite join_app by (apply following_rx; exact F). rewrite join_rx by exact S. rewrite IH. reflexivity.
Qed.
Lemma plain_starts rs : plain rs -> starts rs.
Proof. intro H. destruct rs as [|[t p] rs]; [exact I|]. exact (Forall_inv H). Qed.

(* ------------------------------------------------------------------ *)
(** * One record *)

(** Whenever the save machine has a record to write that is not made of continuation records
    itself and whose payload [p] is above 8224 bytes, it adds to the store a first part and
    continuation records, none above 8224 bytes, whose payloads together are [p]. *)
Theorem C38_split moves g ac d st prev unit real cidx len off cur gd sh store bs t p :
  0 <= t < 65536 -> t <> T_CONTINUE -> Forall u8 p -> 8224 < zlen p < 538960000 -> (forall n, moves n = false) ->
  w_step moves g ac d = w_emit (mkBU (frame t p) false) (mkWD st prev unit real cidx len off cur gd sh store bs) ->
  exists d' parts first rest, reach moves g ac d d' /\ w_state d' = st /\ w_store d' = store ++ parts
   /\ records (concat parts) = Some ((t, first) :: map (fun q => (T_CONTINUE, q)) rest)
   /\ first ++ concat rest = p /\ zlen first = 8224 /\ Forall (fun q => 0 < zlen q <= 8224) rest.
Proof.
  intros Ht Hc Hp Hl Hm Hs. set (u := mkBU (frame t p) false) in *.
  assert (Sz : bu_size u = 4 + zlen p) by (unfold u, bu_size; cbn [bu_bytes]; apply frame_length).
  assert (Ov : oversized u = true) by (unfold oversized; rewrite Sz; unfold u; cbn [bu_cont negb andb]; lia).
  destruct (emit_reach moves g ac d st prev unit real cidx len off cur gd sh store bs u) as (a & b & c & e & Re).
  - unfold u. cbn [bu_bytes]. apply frame_bytes. exact Hp.
  - intros _. unfold nfull. rewrite Sz. apply Z.div_lt_upper_bound; lia.
  - intros _ n _. apply Hm.
  - exact Hs.
  - eexists. exists (expand u), (firstn M p), (pieces (S (length (skipn M p))) (skipn M p)). split; [exact Re|]. cbn [w_state w_store].
    split; [reflexivity|]. split; [reflexivity|]. split; [|split; [|split]].
    + destruct (expand_recs u [(t, p)]) as [E F].
      * unfold is_unit, u. cbn [bu_bytes]. rewrite frame_all_one. reflexivity.
      * split; [repeat constructor; cbn; lia|]. split; [intros _; eauto|]. unfold u. cbn [bu_cont]. intro X. discriminate X.
      * rewrite E. rewrite records_frame_all by exact F. cbn [rx]. replace (8224 <? zlen p) with true by lia. reflexivity.
    + rewrite pieces_all by lia. apply firstn_skipn.
    + apply firstn_M. lia.
    + generalize (skipn M p). intro l. generalize (S (length l)). intro f. revert l. pose proof M_pos. induction f; intro l; cbn [pieces]; [constructor|].
      destruct l as [|y l]; constructor; auto. unfold zlen. rewrite firstn_length. cbn [length]. unfold M in *. lia.
Qed.
Print Assumptions C38_split.

(* ------------------------------------------------------------------ *)
(** * Documents *)

Lemma long_view X R moves calls stream : saved_long X R moves calls stream ->
  exists w B, document calls = Ok w /\ means calls w /\ winv2 w /\ limits B w /\ stream = concat (store_of w).
Proof.
  intros [HX HR T F C (w & after & D & Sv)]. exists w, (Z.max X (24 + R / 4)). pose proof (run_means calls w T D) as M.
  pose proof (long_limits X R calls w HR T HX F D) as L. pose proof (mn_inv _ _ M) as I. split; [exact D|]. split; [exact M|]. split; [exact I|]. split; [exact L|].
  assert (Sv' : saves moves w stream after) by exact Sv. apply (saves_iff (Z.max X (24 + R / 4))) in Sv'; [apply Sv'|exact I|exact L|].
  apply never_stable. exact C.
Qed.
Lemma long_saved X R moves calls w : 8228 <= X < 538968000 -> 0 <= R <= 65535 -> Forall typed calls -> long_fits X R calls -> (forall e n, moves e n = false) ->
  document calls = Ok w -> saved_long X R moves calls (concat (store_of w)).
Proof.
  intros HX HR T F C D. constructor; auto. exists w, (map sheet_after (wb_sheets w)). split; [exact D|].
  pose proof (run_means calls w T D) as M. pose proof (long_limits X R calls w HR T HX F D) as L. pose proof (mn_inv _ _ M) as I.
  change (saves moves w (concat (store_of w)) (map sheet_after (wb_sheets w))).
  apply (saves_iff (Z.max X (24 + R / 4))); auto. apply never_stable. exact C.
Qed.

Definition whole_types : list Z :=
  [RT_INDEX; RT_DEFAULTROWHEIGHT; RT_COLINFO; RT_DEFCOLWIDTH; RT_DIMENSIONS; RT_ROW; RT_BLANK; RT_BOOLERR; RT_RK; RT_NUMBER;
   RT_LABEL; RT_LABELSST; RT_FORMULA; RT_ARRAY; RT_STRING; RT_DBCELL; RT_NOTE;
   RT_MERGEDCELLS; RT_WINDOW2; RT_PANE; RT_HLINK; RT_DVAL; RT_DV].
Lemma whole_plain rs : has_types whole_types rs -> plain rs.
Proof.
  intro H. eapply Forall_impl; [|exact H]. intros r J E. unfold whole_types, CONT in *. rewrite E in J. cbn in J.
  repeat (destruct J as [J|J]; [discriminate J|]). exact J.
Qed.
Definition unit_kind (rs : list brec) : Prop := has_types whole_types rs \/ (starts rs /\ has_types [RT_MSODRAWING; RT_OBJ; RT_TXO; RT_CONTINUE] rs).
Lemma whole_unit rs : has_types whole_types rs -> unit_kind rs. Proof. intro H. left. exact H. Qed.
Lemma drawings_kind ns : forall sheet count i spid, Forall unit_kind (drawings_recs ns sheet count i spid).
Proof.
  induction ns as [|n ns IH]; intros; cbn [drawings_recs]; constructor; auto. right. split.
  - unfold drawing_recs. cbn [starts]. discriminate.
  - unfold drawing_recs. repeat apply Forall_cons; try apply Forall_nil; hin.
Qed.
Ltac hw := eapply Forall_impl; [exact whole_unit|]; try hm; try hgl.
Lemma inner_kind ls ac pos s : Forall unit_kind (inner ls ac pos s).
Proof.
  unfold inner. apply Forall_app. split; [|apply Forall_app; split].
  - unfold head_in. repeat (apply Forall_app; split); hw.
  - unfold body_recs. destruct (sheet_blocks s) as [bl|]; [|constructor]. apply Forall_flat_map. apply Forall_forall. intros b _.
    unfold block_recs. repeat (apply Forall_app; split); hw.
    apply Forall_map. apply Forall_forall. intros c _. eapply ht_weaken; [|apply cell_types]. intros t H. cbn in *. tauto.
  - unfold tail_in. repeat (apply Forall_app; split); try (hw; fail).
    + apply drawings_kind.
    + destruct (_ && _)%bool; hw.
    + destruct (sh_dvs s); [constructor|]. constructor; [apply whole_unit; hone|]. hw.
Qed.
Lemma kinds_start rss : Forall unit_kind rss -> Forall starts rss.
Proof. apply Forall_impl. intros rs [H|[H _]]; [apply plain_starts, whole_plain; exact H|exact H]. Qed.
(** Joining does not disturb the records of a type that never needs its continuations. *)
Lemma pay_join t rss : Forall unit_kind rss -> In t whole_types -> payloads t (flat_map join rss) = payloads t (concat rss).
Proof.
  intros F J. induction F as [|rs rss K F IH]; [reflexivity|]. cbn [flat_map concat]. rewrite !pay_app, IH. f_equal. destruct K as [H|[_ H]].
  - rewrite join_plain by (apply whole_plain; exact H). reflexivity.
  - assert (N : forall l, has_types [RT_MSODRAWING; RT_OBJ; RT_TXO; RT_CONTINUE] l -> payloads t l = []).
    { intros l Hl. unfold payloads. replace (filter (fun r : brec => fst r =? t) l) with (@nil brec); [reflexivity|].
      induction Hl as [|r l Hr Hl IHl]; [reflexivity|]. cbn [filter]. rewrite <- IHl. replace (fst r =? t) with false; [reflexivity|]. symmetry. apply Z.eqb_neq.
      intro E. rewrite E in Hr. clear - J Hr. cbn in J, Hr. repeat (destruct Hr as [<-|Hr]; [repeat (destruct J as [J|J]; [discriminate J|]); exact J|]). exact Hr. }
    rewrite !N; auto. apply join_types. exact H.
Qed.

Section Long.
Variables (X R : Z) (moves : Z -> nat -> bool) (calls : list call) (stream : list Z).
Hypothesis H : saved_long X R moves calls stream.

Lemma long_sheet k body : sheet_in stream k body ->
  exists w s p, document calls = Ok w /\ means calls w /\ nth_error (wb_sheets w) k = Some s /\ sheet_inv s /\ meaning k calls s
   /\ join body = flat_map join (inner (wb_labels w) (dac w) p s).
Proof.
  intro Hk. destruct (long_view _ _ _ _ _ H) as (w & B & D & Mn & I & L & Es). unfold sheet_in in Hk. rewrite Es in Hk.
  apply (sheet_body B) in Hk; [|exact I|exact L]. destruct Hk as (_ & s & p & En & Ep & Eb). exists w, s, p.
  split; [exact D|]. split; [exact Mn|]. split; [exact En|]. pose proof (wi_sheets _ (w2_inv _ I)) as Fs. rewrite Forall_forall in Fs.
  split; [exact (Fs s (nth_sheet_in _ _ _ En))|]. split; [apply (mn_sheet _ _ Mn); exact En|].
  rewrite Eb. apply join_all. apply kinds_start, inner_kind.
Qed.
Lemma long_pay k body t : sheet_in stream k body -> In t whole_types ->
  exists w s p, nth_error (wb_sheets w) k = Some s /\ meaning k calls s /\ payloads t (join body) = payloads t (concat (inner (wb_labels w) (dac w) p s)).
Proof.
  intros Hk J. destruct (long_sheet k body Hk) as (w & s & p & _ & _ & Es & _ & Me & E). exists w, s, p. split; [exact Es|]. split; [exact Me|].
  rewrite E. apply pay_join; [apply inner_kind|exact J].
Qed.
End Long.

(** Every record in the stream is within the limit, and the records make up the stream. *)
Theorem C38_no_long_record X R moves calls stream : saved_long X R moves calls stream ->
  exists rs, records stream = Some rs /\ Forall (fun r => zlen (snd r) <= 8224) rs.
Proof.
  intro H. destruct (long_view _ _ _ _ _ H) as (w & B & D & Mn & I & L & Es). rewrite Es. destruct (store_records B w I L) as [_ E].
  eexists. split; [exact E|]. destruct (limits_ok B (li_B _ _ L) w I L) as (Bk & F & _). cbv zeta in Bk.
  destruct (book_frames _ _ _ Bk F) as [_ A]. eapply Forall_impl; [|exact A]. intros r [_ Hr]. exact Hr.
Qed.
Print Assumptions C38_no_long_record.

(** Hyperlinks of any length (up to the room [X]) come back from the joined records. *)
Theorem C38_hyperlinks_partial X R moves calls stream k body : saved_long X R moves calls stream -> sheet_in stream k body ->
  exists links, traverse read_hlink (payloads T_HLINK (join body)) = Some links /\ Forall2 link_says (links_of k calls) links.
Proof.
  intros H Hk. destruct (long_pay _ _ _ _ _ H k body T_HLINK Hk) as (w & s & p & Es & Me & Pay); [hin|].
  rewrite pay_inner_flat in Pay by not_in. picks Pay. cbn [app] in Pay. rewrite app_nil_r in Pay. pose proof (sn_room _ _ _ _ _ H) as HX.
  pose proof (sn_typed _ _ _ _ _ H) as Ty. pose proof (lf_calls _ _ _ (sn_fits _ _ _ _ _ H)) as Fi.
  assert (L : forall r c u m, In (r, c, u, m) (links_of k calls) -> text_typed u /\ text_typed m /\ text_len u + text_len m <= 400000000).
  { intros r c u m J. apply in_flat_map in J. destruct J as (q & Jq & J). rewrite Forall_forall in Ty, Fi. specialize (Ty q Jq). specialize (Fi q Jq).
    destruct q; cbn [links_step] in J; try exact (False_ind _ J). destruct (Nat.eqb k k0); [|destruct J]. destruct J as [J|[]].
    apply pair_equal_spec in J. destruct J as [J J4]. apply pair_equal_spec in J. destruct J as [J J3]. subst url mark. cbn [typed call_long] in Ty, Fi.
    split; [tauto|]. split; [tauto|]. lia. }
  assert (Lm : forall h, In h (sh_links s) -> u16 (hl_row h) /\ u16 (hl_col h) /\ Forall u16 (hl_url h) /\ Forall u16 (hl_mark h) /\ zlen (hl_url h) + zlen (hl_mark h) <= 400000000).
  { intros h J. rewrite (me_links _ _ _ Me) in J. apply in_map_iff in J. destruct J as ([[[r c] u] m] & <- & J). destruct (L _ _ _ _ J) as (Tu & Tm & Ln).
    cbn [lnk hl_row hl_col hl_url hl_mark]. unfold u16. split; [lia|]. split; [lia|]. split; [apply to16_typed; exact Tu|]. split; [apply to16_typed; exact Tm|].
    rewrite !to16_len. exact Ln. }
  exists (map link_as (sh_links s)). rewrite Pay. split.
  - apply traverse_map. intros h J. destruct (Lm h J) as (A & B & C & D & E). apply link_read; assumption.
  - rewrite (me_links _ _ _ Me), map_map. clear - L. induction (links_of k calls) as [|[[[r c] u] m] l IH]; constructor.
    + destruct (L r c u m (or_introl eq_refl)) as (Tu & Tm & _). cbn [link_says lnk link_as rk_area rk_url rk_mark hl_row hl_col hl_url hl_mark].
      split; [intros; rewrite !Z.mod_small by lia; reflexivity|]. split; [intros; apply to16_units; assumption|].
      split; [intro E; rewrite (to16_units _ _ Tm E); reflexivity|]. intros v E N. rewrite (to16_units _ _ Tm E). destruct v; [congruence|reflexivity].
    + apply IH. intros. apply (L r0 c0 u0 m0). right. assumption.
Qed.
Print Assumptions C38_hyperlinks_partial.

(** The same for validations whose texts and conditions fit their 16-bit lengths. *)
Theorem C38_validations_partial X R moves calls stream k body : saved_long X R moves calls stream -> sheet_in stream k body ->
  Forall dv_storable (dvs_of k calls) ->
  traverse read_dv (payloads T_DV (join body)) = Some (map dv_as (dvs_of k calls)).
Proof.
  intros H Hk Hd. destruct (long_pay _ _ _ _ _ H k body T_DV Hk) as (w & s & p & Es & Me & Pay); [hin|].
  rewrite pay_inner_flat in Pay by not_in. picks Pay. cbn [app] in Pay. rewrite (me_dvs _ _ _ Me) in Pay. rewrite Pay.
  pose proof (sn_typed _ _ _ _ _ H) as Ty. rewrite Forall_forall in Ty, Hd. apply traverse_map. intros d J. apply dv_read; [|auto].
  apply in_flat_map in J. destruct J as (q & Jq & J). specialize (Ty q Jq).
  destruct q; cbn [dvs_step] in J; try exact (False_ind _ J). destruct (Nat.eqb k k0); [|destruct J]. destruct J as [J|[]]. subst d0. exact Ty.
Qed.
Print Assumptions C38_validations_partial.

(** The cells, with formulas of up to 65535 bytes of tokens. *)
Lemma join_single t p : t <> CONT -> join [(t, p)] = [(t, p)].
Proof. intro H. apply join_plain. repeat constructor. exact H. Qed.
Lemma join_cells ls l : flat_map join (map (cell_recs ls) l) = concat (map (cell_recs ls) l).
Proof.
  induction l as [|c l IH]; [reflexivity|]. cbn [map flat_map concat]. rewrite IH. f_equal. apply join_plain, whole_plain.
  eapply ht_weaken; [|apply cell_types]. intros t H. cbn in *. tauto.
Qed.
Lemma ht_join ts rss : Forall (has_types ts) rss -> has_types ts (flat_map join rss).
Proof. induction 1; cbn [flat_map]; [constructor|]. apply ht_app; [apply join_types; assumption|assumption]. Qed.
Lemma join_blocks ls sst bl : Forall (cell_good ls sst) (flat_map k_cells bl) -> forall rest acc,
  read_loop sst (flat_map join (flat_map (block_recs ls) bl) ++ rest) acc = read_loop sst rest (rev (map cell_as (flat_map k_cells bl)) ++ acc).
Proof.
  induction bl as [|b bl IH]; intros F rest acc; [reflexivity|]. cbn [flat_map] in *. apply Forall_app in F. destruct F as [F1 F2].
  rewrite flat_map_app, <- app_assoc. unfold block_recs at 1. rewrite !flat_map_app, <- !app_assoc. rewrite loop_skip.
  2:{ apply noncell_skips. apply ht_join. hm. }
  rewrite join_cells. rewrite loop_cells by exact F1. rewrite loop_skip.
  2:{ apply noncell_skips. apply ht_join. hgl. }
  rewrite IH by assumption. rewrite map_app, rev_app_distr, <- app_assoc. reflexivity.
Qed.
Lemma read_joined ls sst ac pos s : sheet_blocks s <> None -> Forall (cell_good ls sst) (sh_cells s) ->
  read_cells sst (flat_map join (inner ls ac pos s)) = Some (map cell_as (sh_cells s)).
Proof.
  intros Hb F. unfold read_cells, inner, body_recs. rewrite !flat_map_app. rewrite loop_skip.
  2:{ apply noncell_skips. apply ht_join. apply head_in_types. }
  unfold sheet_blocks in *. destruct (blocks_of _ _ _) as [bl|] eqn:E; [|congruence]. apply blocks_cells in E.
  rewrite join_blocks by (rewrite E; assumption). rewrite E, app_nil_r.
  rewrite <- (app_nil_r (flat_map join (tail_in ac s))). rewrite loop_skip.
  2:{ apply noncell_skips. apply ht_join. apply tail_in_types. }
  cbn [read_loop]. rewrite rev_involutive. reflexivity.
Qed.
Theorem C38_cells_partial X R moves calls stream k globals body : saved_long X R moves calls stream -> X <= 65561 ->
  globals_in stream globals -> sheet_in stream k body ->
  exists sst cells, read_sst globals = Some sst /\ read_cells sst (join body) = Some cells
    /\ StronglySorted before cells /\ same_cells (cells_of k calls) cells.
Proof.
  intros H HX Hg Hk. destruct (long_view _ _ _ _ _ H) as (w & B & D & Mn & I & L & Es). pose proof (sn_typed _ _ _ _ _ H) as T.
  unfold sheet_in, globals_in in *. rewrite Es in Hk, Hg.
  apply (globals_at B) in Hg; [|exact I|exact L]. destruct Hg as [_ ->].
  apply (sheet_body B) in Hk; [|exact I|exact L]. destruct Hk as (_ & s & p & En & Ep & ->). pose proof (li_labels _ _ L) as Ll.
  pose proof (nth_sheet_in _ _ _ En) as J. pose proof (wi_sheets _ (w2_inv _ I)) as Fs. rewrite Forall_forall in Fs. specialize (Fs s J).
  exists (map sst_str (map snd (wb_labels w))), (map cell_as (sh_cells s)).
  split; [|split; [|split]].
  - apply globals_sst; [apply (labels_typed calls w T Mn)|cbn; lia].
  - rewrite join_all by (apply kinds_start, inner_kind). apply read_joined.
    + pose proof (sheets_limits B (li_B _ _ L) w I L) as Q. rewrite Forall_forall in Q. destruct (Q s J) as (O & _). apply O.
    + apply (cells_good calls w k s T Mn); auto; [lia| |].
      * pose proof (long_places X R calls w (sn_rows _ _ _ _ _ H) T (sn_fits _ _ _ _ _ H) D) as Pl. rewrite Forall_forall in Pl. exact (Pl s J).
      * apply Forall_forall. intros c Jc. destruct (long_cell X R calls w T (sn_fits _ _ _ _ _ H) D k s c En Jc) as (u & id & _ & Ev & _ & _ & P3).
        rewrite Ev. apply (limit_more X); [exact HX|]. apply make_limit. exact P3.
  - apply before_sorted. exact Fs.
  - apply same_read; auto. apply (mn_sheet _ _ Mn). exact En.
Qed.
Print Assumptions C38_cells_partial.

(** Saving by evaluation. *)
Definition long_doc : list call :=
  [KSheet (TChar [65]); KCell 0 0 0 (UFormula false (repeat 22 (Z.to_nat 9000)) 9000 (mkEst 0 3 None)) None; KCell 0 2 1 (UInt 1) None;
   KHyperlink 0 0 0 (TChar (repeat 97 (Z.to_nat 4200))) (TChar [109]);
   KValidate 0 (mkDV (mkRange 3 3 1 1) 3 None (Some [30; 1; 0]) [] (repeat 1041 (Z.to_nat 4200)) [] [83; 84])].
Lemma repeat_all (P : Z -> Prop) x n : P x -> Forall P (repeat x n).
Proof. intro H. apply Forall_forall. intros y J. apply repeat_spec in J. subst. exact H. Qed.
Lemma repeat_in m x n : 0 <= x < m -> Forall (fun x => 0 <= x < m) (repeat x n).
Proof. intro H. apply repeat_all. exact H. Qed.
Lemma zlen_repeat (x : Z) n : 0 <= n -> zlen (repeat x (Z.to_nat n)) = n.
Proof. intro H. unfold zlen. rewrite repeat_length. lia. Qed.
Lemma long_doc_typed : Forall typed long_doc.
Proof.
  unfold long_doc.
  pose proof (repeat_in 256 22 (Z.to_nat 9000) ltac:(lia)) as A. pose proof (repeat_in 256 97 (Z.to_nat 4200) ltac:(lia)) as B.
  pose proof (repeat_in 65536 1041 (Z.to_nat 4200) ltac:(lia)) as C.
  generalize dependent (repeat 22 (Z.to_nat 9000)). generalize dependent (repeat 97 (Z.to_nat 4200)). generalize dependent (repeat 1041 (Z.to_nat 4200)).
  intros c C b B a A.
  repeat (apply Forall_cons; [cbn [typed text_typed val_typed fe_enc fe_flags fe_str]; unfold dv_typed, u8, u16, u32; cbn [dv_range dv_options dv_cond1 dv_cond2 dv_ptitle dv_ptext dv_etitle dv_etext rg_fr rg_lr rg_fc rg_lc];
    repeat split; try lia; try assumption; try (repeat constructor; lia); try (intros t E; try discriminate E; injection E as <-; repeat constructor; lia)|]). apply Forall_nil.
Qed.
Lemma long_doc_fits : long_fits 41000 40 long_doc.
Proof.
  unfold long_doc.
  pose proof (zlen_repeat 22 9000 ltac:(lia)) as A. pose proof (zlen_repeat 97 4200 ltac:(lia)) as B. pose proof (zlen_repeat 1041 4200 ltac:(lia)) as C.
  generalize dependent (repeat 22 (Z.to_nat 9000)). generalize dependent (repeat 97 (Z.to_nat 4200)). generalize dependent (repeat 1041 (Z.to_nat 4200)).
  intros c C b B a A. constructor.
  - repeat (apply Forall_cons; [cbn [call_long call_fits val_long text_len fe_str len_opt]; unfold dv_room; cbn [dv_ptitle dv_ptext dv_etitle dv_etext dv_cond1 dv_cond2 len_opt];
      rewrite ?A, ?B, ?C; unfold zlen; cbn [length]; try lia; try tauto|]); try apply Forall_nil.
    + split; [lia|]. split; [lia|]. split; [lia|]. split; [|lia]. intros [E|E]; [discriminate E|congruence].
  - unfold zlen. cbn. lia.
  - unfold zlen. cbn. lia.
  - intro k. exists []. split; [cbn; lia|]. intros r H.
    match type of H with height_of k ?l r <> None => destruct (height_of k l r) as [[h p]|] eqn:E end; [|congruence]. apply heights_from in E. cbn [In] in E. each E.
Qed.
(** A formula of 9000 bytes of tokens, a hyperlink of 4200 characters and a long
    validation message: saved, with three continuation records. *)
Example C38_case : exists stream body, saved_long 41000 40 (fun _ _ => false) long_doc stream /\ sheet_in stream 0 body
  /\ zlen (payloads T_CONTINUE body) = 3 /\ zlen (links_of 0 long_doc) = 1 /\ Forall dv_storable (dvs_of 0 long_doc).
Proof.
  destruct (stream_of 400 long_doc) as [s|] eqn:E.
  2:{ assert (K : match stream_of 400 long_doc with Some _ => true | None => false end = true) by (vm_compute; reflexivity). rewrite E in K. discriminate K. }
  assert (K : match stream_of 400 long_doc with Some s => match substream s 1 with Some (kd, b) => ((kd =? K_SHEET) && (zlen (payloads T_CONTINUE b) =? 3))%bool | None => false end | None => false end = true) by (vm_compute; reflexivity).
  rewrite E in K. destruct (substream s 1) as [[kd b]|] eqn:Eb; [|discriminate K]. apply andb_prop in K. destruct K as [K1 K2].
  exists s, b. split; [|split; [|split; [|split]]].
  - constructor; [lia|lia|exact long_doc_typed|exact long_doc_fits|reflexivity|]. apply (stream_of_saved _ _ _ E).
  - unfold sheet_in. rewrite Eb. do 2 f_equal. lia.
  - lia.
  - reflexivity.
  - unfold long_doc. pose proof (zlen_repeat 1041 4200 ltac:(lia)) as C. generalize dependent (repeat 1041 (Z.to_nat 4200)). intros c C. cbn [dvs_of flat_map dvs_step app Nat.eqb].
    constructor; [|constructor]. unfold dv_storable. cbn [dv_ptitle dv_ptext dv_etitle dv_etext dv_cond1 dv_cond2 len_opt]. rewrite C. unfold zlen. cbn [length]. lia.
Qed.

(* ------------------------------------------------------------------ *)
(** * What is missing *)

(** A formula with a text result consists of two records.  Together they may exceed the limit
    although neither does: the unit is cut as if it were one record, and neither the body as
    it is nor the joined records are the document's cells. *)
Definition two_records : list call :=
  [KSheet (TChar [65]); KCell 0 0 0 (UFormula false (repeat 22 (Z.to_nat 8190)) 8190 (mkEst 0 3 (Some [65; 66; 67; 68; 69; 70; 71; 72; 73; 74]))) None; KCell 0 2 1 (UInt 1) None].
Lemma two_records_typed : Forall typed two_records.
Proof.
  unfold two_records. pose proof (repeat_in 256 22 (Z.to_nat 8190) ltac:(lia)) as A. generalize dependent (repeat 22 (Z.to_nat 8190)). intros a A.
  repeat (apply Forall_cons; [cbn [typed text_typed val_typed fe_enc fe_flags fe_str]; unfold u8, u16, u32;
    repeat split; try lia; try assumption; try (repeat constructor; lia); try (intros t E; try discriminate E; injection E as <-; repeat constructor; lia)|]). apply Forall_nil.
Qed.
Theorem C38_two_records_refuted : exists calls stream globals body sst, Forall typed calls /\ saved (fun _ _ => false) calls stream
  /\ globals_in stream globals /\ sheet_in stream 0 body /\ read_sst globals = Some sst
  /\ Forall (fun u => match u with UFormula _ toks _ e => 22 + zlen toks <= 8224 /\ 3 + 2 * len_opt (fe_str e) <= 8224 | _ => True end)
            (flat_map (fun q => match q with KCell _ _ _ u _ => [u] | _ => [] end) calls)
  /\ read_cells sst body = None /\ read_cells sst (join body) = None.
Proof.
  assert (K : match stream_of 400 two_records with
              | Some s => match substream s 0, substream s 1 with
                          | Some (kg, g), Some (kd, b) => match read_sst g with
                             | Some sst => (kg =? K_GLOBALS) && (kd =? K_SHEET)
                                && match read_cells sst b with None => true | _ => false end && match read_cells sst (join b) with None => true | _ => false end
                             | None => false end
                          | _, _ => false end
              | None => false end%bool = true) by (vm_compute; reflexivity).
  destruct (stream_of 400 two_records) as [s|] eqn:Es; [|discriminate K]. destruct (substream s 0) as [[kg g]|] eqn:Eg; [|discriminate K].
  destruct (substream s 1) as [[kd b]|] eqn:Eb; [|discriminate K]. destruct (read_sst g) as [sst|] eqn:Er; [|discriminate K].
  apply andb_prop in K. destruct K as [K K4]. apply andb_prop in K. destruct K as [K K3]. apply andb_prop in K. destruct K as [K1 K2].
  exists two_records, s, g, b, sst. split; [exact two_records_typed|]. split; [apply (stream_of_saved _ _ _ Es)|].
  split; [unfold globals_in; rewrite Eg; do 2 f_equal; lia|]. split; [unfold sheet_in; rewrite Eb; do 2 f_equal; lia|]. split; [exact Er|]. split.
  - unfold two_records. pose proof (zlen_repeat 22 8190 ltac:(lia)) as C. generalize dependent (repeat 22 (Z.to_nat 8190)). intros c C.
    cbn [flat_map app]. repeat constructor; try lia. 
    + unfold len_opt, zlen. cbn. lia.
  - split; [destruct (read_cells sst b); [discriminate K3|reflexivity]|destruct (read_cells sst (join b)); [discriminate K4|reflexivity]].
Qed.
Print Assumptions C38_two_records_refuted.

(** The room reserved for the records ignores hyperlinks.  When the store has to move between
    the first part of a record and its continuation, the rest of the record is read from
    storage that no longer exists. *)
Definition many_links : list call :=
  [KSheet (TChar [65]); KCell 0 0 0 (UInt 1) None] ++ repeat (KHyperlink 0 0 0 (TChar [104]) (TChar [])) (Z.to_nat 998)
  ++ [KHyperlink 0 0 0 (TChar (repeat 97 (Z.to_nat 4100))) (TChar [])].
Lemma many_links_typed : Forall typed many_links.
Proof.
  unfold many_links. pose proof (repeat_in 256 97 (Z.to_nat 4100) ltac:(lia)) as A. generalize dependent (repeat 97 (Z.to_nat 4100)). intros a A.
  apply Forall_app. split; [|apply Forall_app; split].
  - repeat (apply Forall_cons; [cbn [typed text_typed val_typed]; unfold u8, u16, u32; repeat split; try lia; try (repeat constructor; lia)|]). apply Forall_nil.
  - apply Forall_forall. intros q J. apply repeat_spec in J. subst q. cbn [typed text_typed]. unfold u8, u16, u32. repeat split; try lia; repeat constructor; lia.
  - repeat constructor; cbn [text_typed]; try assumption; unfold u16, u32; try lia.
Qed.
Theorem C38_moved_refuted : exists calls w, Forall typed calls /\ document calls = Ok w
  /\ (exists stream, saved (fun _ _ => false) calls stream) /\ (exists fuel, book_units fuel doubling (wb_book w) = Some UB).
Proof.
  assert (K : match document many_links with
              | Ok w => match book_units 1200 doubling (wb_book w), book_units 1200 (fun _ _ => false) (wb_book w) with Some UB, Some (Ok _) => true | _, _ => false end
              | _ => false end = true) by (vm_compute; reflexivity).
  destruct (document many_links) as [w| |] eqn:D; [|discriminate K|discriminate K]. exists many_links, w. split; [exact many_links_typed|]. split; [exact D|].
  destruct (book_units 1200 doubling (wb_book w)) as [[?| |]|] eqn:E1; try discriminate K.
  destruct (book_units 1200 (fun _ _ => false) (wb_book w)) as [[[us after]| |]|] eqn:E2; try discriminate K. split; [|exists 1200%nat; exact E1].
  exists (concat us), w, after. split; [exact D|]. exists 1200%nat, us. auto.
Qed.
Print Assumptions C38_moved_refuted.
