(** C44: the records of a saved workbook come in the order the format asks for. *)
From Coq Require Import ZArith List Bool Lia ZifyBool ZifyNat Sorted.
From Verif Require Import Bytes UnitModel SpecBuf RecModel SheetModel XfModel WbModel RecProofs RecFrames SheetProofs SheetTrace GlobTrace WbProofs ApiModel ApiInv SpecBiff SpecApi SpecSaved ApiEff
  SpecView SpecObj SpecSheet SpecBook SpecOrder RowBlocks BookRecs SaveRecs SaveRead SaveOk SaveMeans SavedView ViewPay PropsSheet PropsRows DemoDoc.
Import ListNotations.
Local Open Scope Z_scope.

Section Order.
Variables (skip : list Z) (order : list (list Z)).
Definition in_slots (lo hi : nat) (rs : list brec) : Prop :=
  Forall (fun r => existsb (Z.eqb (fst r)) skip = true \/ exists i, slot order (fst r) = Some i /\ (lo <= i <= hi)%nat) rs.
Definition seg (lo hi : nat) (rs : list brec) : Prop := follows skip order rs /\ in_slots lo hi rs.

Lemma follows_in rs l : traverse (slot order) (filter (fun t => negb (existsb (Z.eqb t) skip)) (map fst rs)) = Some l ->
  forall lo hi, in_slots lo hi rs -> Forall (fun i => lo <= i <= hi)%nat l.
Proof.
  revert l. induction rs as [|r rs IH]; intros l E lo hi H; cbn [map filter traverse] in E; [injection E as <-; constructor|].
  inversion H as [|? ? Hr Hrs]; subst. destruct (existsb (Z.eqb (fst r)) skip) eqn:Q; cbn [negb] in E; [eapply IH; eauto|].
  cbn [traverse] in E. destruct Hr as [Hr|(i & Hi & B)]; [discriminate Hr|]. rewrite Hi in E.
  destruct (traverse _ _) as [m|] eqn:Em; [|discriminate E]. injection E as <-. constructor; [exact B|]. eapply IH; eauto.
Qed.
Lemma traverse_app {A B} (f : A -> option B) a b x y : traverse f a = Some x -> traverse f b = Some y -> traverse f (a ++ b) = Some (x ++ y).
Proof.
  revert x. induction a as [|z a IH]; intros x E F; cbn [app traverse] in *; [injection E as <-; exact F|].
  destruct (f z); [|discriminate E]. destruct (traverse f a) as [m|]; [|discriminate E]. injection E as <-. rewrite (IH m eq_refl F). reflexivity.
Qed.
Lemma sorted_app a b m : StronglySorted le a -> StronglySorted le b -> Forall (fun i => i <= m)%nat a -> Forall (fun i => m <= i)%nat b -> StronglySorted le (a ++ b).
Proof.
  induction 1 as [|x a Sa IH Fx]; intros Sb Fa Fb; [exact Sb|]. cbn [app]. inversion Fa; subst. constructor; [apply IH; assumption|].
  apply Forall_app. split; [exact Fx|]. eapply Forall_impl; [|exact Fb]. cbv beta. intros; lia.
Qed.
Lemma seg_app lo mid hi a b : (lo <= mid <= hi)%nat -> seg lo mid a -> seg mid hi b -> seg lo hi (a ++ b).
Proof.
  intros B [(la & Ea & Sa) Ia] [(lb & Eb & Sb) Ib]. split.
  - exists (la ++ lb). rewrite map_app, filter_app. split; [apply traverse_app; assumption|]. apply (sorted_app _ _ mid); auto.
    + eapply Forall_impl; [|exact (follows_in _ _ Ea _ _ Ia)]. cbv beta. intros; lia.
    + eapply Forall_impl; [|exact (follows_in _ _ Eb _ _ Ib)]. cbv beta. intros; lia.
  - apply Forall_app. split; [eapply Forall_impl; [|exact Ia]|eapply Forall_impl; [|exact Ib]]; intros r [H|(i & H & L)]; [auto|right; exists i; split; [exact H|lia]|auto|right; exists i; split; [exact H|lia]].
Qed.
Lemma seg_nil lo hi : seg lo hi [].
Proof. split; [exists []; split; [reflexivity|constructor]|constructor]. Qed.
Lemma seg_one i rs : in_slots i i rs -> seg i i rs.
Proof.
  intro H. split; [|exact H]. induction rs as [|r rs IH]; [exists []; split; [reflexivity|constructor]|].
  inversion H as [|? ? Hr Hrs]; subst. destruct (IH Hrs) as (l & E & S). pose proof (follows_in _ _ E _ _ Hrs) as F. unfold follows. cbn [map filter].
  destruct (existsb (Z.eqb (fst r)) skip) eqn:Q; cbn [negb]; [eauto|]. cbn [traverse]. destruct Hr as [Hr|(j & Hj & B)]; [discriminate Hr|]. rewrite Hj, E. exists (j :: l). split; [reflexivity|].
  constructor; [exact S|]. eapply Forall_impl; [|exact F]. cbv beta. intros; lia.
Qed.
(** Types that are skipped or belong to one slot. *)
Definition all_at (i : nat) (ts : list Z) : bool :=
  forallb (fun t => existsb (Z.eqb t) skip || match slot order t with Some j => Nat.eqb j i | None => false end) ts.
Lemma seg_types i ts rs : has_types ts rs -> all_at i ts = true -> seg i i rs.
Proof.
  intros H A. apply seg_one. unfold all_at in A. rewrite forallb_forall in A. eapply Forall_impl; [|exact H]. intros r J. specialize (A _ J). cbv beta in A.
  apply orb_prop in A. destruct A as [A|A]; [left; exact A|right]. destruct (slot order (fst r)) as [j|]; [|discriminate A]. apply Nat.eqb_eq in A. subst j. exists i. split; [reflexivity|lia].
Qed.
Lemma seg_wide lo hi lo' hi' rs : (lo' <= lo)%nat -> (hi <= hi')%nat -> seg lo hi rs -> seg lo' hi' rs.
Proof. intros A B [F I]. split; [exact F|]. eapply Forall_impl; [|exact I]. intros r [H|(i & H & L)]; [auto|right; exists i; split; [exact H|lia]]. Qed.
Lemma seg_then lo i hi a b : (lo <= i <= hi)%nat -> seg i i a -> seg i hi b -> seg lo hi (a ++ b).
Proof. intros B A H. apply (seg_app lo i hi); [exact B|eapply seg_wide; [| |exact A]; lia|exact H]. Qed.
Lemma u_app lo i hi a b : (lo <= i <= hi)%nat -> seg i i (flat_map rx a) -> seg i hi (flat_map rx b) -> seg lo hi (flat_map rx (a ++ b)).
Proof. rewrite flat_map_app. apply seg_then. Qed.
Lemma u_cons lo i hi a b : (lo <= i <= hi)%nat -> seg i i (flat_map rx [a]) -> seg i hi (flat_map rx b) -> seg lo hi (flat_map rx (a :: b)).
Proof. apply (u_app lo i hi [a]). Qed.
Lemma u_types i ts rss : existsb (Z.eqb RT_CONTINUE) skip = true -> Forall (has_types ts) rss -> all_at i ts = true -> seg i i (flat_map rx rss).
Proof.
  intros C H A. apply (seg_types i (RT_CONTINUE :: ts)).
  - apply ht_rx; [left; reflexivity|]. eapply Forall_impl; [|exact H]. intro rs. apply ht_weaken. intros t J. right. exact J.
  - cbn [all_at forallb]. unfold all_at in *. cbn [forallb]. rewrite C. exact A.
Qed.
End Order.

Ltac ut i ts := apply (u_types _ _ i ts); [reflexivity| |reflexivity]; solve [apply Forall_nil|hm|hgl].
(** The next part of the list lies in slot [i]. *)
Ltac nx i ts := lazymatch goal with
  | |- seg _ _ _ _ (flat_map rx (_ :: _)) => apply (u_cons _ _ _ i); [lia|ut i ts|]
  | |- seg _ _ _ _ (flat_map rx (_ ++ _)) => apply (u_app _ _ _ i); [lia|try ut i ts|]
  end.
Ltac lst i ts := apply (seg_wide _ _ i i); [lia|lia|]; try ut i ts.

(* ------------------------------------------------------------------ *)
(** * C44 *)

Lemma ordered_globals g ps : seg [T_CONTINUE] GLOBALS_ORDER 0 12 (globals_body g ps).
Proof.
  unfold globals_body. apply (seg_app _ _ _ 8); [lia| |apply (seg_then _ _ _ 8); [lia| |]].
  - unfold ghead_in, ghead_recs. cbn [tl app]. nx 0%nat [RT_CODEPAGE]. nx 1%nat [RT_WINDOW1]. nx 2%nat [RT_DATEMODE]. nx 3%nat [RT_FONT]. nx 3%nat [RT_FONT].
    nx 4%nat [RT_FORMAT]. nx 5%nat [RT_XF]. nx 5%nat [RT_XF]. nx 6%nat [RT_STYLE]. lst 7%nat [RT_PALETTE].
  - apply (seg_types _ _ 8 [RT_BOUNDSHEET]); [|reflexivity]. unfold bs_recs. apply Forall_map, Forall_forall. intros x _. hin.
  - unfold gtail_in. cbn [app]. nx 9%nat [RT_SUPBOOK]. nx 10%nat [RT_EXTERNSHEET]. nx 11%nat [RT_MSODRAWINGGROUP]; [destruct (noted_sheets _ _); ut 11%nat [RT_MSODRAWINGGROUP]|].
    lst 12%nat [RT_SST]. apply (u_types _ _ 12 [RT_SST; RT_CONTINUE]); [reflexivity| |reflexivity]. destruct (g_labels g); [constructor|]. apply Forall_cons; [|apply Forall_nil]. apply sst_types. hin.
Qed.
(** The workbook part. *)
Theorem C44_globals_order R moves calls stream g : saved_ok R moves calls stream -> globals_in stream g -> follows [T_CONTINUE] GLOBALS_ORDER g.
Proof.
  intros S Hg. destruct (saved_view _ _ _ _ S) as (w & V). rewrite (view_globals _ _ _ _ V _ Hg). apply ordered_globals.
Qed.
Print Assumptions C44_globals_order.

Definition odd_types : list Z := [T_CONTINUE; T_COLINFO; T_MERGEDCELLS].
Lemma ordered_head pos s : seg odd_types SHEET_ORDER 0 4 (flat_map rx (head_in pos s)).
Proof.
  unfold head_in. cbn [app]. nx 0%nat [RT_INDEX]. nx 1%nat [RT_DEFAULTROWHEIGHT]. nx 1%nat [RT_COLINFO]. nx 2%nat [RT_DEFCOLWIDTH]. lst 4%nat [RT_DIMENSIONS].
Qed.
Lemma ordered_tail ac s : seg odd_types SHEET_ORDER 6 13 (flat_map rx (tail_in ac s)).
Proof.
  unfold tail_in. nx 6%nat [RT_MSODRAWING]. { apply (u_types _ _ 6 [RT_MSODRAWING; RT_OBJ; RT_TXO; RT_CONTINUE]); [reflexivity|apply drawings_types|reflexivity]. }
  nx 7%nat [RT_NOTE]. nx 7%nat [RT_MERGEDCELLS]. nx 8%nat [RT_WINDOW2]. nx 9%nat [RT_PANE]. { destruct (_ && _)%bool; ut 9%nat [RT_PANE]. } nx 11%nat [RT_HLINK].
  destruct (sh_dvs s) as [|v l]; [apply seg_nil|]. nx 12%nat [RT_DVAL]. lst 13%nat [RT_DV].
Qed.
Definition table_types : list Z := RT_ROW :: RT_DBCELL :: CELL_RECORDS.
Lemma cell_records ls c : has_types CELL_RECORDS (cell_recs ls c).
Proof. exact (cell_types ls c). Qed.
Lemma ordered_body ls s : seg odd_types SHEET_ORDER 5 5 (flat_map rx (body_recs ls s)).
Proof.
  apply (u_types _ _ 5 table_types); [reflexivity| |reflexivity]. unfold body_recs. destruct (sheet_blocks s) as [bl|]; [|constructor].
  apply Forall_flat_map. apply Forall_forall. intros b _. unfold block_recs. repeat (apply Forall_app; split); [hm| |hgl].
  apply Forall_map, Forall_forall. intros c _. eapply ht_weaken; [|apply cell_records]. intros t J. right. right. exact J.
Qed.
Lemma ordered_sheet ls ac pos s : seg odd_types SHEET_ORDER 0 13 (flat_map rx (inner ls ac pos s)).
Proof.
  unfold inner. rewrite !flat_map_app. apply (seg_app _ _ _ 4); [lia|apply ordered_head|]. apply (seg_app _ _ _ 5); [lia| |].
  - eapply seg_wide; [| |apply ordered_body]; lia.
  - eapply seg_wide; [| |apply ordered_tail]; lia.
Qed.
(** The sheets, leaving out column descriptions and merged areas, which come one place too
    late and two places too early (refuted below): in particular all records of a sheet
    without these are in order. *)
Theorem C44_sheet_order_partial R moves calls stream k body : saved_ok R moves calls stream -> sheet_in stream k body ->
  follows [T_CONTINUE; T_COLINFO; T_MERGEDCELLS] SHEET_ORDER body.
Proof.
  intros S H. destruct (saved_view _ _ _ _ S) as (w & V). destruct (view_sheet _ _ _ _ V k body H) as (s & p & _ & _ & _ & _ & _ & -> & _). apply ordered_sheet.
Qed.
Print Assumptions C44_sheet_order_partial.

Lemma block_head pos s : seg [T_CONTINUE] BLOCK_ORDER 0 0 (flat_map rx (head_in pos s)).
Proof.
  apply (u_types _ _ 0 [RT_INDEX; RT_DEFAULTROWHEIGHT; RT_COLINFO; RT_DEFCOLWIDTH; RT_DIMENSIONS]); [reflexivity| |reflexivity].
  unfold head_in. repeat (apply Forall_app; split); try hm; hgl.
Qed.
Lemma block_tail ac s : seg [T_CONTINUE] BLOCK_ORDER 3 3 (flat_map rx (tail_in ac s)).
Proof.
  apply (u_types _ _ 3 [RT_MSODRAWING; RT_OBJ; RT_TXO; RT_CONTINUE; RT_NOTE; RT_MERGEDCELLS; RT_WINDOW2; RT_PANE; RT_HLINK; RT_DVAL; RT_DV]); [reflexivity| |reflexivity].
  unfold tail_in. repeat (apply Forall_app; split); try hm; try hgl.
  - eapply Forall_impl; [|apply drawings_types]. intros rs. apply ht_weaken. intros t. cbn. tauto.
  - destruct (_ && _)%bool; hgl.
  - destruct (sh_dvs s); [constructor|]. apply Forall_cons; [hone|]. hm.
Qed.
Lemma block_mid ls b : seg [T_CONTINUE] BLOCK_ORDER 1 2 (block_front ls b).
Proof.
  unfold block_front. apply (seg_then _ _ _ 1); [lia| |].
  - apply (seg_types _ _ 1 [RT_ROW]); [|reflexivity]. apply Forall_map, Forall_forall. intros x _. hin.
  - apply (seg_wide _ _ 2 2); [lia|lia|]. apply (seg_types _ _ 2 CELL_RECORDS); [|reflexivity]. apply ht_concat, Forall_map, Forall_forall. intros c _. apply cell_records.
Qed.
(** In every row block the row records precede the cells. *)
Theorem C44_rows_before_cells R moves calls stream k body g : saved_ok R moves calls stream -> sheet_in stream k body -> In g (row_groups body) ->
  follows [T_CONTINUE] BLOCK_ORDER g.
Proof.
  intros S H J. destruct (saved_view _ _ _ _ S) as (w & V). destruct (view_blocks2 _ _ _ _ _ _ V H) as (s & p & bl & _ & _ & _ & _ & _ & E & _).
  apply In_nth_error in J. destruct J as (j & J). rewrite E in J. apply groups_body in J.
  - destruct (nth_error bl j) as [b|].
    + destruct J as (h & [->| ->] & ->).
      * apply (seg_app _ _ 0 0 2); [lia|apply block_head|]. eapply seg_wide; [| |apply block_mid]; lia.
      * apply (block_mid (wb_labels w) b).
    + destruct J as (h & [->| ->] & ->).
      * apply (seg_app _ _ 0 0 3); [lia|apply block_head|]. eapply seg_wide; [| |apply block_tail]; lia.
      * apply (block_tail (dac w) s).
  - eapply types_calm; [apply ht_rx; [|apply head_outer]; hin|not_in].
  - eapply types_calm; [apply ht_rx; [|apply tail_outer]; hin|not_in].
Qed.
Print Assumptions C44_rows_before_cells.

(* ------------------------------------------------------------------ *)
(** * Cases *)
Fixpoint nat_sorted (l : list nat) : bool := match l with x :: (y :: _) as t => Nat.leb x y && nat_sorted t | _ => true end.
Lemma nat_sorted_of l : StronglySorted le l -> nat_sorted l = true.
Proof.
  induction 1 as [|x l S IH F]; [reflexivity|]. cbn [nat_sorted]. destruct l as [|y l]; [reflexivity|]. rewrite IH, Bool.andb_true_r. apply Nat.leb_le. now inversion F.
Qed.
Definition out_of_order (body : list brec) : bool :=
  match traverse (slot SHEET_ORDER) (filter (fun t => negb (existsb (Z.eqb t) [T_CONTINUE])) (map fst body)) with Some l => negb (nat_sorted l) | None => false end.
Lemma out_not_follows body : out_of_order body = true -> ~ follows [T_CONTINUE] SHEET_ORDER body.
Proof.
  intros H (l & E & S). unfold out_of_order in H. rewrite E in H. rewrite (nat_sorted_of _ S) in H. discriminate H.
Qed.
Definition widened : list call := [KSheet (TChar [65]); KColwidth 0 0 20 None].
Definition merged : list call := [KSheet (TChar [65]); KMerge 0 1 1 2 2].
Lemma widened_typed : Forall typed widened. Proof. small_typed. Qed.
Lemma widened_fits : fits 40 widened.
Proof.
  unfold widened. small_fits. intro k. exists []. split; [cbn; lia|]. intros r H.
  match type of H with height_of k ?l r <> None => destruct (height_of k l r) as [[h p]|] eqn:E end; [|congruence]. apply heights_from in E. cbn [In] in E. each E.
Qed.
Lemma merged_typed : Forall typed merged. Proof. small_typed. Qed.
Lemma merged_fits : fits 40 merged.
Proof.
  unfold merged. small_fits. intro k. exists []. split; [cbn; lia|]. intros r H.
  match type of H with height_of k ?l r <> None => destruct (height_of k l r) as [[h p]|] eqn:E end; [|congruence]. apply heights_from in E. cbn [In] in E. each E.
Qed.
(** The order fails for a sheet with one column width, and for a sheet with one merged area. *)
Theorem C44_sheet_order_refuted :
  (exists stream body, saved_ok 40 (fun _ _ => false) [KSheet (TChar [65]); KColwidth 0 0 20 None] stream /\ sheet_in stream 0 body /\ ~ follows [T_CONTINUE] SHEET_ORDER body)
  /\ (exists stream body, saved_ok 40 (fun _ _ => false) [KSheet (TChar [65]); KMerge 0 1 1 2 2] stream /\ sheet_in stream 0 body /\ ~ follows [T_CONTINUE] SHEET_ORDER body).
Proof.
  split.
  - assert (K : match body_of 0 widened with Some (s, b) => out_of_order b | None => false end = true) by (vm_compute; reflexivity).
    destruct (body_of 0 widened) as [[s b]|] eqn:E; [|discriminate K]. destruct (body_of_in _ _ _ _ E) as [Es Hb]. exists s, b.
    split; [exact (small_saved _ _ _ widened_typed widened_fits Es)|]. split; [exact Hb|]. apply out_not_follows, K.
  - assert (K : match body_of 0 merged with Some (s, b) => out_of_order b | None => false end = true) by (vm_compute; reflexivity).
    destruct (body_of 0 merged) as [[s b]|] eqn:E; [|discriminate K]. destruct (body_of_in _ _ _ _ E) as [Es Hb]. exists s, b.
    split; [exact (small_saved _ _ _ merged_typed merged_fits Es)|]. split; [exact Hb|]. apply out_not_follows, K.
Qed.
Print Assumptions C44_sheet_order_refuted.
(** The hypotheses hold: four cells in three rows, where at least four of the sheet's places are used. *)
Example C44_case : exists stream body g, saved_ok 40 (fun _ _ => false) grid stream /\ sheet_in stream 0 body /\ In g (row_groups body)
  /\ payloads T_ROW g <> [] /\ payloads T_RK g <> [] /\ payloads T_WINDOW2 body <> [].
Proof.
  assert (K : match body_of 0 grid with Some (s, b) => match row_groups b with g :: _ =>
     match payloads T_ROW g, payloads T_RK g, payloads T_WINDOW2 b with _ :: _, _ :: _, _ :: _ => true | _, _, _ => false end | _ => false end | None => false end = true) by (vm_compute; reflexivity).
  destruct (body_of 0 grid) as [[s b]|] eqn:E; [|discriminate K]. destruct (row_groups b) as [|g m] eqn:Eg; [discriminate K|].
  destruct (payloads T_ROW g) eqn:E1; [discriminate K|]. destruct (payloads T_RK g) eqn:E2; [discriminate K|]. destruct (payloads T_WINDOW2 b) eqn:E3; [discriminate K|].
  destruct (body_of_in _ _ _ _ E) as [Es Hb]. exists s, b, g. split; [exact (small_saved _ _ _ grid_typed grid_fits Es)|]. split; [exact Hb|]. rewrite Eg, E1, E2, E3.
  split; [left; reflexivity|]. repeat split; discriminate.
Qed.
