(** A history of calls within limits gives a document within limits. *)
From Coq Require Import ZArith List Bool Lia ZifyBool ZifyNat Sorted Permutation.
From Verif Require Import Bytes UnitModel SpecBuf RecModel SheetModel XfModel WbModel XfInv ApiModel SpecBiff BookRecs ApiInv SpecApi ApiEff
  RecFrames SaveOk SaveRecs SpecSaved FsBound Lookups SaveMeans.
Import ListNotations.
Local Open Scope Z_scope.

(* ------------------------------------------------------------------ *)
(** * Names and labels *)

Definition short (s : list Z) : Prop := zlen s <= 4000.
Lemma to16_len t : zlen (to16 t) = text_len t.
Proof. destruct t; cbn [to16 text_len]; rewrite ?zlen_map; reflexivity. Qed.

(** Tables stay named, and the label list grows by at most [n]. *)
Definition bounded (n : Z) (w w' : wb) : Prop :=
  (named short short (wb_fs w) -> named short short (wb_fs w')) /\ zlen (wb_labels w') <= zlen (wb_labels w) + n.
Lemma bounded_refl w : bounded 0 w w. Proof. split; auto. lia. Qed.
Lemma bounded_trans a b c m n : bounded m a b -> bounded n b c -> bounded (m + n) a c.
Proof. intros [A1 A2] [B1 B2]. split; auto. lia. Qed.
Lemma on_sheet_bounded n w k f w' : (forall s w1 s1, f s = Ok (w1, s1) -> bounded n w w1) -> on_sheet w k f = Ok w' -> bounded n w w'.
Proof.
  intros F H. apply on_sheet_inv in H. destruct H as (s & w1 & s1 & E & H & ->). destruct (F _ _ _ H) as [A B]. split; auto.
Qed.
Lemma drop_len ls id : zlen (drop_label ls id) <= zlen ls.
Proof. induction ls as [|[i s] t IH]; cbn [drop_label]; [lia|]. destruct (i =? id); rewrite ?zlen_cons; lia. Qed.
Lemma cell_bounded w k r c v p w' : api_cell w k r c v p = Ok w' ->
  bounded (if long_label (KCell k r c v p) then 1 else 0) w w'.
Proof.
  apply on_sheet_bounded. intros s w1 s1 H. destruct (xf_valid (wb_fs w) p); cbn [negb] in H; [|discriminate].
  apply bind_ok in H. destruct H as ([old s2] & _ & H). apply ok_pair in H. destruct H as [<- _].
  set (w0 := sst_add (bump_next (up_fs w (xf_mark (wb_fs w) (cell_xf p)))) (make_val (wb_next w) v)).
  assert (B : bounded (if long_label (KCell k r c v p) then 1 else 0) w w0).
  { destruct (sst_add_same (bump_next (up_fs w (xf_mark (wb_fs w) (cell_xf p)))) (make_val (wb_next w) v)) as (_ & _ & _ & B4 & _ & _).
    fold w0 in B4. split.
    - intro N. rewrite B4. apply xf_mark_named. exact N.
    - unfold w0. rewrite (sst_add_labels _ _ r c 0). cbn [bump_next up_fs wb_labels]. rewrite zlen_app.
      unfold cell_label. cbn [c_val]. destruct v; cbn [make_val long_label]; repeat match goal with |- context [if ?b then VInt _ else _] => destruct b end;
        rewrite ?zlen_nil; try lia. unfold in_sst. rewrite to16_len. destruct (255 <? text_len t); unfold zlen; cbn [length]; lia. }
  destruct old as [y|]; [|exact B]. replace (if long_label _ then 1 else 0) with ((if long_label (KCell k r c v p) then 1 else 0) + 0) by lia.
  eapply bounded_trans; [exact B|]. split.
  - intro N. unfold cell_delete. cbv zeta. cbn [up_fs wb_fs]. apply xf_unmark_named. destruct (c_val y) as [| | | | |id t|]; try exact N. destruct (in_sst t); exact N.
  - rewrite cell_delete_labels. destruct (cell_label y) as [|[id t] l]; [lia|]. destruct l; [|lia]. pose proof (drop_len (wb_labels w0) id). lia.
Qed.
Lemma cellop_bounded w k r c o w' : cop_ok short o -> api_cellop w k r c o = Ok w' -> bounded 0 w w'.
Proof.
  intro O. apply on_sheet_bounded. intros s w1 s1 H. destruct (find_cell s r c) as [x|]; [|discriminate].
  apply bind_ok in H. destruct H as ([fs q] & E & H). apply ok_pair in H. destruct H as [<- _]. split; [|cbn; lia].
  intro N. cbn [up_fs wb_fs]. eapply cellop_named; eauto.
Qed.
Lemma blank_bounded w k r c w' : find_or_blank w k r c = Ok w' -> bounded 0 w w'.
Proof.
  unfold find_or_blank. destruct (nth_error _ _) as [s|]; [|discriminate]. destruct (find_cell s r c).
  - intro H. apply ok_inj in H. rewrite <- H. apply bounded_refl.
  - intro H. apply cell_bounded in H. exact H.
Qed.
Lemma range_bounded k o l : cop_ok short o -> forall w w', fold_res (range_step k o) l w = Ok w' -> bounded 0 w w'.
Proof.
  intro O. induction l as [|p l IH]; cbn [fold_res]; intros w w' H.
  - apply ok_inj in H. rewrite <- H. apply bounded_refl.
  - apply bind_ok in H. destruct H as (w1 & H1 & H). unfold range_step in H1. apply bind_ok in H1. destruct H1 as (w2 & H2 & H1).
    apply blank_bounded in H2. apply cellop_bounded in H1; [|exact O]. apply IH in H.
    exact (bounded_trans _ _ _ 0 0 H2 (bounded_trans _ _ _ 0 0 H1 H)).
Qed.
Lemma op_ok o : op_fits o -> cop_ok short o.
Proof. destruct o as [o|o|q]; cbn; auto. Qed.
Lemma pure_bounded w k f w' : pure_sheet w k f = Ok w' -> bounded 0 w w'.
Proof. apply on_sheet_bounded. intros s w1 s1 H. apply ok_pair in H. destruct H as [<- _]. apply bounded_refl. Qed.
Lemma fs_bounded w fs : (named short short (wb_fs w) -> named short short fs) -> bounded 0 w (up_fs w fs).
Proof. intro H. split; [exact H|cbn; lia]. Qed.
Lemma call_bounded X R w q w' : call_long X R q -> api_call w q = Ok w' -> bounded (if long_label q then 1 else 0) w w'.
Proof.
  intros F H. unfold api_call in H. cbv zeta in H. destruct q as [name|k r c v p|k r c au re|k r c o|k r1 c1 r2 c2 o|k r1 c1 r2 c2|k col wd p|k row ht p|k h|k v|k h wd
    |k r c u m|k d|k|r g b i|h v|v h|v|v|n|n|t|fn fm|p o|i o]; cbn [long_label call_long call_fits] in *; cbn match in *.
  - apply ok_inj in H. rewrite <- H. split; [auto|cbn; lia].
  - apply cell_bounded in H. exact H.
  - unfold api_note in H. apply bind_ok in H. destruct H as (w1 & H1 & H).
    assert (B : bounded 0 w w1).
    { revert H1. apply on_sheet_bounded. intros s w2 s2 H2. apply ok_pair in H2. destruct H2 as [<- _]. apply fs_bounded. intro N.
      destruct (find _ _); [apply xf_unmark_named|]; apply xf_mark_named; exact N. }
    destruct (nth_error (wb_sheets w) k) as [s|]; [|discriminate]. destruct (nth_error (wb_bs w) _); [|discriminate]. apply ok_inj in H. rewrite <- H.
    destruct B as [B1 B2]. split; [exact B1|exact B2].
  - eapply cellop_bounded; [apply op_ok, F|exact H].
  - destruct F as (_ & _ & F). apply range_inv in H. destruct H as (_ & _ & H).
    eapply range_bounded; [apply op_ok, F|exact H].
  - eapply pure_bounded; exact H.
  - revert H. apply on_sheet_bounded. intros s w2 s2 H2. destruct (negb _); [discriminate|]. apply ok_pair in H2. destruct H2 as [<- _]. apply fs_bounded. intro N.
    destruct (find _ _); [apply unmark_opt_named|]; apply mark_opt_named; exact N.
  - revert H. apply on_sheet_bounded. intros s w2 s2 H2. destruct (negb _); [discriminate|]. apply ok_pair in H2. destruct H2 as [<- _]. apply fs_bounded. intro N.
    destruct (find _ _); [apply unmark_opt_named, unmark_opt_named|]; apply mark_opt_named; exact N.
  - eapply pure_bounded; exact H.
  - eapply pure_bounded; exact H.
  - eapply pure_bounded; exact H.
  - destruct (nth_error (wb_sheets w) k); [|discriminate]. destruct (find_cell _ _ _); [|discriminate]. eapply pure_bounded; exact H.
  - eapply pure_bounded; exact H.
  - destruct (nth_error (wb_sheets w) k); [|discriminate]. apply ok_inj in H. rewrite <- H. split; [auto|cbn; lia].
  - apply ok_inj in H. rewrite <- H. unfold api_setcolor, colors_set. destruct (_ || _)%bool; (split; [auto|cbn; lia]).
  - apply ok_inj in H. rewrite <- H. split; [auto|cbn; lia].
  - apply ok_inj in H. rewrite <- H. split; [auto|cbn; lia].
  - apply ok_inj in H. rewrite <- H. split; [auto|cbn; lia].
  - apply ok_inj in H. rewrite <- H. split; [auto|cbn; lia].
  - apply ok_inj in H. rewrite <- H. apply fs_bounded. intro N. apply add_font_named; [exact N|exact F].
  - apply bind_ok in H. destruct H as ([fs x] & E & H). apply ok_inj in H. rewrite <- H. apply fs_bounded. intro N. eapply wb_fontnum_named; eauto.
  - apply ok_inj in H. rewrite <- H. apply fs_bounded. intro N. apply add_format_named; [exact N|]. unfold short. rewrite to16_len. exact F.
  - apply bind_ok in H. destruct H as ([fs x] & E & H). apply ok_inj in H. rewrite <- H. apply fs_bounded. intro N. eapply wb_xformat_named; eauto.
  - apply bind_ok in H. destruct H as (fs & E & H). apply ok_inj in H. rewrite <- H. apply fs_bounded. intro N. eapply xf_user_named; eauto.
  - apply bind_ok in H. destruct H as (fs & E & H). apply ok_inj in H. rewrite <- H. apply fs_bounded. intro N. eapply font_set_named; eauto.
Qed.
Definition init_short : bool :=
  match fstate_init with
  | Ok fs => (forallb (fun f => zlen (fo_name (fo_val f)) <=? 4000) (fs_dfonts fs) && forallb (fun f => zlen (fo_name (fo_val f)) <=? 4000) (fs_fonts fs)
              && forallb (fun f => zlen (fmo_str f) <=? 4000) (fs_formats fs))%bool
  | _ => true
  end.
Lemma init_short_true : init_short = true. Proof. vm_compute. reflexivity. Qed.
Lemma init_named fs : fstate_init = Ok fs -> named short short fs.
Proof.
  intro H. pose proof init_short_true as K. unfold init_short in K. rewrite H in K. clear H.
  apply andb_true_iff in K. destruct K as [K K3]. apply andb_true_iff in K. destruct K as [K1 K2].
  rewrite forallb_forall in *. constructor; apply Forall_forall; intros x J; unfold nm, fm, short.
  - specialize (K1 x J). lia.
  - specialize (K2 x J). lia.
  - specialize (K3 x J). lia.
Qed.
Lemma new_named w : wb_new = Ok w -> named short short (wb_fs w) /\ wb_labels w = [].
Proof.
  unfold wb_new. intro H. apply bind_ok in H. destruct H as (fs & E & H). apply init_named in E. apply ok_inj in H. rewrite <- H. split; [exact E|reflexivity].
Qed.
Lemma document_bounded X R calls w : Forall (call_long X R) calls -> document calls = Ok w ->
  named short short (wb_fs w) /\ zlen (wb_labels w) <= zlen (filter long_label calls).
Proof.
  revert w. induction calls as [|q calls IH] using rev_ind; intros w F D.
  - apply document_nil in D. apply new_named in D. destruct D as [N ->]. split; [exact N|apply Z.le_refl].
  - apply document_snoc in D. destruct D as (w0 & D & C). apply Forall_app in F. destruct F as [F Fq]. inversion Fq; subst.
    destruct (IH w0 F D) as [N L]. destruct (call_bounded X R _ _ _ H1 C) as [B1 B2]. split; [auto|].
    rewrite filter_app, zlen_app. cbn [filter]. destruct (long_label q); cbn [zlen length] in *; unfold zlen in *; cbn [length]; lia.
Qed.

(* ------------------------------------------------------------------ *)
(** * Positions *)

Definition placed (X R r c : Z) (u : uval) : Prop := 0 <= r <= R /\ 0 <= c <= 255 /\ val_long X u.
Lemma cells_placed_from X R k calls : Forall typed calls -> Forall (call_long X R) calls -> forall m, (forall r c u, m r c = Some u -> placed X R r c u) ->
  forall r c u, fold_left (cells_step k) calls m r c = Some u -> placed X R r c u.
Proof.
  intros T. induction T as [|q calls T Ts IH]; intros F m Hm r c u H; [eapply Hm; exact H|]. inversion F as [|q' l Fq Fs]; subst.
  cbn [fold_left] in H. eapply (IH Fs); [|exact H]. clear - T Fq Hm. intros r c u H. unfold cells_step in H. destruct q; try (eapply Hm; exact H).
  - destruct (_ && _)%bool eqn:E; [|eapply Hm; exact H]. apply some_inj in H. rewrite <- H.
    cbn [typed call_long call_fits] in *. unfold u32 in T. assert (r = row /\ c = col) as [-> ->] by lia. unfold placed. intuition lia.
  - destruct (_ && _)%bool eqn:E; [|eapply Hm; exact H]. destruct (m r c) eqn:E2; [eapply Hm; rewrite <- H; exact E2|].
    apply some_inj in H. rewrite <- H. cbn [typed call_long call_fits] in *. unfold u32, inside in *. unfold placed. cbn [val_long]. lia.
Qed.
Lemma long_placed X R k calls r c u : Forall typed calls -> Forall (call_long X R) calls -> cells_of k calls r c = Some u -> placed X R r c u.
Proof. intros T F H. eapply cells_placed_from; [exact T|exact F| |exact H]. intros ? ? ? K. discriminate. Qed.

Lemma ss_nodup {A B} (f : A -> B) (Rl : A -> A -> Prop) l : (forall a b, Rl a b -> f a <> f b) -> StronglySorted Rl l -> NoDup (map f l).
Proof.
  intros N S. induction S as [|x l S IH F]; cbn [map]; constructor; auto. intro H. apply in_map_iff in H. destruct H as (y & E & J).
  rewrite Forall_forall in F. apply (N x y (F y J)). auto.
Qed.
Lemma zrange_len a b : zlen (zrange a b) = Z.max 0 (b - a + 1).
Proof. unfold zrange, zlen. rewrite map_length, seq_length. lia. Qed.
Lemma flat_len {A B} (f : A -> list B) n l : (forall x, zlen (f x) = n) -> zlen (flat_map f l) = zlen l * n.
Proof.
  intro H. induction l as [|x l IH]; cbn [flat_map]; [rewrite !zlen_nil; lia|]. rewrite zlen_app, H, IH, zlen_cons. lia.
Qed.
Lemma block_len r c : 0 <= r -> 0 <= c -> zlen (block_of 0 0 r c) = (r + 1) * (c + 1).
Proof.
  intros A B. unfold block_of. rewrite (flat_len _ (c + 1)).
  - rewrite zrange_len. lia.
  - intro x. rewrite zlen_map, zrange_len. lia.
Qed.

Lemma make_limit X id u : val_long X u -> val_limit X (make_val id u).
Proof.
  destruct u; cbn [val_long make_val]; intro V; repeat match goal with |- context [if ?b then VInt _ else _] => destruct b end; cbn [val_limit]; auto.
  destruct V as (V1 & V2 & V3). split; [lia|]. split; [exact V2|]. intros s Hs. rewrite Hs in V3. exact V3.
Qed.
Lemma dv_size d : 4 + zlen (dv_bytes d) <= dv_room d.
Proof.
  unfold dv_room. unfold dv_bytes, range_bytes. rewrite !zlen_app, !zlen_le16, !zlen_le32.
  pose proof (ustr_le (dv_ptitle d) LEN2). pose proof (ustr_le (dv_etitle d) LEN2). pose proof (ustr_le (dv_ptext d) LEN2). pose proof (ustr_le (dv_etext d) LEN2).
  assert (C : forall o, zlen (cond_bytes o) <= 7 + len_opt o).
  { intros [t|]; cbn [cond_bytes dv_cond len_opt]; unfold cond_bytes, pl; cbn [dv_cond flat_map RecProofs.op_bytes app RecProofs.appended];
    rewrite ?zlen_app, ?zlen_le16, ?zlen_nil, ?zlen_map; [lia|]. rewrite zlen_cons, zlen_app, zlen_le16, zlen_nil. lia. }
  pose proof (C (dv_cond1 d)). pose proof (C (dv_cond2 d)). lia.
Qed.

Section Doc.
Variables (X R : Z) (calls : list call) (w : wb).
Hypothesis HR : 0 <= R <= 65535.
Hypothesis T : Forall typed calls.
Hypothesis HX : 8228 <= X < 538968000.
Hypothesis F : long_fits X R calls.
Hypothesis D : document calls = Ok w.
Let B := Z.max X (24 + R / 4).

Lemma long_cell k s c : nth_error (wb_sheets w) k = Some s -> In c (sh_cells s) ->
  exists u id, cells_of k calls (c_row c) (c_col c) = Some u /\ c_val c = make_val id u /\ placed X R (c_row c) (c_col c) u.
Proof.
  intros E J. pose proof (run_means calls w T D) as M. pose proof (wi_sheets _ (w2_inv _ (mn_inv _ _ M))) as Fs. rewrite Forall_forall in Fs.
  destruct (cell_meaning k calls s c (Fs s (nth_sheet_in _ _ _ E)) (mn_sheet _ _ M k s E) J) as (u & id & Eu & Ev).
  exists u, id. split; [exact Eu|]. split; [exact Ev|]. apply (long_placed X R k calls _ _ u T (lf_calls _ _ _ F) Eu).
Qed.
Lemma count_ok k s : nth_error (wb_sheets w) k = Some s -> zlen (sh_cells s) < 4294967295.
Proof.
  intro E. pose proof (run_means calls w T D) as M. pose proof (wi_sheets _ (w2_inv _ (mn_inv _ _ M))) as Fs. rewrite Forall_forall in Fs.
  specialize (Fs s (nth_sheet_in _ _ _ E)).
  assert (N : NoDup (map (fun c => (c_row c, c_col c)) (sh_cells s))).
  { eapply ss_nodup; [|apply (si_cells _ Fs)]. intros a b H K. unfold clt in H. injection K as K1 K2. rewrite K1, K2, key_lt_irr in H. discriminate. }
  assert (I : incl (map (fun c => (c_row c, c_col c)) (sh_cells s)) (block_of 0 0 R 255)).
  { intros p J. apply in_map_iff in J. destruct J as (c & <- & J). destruct (long_cell k s c E J) as (u & id & _ & _ & P1 & P2 & _).
    apply block_in. cbn [fst snd]. lia. }
  pose proof (NoDup_incl_length N I) as L. rewrite map_length in L. pose proof (block_len R 255 ltac:(lia) ltac:(lia)) as BL. unfold zlen in *. lia.
Qed.
Lemma bare_ok k s : nth_error (wb_sheets w) k = Some s -> (length (bare (sh_cells s) (sh_heights s)) < 16)%nat.
Proof.
  intro E. pose proof (run_means calls w T D) as M. pose proof (mn_sheet _ _ M k s E) as Me.
  destruct (lf_heights _ _ _ F k) as (rows & L & H).
  assert (N : NoDup (map rh_row (bare (sh_cells s) (sh_heights s)))).
  { rewrite (me_heights _ _ _ Me). pose proof (rows_sorted k calls) as S. unfold bare. 
    assert (S2 : StronglySorted (fun a b => rh_row a < rh_row b) (filter (fun h => negb (has_row (sh_cells s) (rh_row h))) (fold_left (rows_step k) calls []))).
    { induction S as [|x l S IH G]; cbn [filter]; [constructor|]. destruct (negb _); [|exact IH]. constructor; [exact IH|].
      rewrite Forall_forall in *. intros y J. apply filter_In in J. apply G, J. }
    eapply ss_nodup; [|exact S2]. cbn beta. intros a b ? ?. lia. }
  assert (I : incl (map rh_row (bare (sh_cells s) (sh_heights s))) rows).
  { intros r J. apply in_map_iff in J. destruct J as (h & <- & J). apply filter_In in J. destruct J as [J Hn].
    rewrite (me_heights _ _ _ Me) in J. apply heights_iff in J. destruct (H (rh_row h)) as [K|(c & u & K)]; [congruence|exact K|].
    exfalso. pose proof (me_vals _ _ _ Me (rh_row h) c) as V. rewrite K in V. unfold fv in V. destruct (find_cell s (rh_row h) c) as [x|] eqn:Ex; [|destruct V].
    apply find_cell_in in Ex. destruct Ex as (Jx & Er & _).
    assert (has_row (sh_cells s) (rh_row h) = true) by (apply existsb_exists; exists x; split; [exact Jx|lia]). rewrite H0 in Hn. discriminate. }
  pose proof (NoDup_incl_length N I) as Q. rewrite map_length in Q. lia.
Qed.
Lemma sheet_within k s : nth_error (wb_sheets w) k = Some s -> sheet_limits B s.
Proof.
  intro E. pose proof (run_means calls w T D) as M. pose proof (mn_sheet _ _ M k s E) as Me. pose proof (lf_calls _ _ _ F) as Fc. rewrite Forall_forall in Fc.
  assert (HB : X <= B) by (unfold B; lia).
  constructor.
  - apply (count_ok k s E).
  - apply Forall_forall. intros c J. destruct (long_cell k s c E J) as (u & id & _ & Ev & P1 & P2 & P3). unfold cell_limit. split; [|split].
    + unfold B. lia.
    + lia.
    + rewrite Ev. apply (limit_more X); [exact HB|]. apply make_limit. exact P3.
  - apply (bare_ok k s E).
  - rewrite (me_links _ _ _ Me). apply Forall_forall. intros h J. apply in_map_iff in J. destruct J as ([[[r c] u] m] & <- & J).
    unfold links_of in J. apply in_flat_map in J. destruct J as (q & Jq & J). specialize (Fc q Jq). destruct q; cbn [links_step] in J; try destruct J.
    destruct (Nat.eqb k k0); [|destruct J]. destruct J as [J|[]]. injection J as -> -> -> ->. cbn [call_long lnk hl_url hl_mark] in *. rewrite !to16_len. lia.
  - rewrite (me_dvs _ _ _ Me). apply Forall_forall. intros d J.
    unfold dvs_of in J. apply in_flat_map in J. destruct J as (q & Jq & J). specialize (Fc q Jq). destruct q; cbn [dvs_step] in J; try destruct J.
    destruct (Nat.eqb k k0); [|destruct J]. destruct J as [J|[]]. rewrite <- J. cbn [call_long] in Fc. pose proof (dv_size d0). lia.
Qed.
Theorem long_limits : limits B w.
Proof.
  pose proof (run_means calls w T D) as M. pose proof (w2_inv _ (mn_inv _ _ M)) as I. pose proof (lf_sheets _ _ _ F) as Fn. pose proof (lf_calls _ _ _ F) as Fc.
  destruct (document_bounded X R calls w Fc D) as [N L]. rewrite Forall_forall in Fc. pose proof (mn_names _ _ M) as Mn. pose proof (mn_len _ _ M) as Ml.
  constructor.
  - unfold B. lia.
  - intro E. rewrite E in Ml. unfold zlen in Fn. cbn in Ml. lia.
  - unfold zlen in *. lia.
  - assert (Hn : forall x, In x (map bs_name (wb_bs w)) -> zlen x <= 4000).
    { rewrite Mn. intros x J. apply in_map_iff in J. destruct J as (t & <- & J). unfold sheet_names in J. apply in_flat_map in J. destruct J as (q & Jq & J).
      specialize (Fc q Jq). destruct q; cbn [names_step] in J; try destruct J. destruct H. subst. rewrite to16_len. exact Fc. destruct H. }
    apply Forall_forall. intros b J. apply Hn. apply in_map. exact J.
  - destruct N as [N1 N2 _]. apply Forall_app. split; [exact N1|exact N2].
  - destruct N as [_ _ N3]. exact N3.
  - pose proof (lf_labels _ _ _ F). lia.
  - apply Forall_forall. intros s J. destruct (In_nth_error _ _ J) as [k E]. apply (sheet_within k s E).
Qed.
Lemma long_places : Forall (fun s => Forall (fun c => u16 (c_row c) /\ u16 (c_col c)) (sh_cells s)) (wb_sheets w).
Proof.
  apply Forall_forall. intros s J. destruct (In_nth_error _ _ J) as [k E]. apply Forall_forall. intros c Jc.
  destruct (long_cell k s c E Jc) as (u & id & _ & Ev & P1 & P2 & P3). unfold u16. lia.
Qed.
End Doc.

Lemma fits_long R calls : fits R calls -> long_fits 8228 R calls.
Proof.
  intros [A B C E]. constructor; auto. eapply Forall_impl; [|exact A]. intros q. destruct q; cbn [call_fits call_long]; auto.
  - intros (P1 & P2 & P3). repeat split; auto. destruct v; cbn [val_fits val_long] in *; auto. destruct P3 as (Q1 & Q2 & Q3). repeat split; auto. lia.
  - lia.
  - unfold dv_fits, dv_room. lia.
Qed.
Lemma call_fits_long R calls : Forall (call_fits R) calls -> Forall (call_long 8228 R) calls.
Proof.
  intro A. eapply Forall_impl; [|exact A]. intros q. destruct q; cbn [call_fits call_long]; auto.
  - intros (P1 & P2 & P3). repeat split; auto. destruct v; cbn [val_fits val_long] in *; auto. destruct P3 as (Q1 & Q2 & Q3). repeat split; auto. lia.
  - lia.
  - unfold dv_fits, dv_room. lia.
Qed.
Lemma cells_placed R k calls r c u : Forall typed calls -> Forall (call_fits R) calls -> cells_of k calls r c = Some u -> placed 8228 R r c u.
Proof. intros T F. apply long_placed; [exact T|]. apply call_fits_long. exact F. Qed.
Section Short.
Variables (R : Z) (calls : list call) (w : wb).
Hypothesis HR : 0 <= R <= 65535.
Hypothesis T : Forall typed calls.
Hypothesis F : fits R calls.
Hypothesis D : document calls = Ok w.
Lemma doc_cell k s c : nth_error (wb_sheets w) k = Some s -> In c (sh_cells s) ->
  exists u id, cells_of k calls (c_row c) (c_col c) = Some u /\ c_val c = make_val id u /\ placed 8228 R (c_row c) (c_col c) u.
Proof. apply (long_cell 8228 R calls w T (fits_long _ _ F) D). Qed.
Theorem doc_limits : limits (Z.max 8228 (24 + R / 4)) w.
Proof. apply (long_limits 8228 R calls w HR T); [lia|apply fits_long; exact F|exact D]. Qed.
Lemma doc_small : small_vals w.
Proof.
  apply Forall_forall. intros s J. destruct (In_nth_error _ _ J) as [k E]. apply Forall_forall. intros c Jc.
  destruct (doc_cell k s c E Jc) as (u & id & _ & Ev & _ & _ & P3). rewrite Ev. apply make_limit. exact P3.
Qed.
Lemma doc_places : Forall (fun s => Forall (fun c => u16 (c_row c) /\ u16 (c_col c)) (sh_cells s)) (wb_sheets w).
Proof. apply (long_places 8228 R calls w HR T (fits_long _ _ F) D). Qed.
End Short.
