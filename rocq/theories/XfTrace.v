(** Which XF index every cell carries after a history of calls. *)
From Coq Require Import ZArith List Bool Lia ZifyBool ZifyNat.
From Verif Require Import Bytes UnitModel RecModel SheetModel XfModel WbModel XfInv ApiModel ApiInv SpecApi ApiEff.
Import ListNotations.
Local Open Scope Z_scope.

Definition xfat (w : wb) (k : nat) (r c : Z) : option Z :=
  match nth_error (wb_sheets w) k with Some s => option_map c_xf (find_cell s r c) | None => None end.
Definition here (k k' : nat) (r r' c c' : Z) : bool := (Nat.eqb k k' && (r =? r') && (c =? c'))%bool.

Lemma cell_xfat w k r c v p w' : winv2 w -> u32 r -> u32 c -> api_cell w k r c v p = Ok w' ->
  forall k' r' c', xfat w' k' r' c' = if here k' k r' r c' c then Some (cell_xf p) else xfat w k' r' c'.
Proof.
  intros I Hr Hc H k' r' c'. destruct (cell_touch _ _ _ _ _ _ _ I Hr Hc H) as (_ & s & s' & E & U & F1 & F2).
  unfold xfat, here. rewrite U, nth_upd. destruct (Nat.eqb k' k) eqn:Ek; cbn [andb]; [|reflexivity]. apply Nat.eqb_eq in Ek. subst k'. rewrite E.
  destruct ((r' =? r) && (c' =? c))%bool eqn:Q.
  - assert (r' = r) by lia. assert (c' = c) by lia. subst. rewrite F1. reflexivity.
  - rewrite F2; [reflexivity|]. intro N. apply pair_equal_spec in N. lia.
Qed.
Lemma cellop_xfat w k r c o w' : winv2 w -> api_cellop w k r c o = Ok w' ->
  exists p q, xfat w k r c = Some p /\ cellop_apply o (wb_fs w) p = Ok (wb_fs w', q)
    /\ forall k' r' c', xfat w' k' r' c' = if here k' k r' r c' c then Some q else xfat w k' r' c'.
Proof.
  intros I H. destruct (cellop_touch _ _ _ _ _ _ I H) as (_ & s & x & q & fs' & E & Ex & Ho & Ef & U).
  exists (c_xf x), q. split; [unfold xfat; rewrite E, Ex; reflexivity|]. split; [rewrite Ef; exact Ho|]. intros k' r' c'.
  unfold xfat, here. rewrite U, nth_upd. destruct (Nat.eqb k' k) eqn:Ek; cbn [andb]; [|reflexivity]. apply Nat.eqb_eq in Ek. subst k'. rewrite E.
  unfold find_cell in *. cbn [set_cells sh_cells]. fold (at_key r' c'). fold (at_key r c) in Ex. rewrite find_replace.
  destruct ((r' =? r) && (c' =? c))%bool eqn:Q.
  - assert (r' = r) by lia. assert (c' = c) by lia. subst. rewrite Ex. cbn [option_map]. apply find_some in Ex. destruct Ex as [_ ->]. reflexivity.
  - destruct (find (at_key r' c') (sh_cells s)) as [y|] eqn:Ey; cbn [option_map]; [|reflexivity]. apply find_some in Ey. destruct Ey as [_ Ey].
    unfold at_key in Ey. unfold at_key. replace ((c_row y =? r) && (c_col y =? c))%bool with false by lia. reflexivity.
Qed.
Lemma blank_xfat w k r c w' : winv2 w -> u32 r -> u32 c -> find_or_blank w k r c = Ok w' ->
  winv2 w' /\ forall k' r' c', xfat w' k' r' c' =
    if here k' k r' r c' c then match xfat w k r c with None => Some 15 | o => o end else xfat w k' r' c'.
Proof.
  intros I Hr Hc H. split; [apply (blank_step _ _ _ _ _ I Hr Hc H)|]. intros k' r' c'. unfold find_or_blank in H.
  destruct (nth_error (wb_sheets w) k) as [s|] eqn:E; [|discriminate]. destruct (find_cell s r c) as [x|] eqn:Ex.
  - apply ok_inj in H. subst w'. unfold here. destruct (_ && _)%bool eqn:Q; [|reflexivity].
    assert (k' = k) by lia. assert (r' = r) by lia. assert (c' = c) by lia. subst. unfold xfat. rewrite E, Ex. reflexivity.
  - rewrite (cell_xfat _ _ _ _ _ _ _ I Hr Hc H). destruct (here _ _ _ _ _ _); [|reflexivity]. unfold xfat. rewrite E, Ex. reflexivity.
Qed.

(** Calls on other things leave the cells alone. *)
Definition cell_call (q : call) : bool :=
  match q with KCell _ _ _ _ _ | KCellOp _ _ _ _ | KRange _ _ _ _ _ _ => true | _ => false end.
Definition cellsof (w : wb) : list (list cell) := map sh_cells (wb_sheets w).
Lemma xfat_cells w k r c : xfat w k r c = match nth_error (cellsof w) k with Some l => option_map c_xf (find (at_key r c) l) | None => None end.
Proof. unfold xfat, cellsof. rewrite nth_error_map. destruct (nth_error _ k); reflexivity. Qed.
Lemma cells_upd k s s' l : nth_error l k = Some s -> sh_cells s' = sh_cells s -> map sh_cells (upd k s' l) = map sh_cells l.
Proof.
  intros E H. destruct (nth_split_upd k l s s' E) as (a & b & El & _ & ->). rewrite El, !map_app. cbn [map]. rewrite H. reflexivity.
Qed.
Lemma sheet_kept w k f w' : (forall s w1 s1, f s = Ok (w1, s1) -> sh_cells s1 = sh_cells s) -> on_sheet w k f = Ok w' -> cellsof w' = cellsof w.
Proof.
  intros F H. apply on_sheet_inv in H. destruct H as (s & w1 & s1 & E & H & ->). unfold cellsof. cbn [up_sheets wb_sheets].
  eapply cells_upd; [exact E|]. eapply F; exact H.
Qed.
Lemma pure_kept w k f w' : (forall s, sh_cells (f s) = sh_cells s) -> pure_sheet w k f = Ok w' -> cellsof w' = cellsof w.
Proof. intros F H. eapply sheet_kept; [|exact H]. cbn. intros s w1 s1 K. apply ok_pair in K. destruct K as [_ <-]. apply F. Qed.
Lemma call_kept w q w' : cell_call q = false -> (forall n, q <> KSheet n) -> api_call w q = Ok w' -> cellsof w' = cellsof w.
Proof.
  intros N S. destruct q; try discriminate; cbn [api_call]; intro H; try (exfalso; eapply S; reflexivity);
    try (eapply pure_kept; [|exact H]; reflexivity); try (apply ok_inj in H; rewrite <- H; reflexivity).
  - unfold api_note in H. apply bind_ok in H. destruct H as (w1 & H1 & H2). apply sheet_kept in H1.
    + destruct (nth_error (wb_sheets w) k); [|discriminate]. destruct (nth_error (wb_bs w) _); [|discriminate]. apply ok_inj in H2. rewrite <- H2. exact H1.
    + intros s0 w2 s1 K. apply ok_pair in K. destruct K as [_ <-]. reflexivity.
  - eapply sheet_kept; [|exact H]. cbn. intros s w1 s1. destruct (negb _); [discriminate|]. intro K. apply ok_pair in K. destruct K as [_ <-]. reflexivity.
  - eapply sheet_kept; [|exact H]. cbn. intros s w1 s1. destruct (negb _); [discriminate|]. intro K. apply ok_pair in K. destruct K as [_ <-]. reflexivity.
  - destruct (nth_error (wb_sheets w) k); [|discriminate]. destruct (find_cell _ _ _); [|discriminate]. eapply pure_kept; [|exact H]. reflexivity.
  - destruct (nth_error (wb_sheets w) k); [|discriminate]. apply ok_inj in H. rewrite <- H. reflexivity.
  - apply ok_inj in H. rewrite <- H. unfold api_setcolor, colors_set. destruct (_ || _)%bool; reflexivity.
  - apply bind_ok in H. destruct H as ([fs x] & _ & H). apply ok_inj in H. rewrite <- H. reflexivity.
  - apply bind_ok in H. destruct H as ([fs x] & _ & H). apply ok_inj in H. rewrite <- H. reflexivity.
  - apply bind_ok in H. destruct H as (fs & _ & H). apply ok_inj in H. rewrite <- H. reflexivity.
  - apply bind_ok in H. destruct H as (fs & _ & H). apply ok_inj in H. rewrite <- H. reflexivity.
Qed.

(** The index a cell carries agrees with the history. *)
Definition fmt_agrees (o : option Z) (f : fmt_state) : Prop :=
  match f with NoCell => o = None | Known i => o = Some i | Derived => o <> None end.
Lemma setxf_result o fs p fs' q f : cellop_apply o fs p = Ok (fs', q) -> fmt_agrees (Some p) f -> fmt_agrees (Some q) (after_op o f).
Proof.
  intros H A. destruct o as [o|o|[i|]]; destruct f; try discriminate A; cbn [after_op]; try discriminate;
    cbn [cellop_apply cell_setxf] in H; destruct (xf_valid fs _); try discriminate H; apply ok_inj in H; apply pair_equal_spec in H; destruct H as [_ <-]; auto; reflexivity.
Qed.
Lemma agrees_some p f : fmt_agrees (Some p) f -> f <> NoCell.
Proof. intros A E. rewrite E in A. discriminate. Qed.
Lemma range_xfat k o l : forall w w', winv2 w -> Forall (fun p => u32 (fst p) /\ u32 (snd p)) l -> fold_res (range_step k o) l w = Ok w' ->
  forall k' r c f, NoDup l -> fmt_agrees (xfat w k' r c) f ->
  fmt_agrees (xfat w' k' r c) (if (Nat.eqb k' k && mem r c l)%bool then after_op o (match f with NoCell => Known 15 | _ => f end) else f).
Proof.
  induction l as [|p l IH]; intros w w' I F H k' r c f N A; cbn [fold_res] in H.
  - apply ok_inj in H. subst w'. unfold mem. cbn [existsb]. rewrite Bool.andb_false_r. exact A.
  - inversion F as [|? ? [Fr Fc] Fl]; subst. inversion N as [|? ? Np Nl]; subst. apply bind_ok in H. destruct H as (w1 & H1 & H2).
    pose proof (range_one _ _ _ _ _ I (conj Fr Fc) H1) as [Q _]. pose proof (qu_inv _ _ _ Q) as I1.
    unfold range_step in H1. apply bind_ok in H1. destruct H1 as (w0 & Hb & Ho). destruct (blank_xfat _ _ _ _ _ I Fr Fc Hb) as [I0 B].
    destruct (cellop_xfat _ _ _ _ _ _ I0 Ho) as (x & q & X & C & O).
    unfold mem. cbn [existsb]. fold (mem r c l).
    destruct (here k' k r (fst p) c (snd p)) eqn:E.
    + unfold here in E. assert (k' = k) by lia. assert (r = fst p) by lia. assert (c = snd p) by lia. subst k' r c.
      assert (M : mem (fst p) (snd p) l = false).
      { apply Bool.not_true_iff_false. unfold mem. intro K. apply existsb_exists in K. destruct K as (p' & J & K). apply Np. replace p with p'; [exact J|].
        destruct p, p'. cbn in *. f_equal; lia. }
      specialize (IH w1 w' I1 Fl H2 k (fst p) (snd p) (after_op o (match f with NoCell => Known 15 | _ => f end)) Nl). rewrite M, Bool.andb_false_r in IH.
      rewrite !Z.eqb_refl, Nat.eqb_refl. cbn [andb orb]. apply IH. rewrite O. unfold here. rewrite !Z.eqb_refl, Nat.eqb_refl. cbn [andb].
      eapply setxf_result; [exact C|]. rewrite B in X. unfold here in X. rewrite !Z.eqb_refl, Nat.eqb_refl in X. cbn [andb] in X.
      destruct f; cbn [fmt_agrees] in *; try rewrite A in X; try congruence.
    + assert (X1 : xfat w1 k' r c = xfat w k' r c) by (rewrite O, E, B, E; reflexivity).
      specialize (IH w1 w' I1 Fl H2 k' r c f Nl). rewrite X1 in IH. specialize (IH A). unfold here in E.
      destruct (Nat.eqb k' k); cbn [andb] in *; [|exact IH]. replace ((fst p =? r) && (snd p =? c))%bool with false by lia. exact IH.
Qed.
Lemma zrange_nodup a b : NoDup (zrange a b).
Proof. unfold zrange. apply FinFun.Injective_map_NoDup; [intros x y; lia|apply seq_NoDup]. Qed.
Lemma block_nodup r1 c1 r2 c2 : NoDup (block_of r1 c1 r2 c2).
Proof.
  unfold block_of. pose proof (zrange_nodup r1 r2) as N. induction N as [|r l J N IH]; cbn [flat_map]; [constructor|].
  assert (D : forall x, In x (map (fun c => (r, c)) (zrange c1 c2)) -> In x (flat_map (fun r => map (fun c => (r, c)) (zrange c1 c2)) l) -> False).
  { intros x A B. apply in_map_iff in A. destruct A as (c & <- & _). apply in_flat_map in B. destruct B as (r' & Jr & B). apply in_map_iff in B.
    destruct B as (c' & E & _). apply pair_equal_spec in E. destruct E as [<- _]. auto. }
  revert D. assert (M : NoDup (map (fun c => (r, c)) (zrange c1 c2))) by (apply FinFun.Injective_map_NoDup; [intros x y H; apply pair_equal_spec in H; tauto|apply zrange_nodup]).
  revert M. generalize (map (fun c => (r, c)) (zrange c1 c2)). intro m. induction 1 as [|y m Jy Nm IHm]; intro D; cbn [app]; [exact IH|].
  constructor; [|apply IHm; intros z A B; apply (D z); [right; exact A|exact B]].
  intro K. apply in_app_or in K. destruct K as [K|K]; [auto|]. apply (D y); [left; reflexivity|exact K].
Qed.

Theorem formats_tracked calls : forall w, Forall typed calls -> document calls = Ok w ->
  forall k r c, fmt_agrees (xfat w k r c) (fmt_of k calls r c).
Proof.
  induction calls as [|q calls IH] using rev_ind; intros w T H k r c.
  - apply document_nil in H. destruct (wb_new_sheets _ H) as [E _]. unfold xfat. rewrite E. destruct k; reflexivity.
  - apply Forall_app in T. destruct T as [T Tq]. inversion Tq as [|? ? Tq' _]; subst. destruct (document_snoc _ _ _ H) as (w0 & D & C).
    specialize (IH w0 T D k r c). pose proof (mn_inv _ _ (run_means _ _ T D)) as I.
    unfold fmt_of in *. rewrite fold_left_app. cbn [fold_left]. set (f := fold_left (fmt_step k r c) calls NoCell) in *. clearbody f.
    destruct (cell_call q) eqn:Eq.
    + destruct q; try discriminate Eq; cbn [api_call] in C; cbn [fmt_step typed] in *.
      * rewrite (cell_xfat _ _ _ _ _ _ _ I (proj1 Tq') (proj1 (proj2 Tq')) C). unfold here. destruct (_ && _)%bool; [destruct p; reflexivity|exact IH].
      * destruct (cellop_xfat _ _ _ _ _ _ I C) as (x & q & X & O & A). rewrite A. unfold here. destruct (_ && _)%bool eqn:E; [|exact IH].
        eapply setxf_result; [exact O|]. assert (k = k0) by lia. assert (r = row) by lia. assert (c = col) by lia. subst. rewrite X in IH. exact IH.
      * destruct Tq' as (U1 & U2 & U3 & U4). destruct (range_inv _ _ _ _ _ _ _ _ C) as (R & Cc & G).
        pose proof (range_xfat _ _ _ _ _ I (block_u32 _ _ _ _ U1 U2 U3 U4) G k r c f (block_nodup _ _ _ _) IH) as K. rewrite block_mem in K.
        rewrite Bool.andb_assoc in K. exact K.
    + destruct (sheet_dec q) as [[n ->]|N].
      * apply call_sheet in C. subst w. cbn [fmt_step]. rewrite xfat_cells in *. unfold cellsof, api_sheet in *. cbn [up_bs up_sheets wb_sheets].
        rewrite map_app. cbn [map sheet_new sh_cells]. destruct (Nat.lt_ge_cases k (length (map sh_cells (wb_sheets w0)))) as [L|L].
        -- rewrite nth_error_app1 by exact L. exact IH.
        -- rewrite nth_error_app2 by exact L. replace (nth_error (map sh_cells (wb_sheets w0)) k) with (@None (list cell)) in IH by (symmetry; apply nth_error_None; exact L).
           destruct (k - _)%nat as [|[|]]; exact IH.
      * pose proof (call_kept _ _ _ Eq N C) as K. rewrite xfat_cells, K, <- xfat_cells. destruct q; try discriminate Eq; exact IH.
Qed.
