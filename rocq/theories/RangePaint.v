(** cellcolor and boxer do what ordinary calls do: every run of them is a run of cell
    setters, and the remembered formats show what the setters would have made. *)
From Coq Require Import ZArith List Bool Lia ZifyBool ZifyNat.
From Verif Require Import Bytes UnitModel SpecBuf BufProofs RecModel SheetModel XfModel WbModel RecProofs RecFrames SpecXf XfProofs SpecXfOps PropsXf XfInv Looks ApiModel SpecBiff BookRecs ApiInv
  SpecApi ApiEff SheetProofs SheetTrace GlobTrace WbProofs SaveOk SaveRecs SaveRead SpecSaved SaveMeans DocLimits SavedView XfTrace SpecLook LookInv ViewPay RefTrace LookStep FontUse Careful ViewLook FontLook CellLook RangeModel.
Import ListNotations.
Local Open Scope Z_scope.
Local Notation mem := ApiEff.mem.
Local Notation few := LookInv.few.

Lemma format_attrs fs p o fs' q a : okref p -> few fs -> tidies fs -> op_args (CFormat o) -> cell_format fs p o = Ok (fs', q) ->
  xf_rec fs p = Some a -> xf_rec fs' q = Some (spec_set o a).
Proof.
  intros O F T A H L. destruct (cell_format_keeps _ _ _ _ _ H) as (_ & x & t0 & fs1 & fs2 & t & y & Ex & Ed & Ef & Ey & Cy).
  pose proof (T _ _ O Ex) as Tx. destruct (dup_tidy _ _ _ _ Tx Ed) as [T0 A0].
  pose proof (xf_dup_level fs x) as L1. rewrite Ed in L1. cbn [fst] in L1.
  destruct (fmt_apply_tidy _ _ _ _ _ (few_level _ _ L1 F) T0 (fmt_args _ A) Ef) as [Tt At].
  rewrite (xf_rec_tidy _ _ _ Ey) by (apply (tidy_core t); [congruence|exact Tt]).
  rewrite (xf_rec_tidy _ _ _ Ex Tx) in L. apply some_inj in L. rewrite <- L, <- A0, <- At. f_equal. apply attrs_core. exact Cy.
Qed.
Definition sets (ops : list fmtop) (a : xfattrs) : xfattrs := fold_left (fun a o => spec_set o a) ops a.
Definition ops_args (ops : list fmtop) : Prop := Forall (fun o => op_args (CFormat o)) ops.
Definition set_calls (k : nat) (r c : Z) (ops : list fmtop) : list call := map (fun o => KCellOp k r c (CFormat o)) ops.

Lemma here_refl k r c : here k k r r c c = true.
Proof. unfold here. rewrite !Z.eqb_refl, Nat.eqb_refl. reflexivity. Qed.
Lemma pxf_at w k r c p : cell_pxf w k r c = Ok p <-> xfat w k r c = Some p.
Proof.
  unfold cell_pxf, xfat. destruct (nth_error (wb_sheets w) k) as [s|]; [|split; discriminate]. destruct (find_cell s r c); cbn [option_map]; [|split; discriminate].
  split; intro H; [apply ok_inj in H|apply some_inj in H]; subst; reflexivity.
Qed.

Lemma setters_run ops : forall calls w w1 k r c p, Forall typed calls -> document calls = Ok w -> xfat w k r c = Some p -> setters w k r c ops = Ok w1 ->
  exists q, document (calls ++ set_calls k r c ops) = Ok w1 /\ keeps (wb_fs w) (wb_fs w1) /\ grows (wb_fs w) (wb_fs w1)
    /\ (forall k' r' c', xfat w1 k' r' c' = if here k' k r' r c' c then Some q else xfat w k' r' c')
    /\ (ops <> [] -> 21 <= q)
    /\ (Forall args calls -> ops_args ops -> few (wb_fs w1) -> forall a, xf_rec (wb_fs w) p = Some a -> xf_rec (wb_fs w1) q = Some (sets ops a)).
Proof.
  induction ops as [|o ops IH]; intros calls w w1 k r c p T D X H; cbn [setters fold_res] in H.
  - apply ok_inj in H. subst w1. exists p. cbn [set_calls map]. rewrite app_nil_r. split; [exact D|]. split; [apply keeps_refl|]. split; [apply grows_refl|]. split.
    + intros k' r' c'. unfold here. destruct (Nat.eqb k' k && (r' =? r) && (c' =? c))%bool eqn:E; [|reflexivity].
      apply andb_prop in E. destruct E as [E E3]. apply andb_prop in E. destruct E as [E1 E2]. apply Nat.eqb_eq in E1. apply Z.eqb_eq in E2, E3. subst. exact X.
    + split; [congruence|]. intros _ _ _ a L. exact L.
  - apply bind_ok in H. destruct H as (wm & H1 & H2). pose proof (mn_inv _ _ (run_means _ _ T D)) as I0.
    assert (C : api_call w (KCellOp k r c (CFormat o)) = Ok wm) by exact H1. pose proof (document_step _ _ _ _ D C) as D1.
    assert (T1 : Forall typed (calls ++ [KCellOp k r c (CFormat o)])) by (apply Forall_app; split; [exact T|repeat constructor]).
    destruct (cellop_xfat _ _ _ _ _ _ I0 H1) as (p0 & q0 & X0 & Ca & Xa). assert (p0 = p) by congruence. subst p0.
    pose proof (xfat_valid _ _ _ _ _ I0 X) as Vp. destruct (cellop_grows _ _ _ _ _ Vp Ca) as [G0 _].
    assert (Xm : xfat wm k r c = Some q0) by (rewrite Xa, here_refl; reflexivity).
    destruct (IH _ _ _ _ _ _ _ T1 D1 Xm H2) as (q & D2 & K2 & G2 & X2 & Q2 & L2). exists q.
    assert (K1 : keeps (wb_fs w) (wb_fs wm)) by (eapply cellop_keeps; [|exact Ca]; intros f E; discriminate E).
    split. { cbn [set_calls map]. rewrite <- app_assoc in D2. exact D2. }
    split; [eapply keeps_trans; eauto|]. split; [eapply grows_trans; eauto|]. split.
    { intros k' r' c'. rewrite X2, Xa. destruct (here k' k r' r c' c); reflexivity. }
    cbn [cellop_apply] in Ca. split.
    { intros _. destruct ops as [|o' ops]; [|apply Q2; discriminate]. cbn [fold_res] in H2. apply ok_inj in H2. subst w1. rewrite X2, here_refl in Xm. apply some_inj in Xm. subst q0.
      apply (cell_format_grows _ _ _ _ _ Ca). }
    intros A Ao F a L. inversion Ao as [|? ? Ao1 Ao2]; subst. change (sets (o :: ops) a) with (sets ops (spec_set o a)).
    apply L2; auto. { apply Forall_app. split; [exact A|]. constructor; [exact Ao1|constructor]. }
    pose proof (few_back _ _ G2 F) as Fm. pose proof (few_back _ _ G0 Fm) as F0. destruct (doc_tidy _ _ T A D F0) as [O Td].
    rewrite Forall_forall in O. exact (format_attrs _ _ _ _ _ _ (O p (xfat_refs _ _ _ _ _ X)) F0 Td Ao1 Ca L).
Qed.

(* ------------------------------------------------------------------ *)
(** * One position *)

Lemma blank_call calls w k r c w0 : Forall typed calls -> document calls = Ok w -> u32 r -> u32 c -> find_or_blank w k r c = Ok w0 ->
  exists fill, (fill = [] \/ fill = [KCell k r c UBlank None]) /\ document (calls ++ fill) = Ok w0 /\ keeps (wb_fs w) (wb_fs w0) /\ grows (wb_fs w) (wb_fs w0)
    /\ (forall k' r' c', xfat w0 k' r' c' = if here k' k r' r c' c then match xfat w k r c with None => Some 15 | i => i end else xfat w k' r' c')
    /\ (forall k' r' c', cells_of k' (calls ++ fill) r' c' = if here k' k r' r c' c then match cells_of k calls r c with None => Some UBlank | i => i end else cells_of k' calls r' c').
Proof.
  intros T D Hr Hc Hb. pose proof (run_means _ _ T D) as Mn. pose proof (mn_inv _ _ Mn) as I.
  destruct (blank_xfat _ _ _ _ _ I Hr Hc Hb) as [_ B]. pose proof Hb as Hb0. unfold find_or_blank in Hb. destruct (nth_error (wb_sheets w) k) as [s|] eqn:Es; [|discriminate Hb].
  pose proof (me_vals _ _ _ (mn_sheet _ _ Mn k s Es) r c) as Vm. unfold fv in Vm.
  destruct (find_cell s r c) as [x|].
  - apply ok_inj in Hb. subst w0. exists []. rewrite app_nil_r. split; [auto|]. split; [exact D|]. split; [apply keeps_refl|]. split; [apply grows_refl|]. split; [exact B|].
    intros k' r' c'. unfold here. destruct (Nat.eqb k' k && (r' =? r) && (c' =? c))%bool eqn:E; [|reflexivity].
    apply andb_prop in E. destruct E as [E E3]. apply andb_prop in E. destruct E as [E1 E2]. apply Nat.eqb_eq in E1. apply Z.eqb_eq in E2, E3. subst.
    cbn [option_map vm] in Vm. destruct (cells_of k calls r c); [reflexivity|destruct Vm].
  - exists [KCell k r c UBlank None]. split; [auto|]. assert (C : api_call w (KCell k r c UBlank None) = Ok w0) by exact Hb.
    assert (Sr : rsteps (KCell k r c UBlank None) (wb_fs w) (refs w) (wb_fs w0) (refs w0)) by (apply (call_rsteps _ _ _ I); [cbn [typed val_typed]; auto|exact C]).
    split; [exact (document_step _ _ _ _ D C)|]. split; [|split; [exact (rsteps_grows _ _ _ _ _ Sr)|split; [exact B|]]].
    + eapply (rsteps_keeps (KCell k r c UBlank None)); [intros a b []|intros o' []|exact Sr].
    + intros k' r' c'. unfold cells_of. rewrite fold_left_app. cbn [fold_left cells_step]. fold (cells_of k' calls). unfold here.
      destruct (Nat.eqb k' k && (r' =? r) && (c' =? c))%bool; [|reflexivity]. cbn [option_map vm] in Vm. unfold cells_of in Vm. destruct (fold_left (cells_step k) calls no_cells r c); [destruct Vm|reflexivity].
Qed.

Definition memo_valid (fs : fstate) (m : memo) : Prop := Forall (fun e => 21 <= snd e /\ valid fs (snd e)) m.
Lemma memo_found m i t q : memo_find m i t = Some q -> In (i, t, q) m.
Proof.
  unfold memo_find. destruct (find _ m) as [[[a b] e]|] eqn:E; [|discriminate]. cbn [option_map snd]. intro H. apply some_inj in H. subst e. apply find_some in E. cbn [fst snd] in E.
  destruct E as [J E]. assert (a = i) by lia. assert (b = t) by lia. subst. exact J.
Qed.
Lemma memo_in m i t q e : In e (memo_insert m i t q) -> In e m \/ e = (i, t, q).
Proof. unfold memo_insert. destruct (memo_find m i t); [auto|]. intro J. apply in_app_iff in J. destruct J as [J|[J|[]]]; auto. Qed.

Definition paint_call (k : nat) (l : list (Z * Z)) (q : call) : Prop :=
  match q with
  | KCell k' r c UBlank None | KCellOp k' r c (CFormat _) | KCellOp k' r c (CSetXF (Some _)) => k' = k /\ In (r, c) l
  | _ => False
  end.

Section Paint.
Variables (k : nat) (ops : Z -> list fmtop) (ops_at : Z * Z -> list fmtop).
(** The remembered results: the format [q] shows what the setters make of format [i]. *)
Definition memo_sound (fs : fstate) (m : memo) : Prop :=
  Forall (fun e => exists a, xf_rec fs (fst (fst e)) = Some a /\ xf_rec fs (snd e) = Some (sets (ops (snd (fst e))) a)) m.
Definition pstep (w : wb) (m : memo) (rc : Z * Z) (w' : wb) (m' : memo) : Prop :=
  exists w0 p t, find_or_blank w k (fst rc) (snd rc) = Ok w0 /\ xfat w0 k (fst rc) (snd rc) = Some p /\ ops t = ops_at rc
    /\ ((exists q, memo_find m (p mod 65536) t = Some q /\ api_cellop w0 k (fst rc) (snd rc) (CSetXF (Some q)) = Ok w' /\ m' = m)
        \/ exists q, setters w0 k (fst rc) (snd rc) (ops t) = Ok w' /\ xfat w' k (fst rc) (snd rc) = Some q /\ m' = memo_insert m (p mod 65536) t q).
Hypothesis ops_some : forall t, ops t <> [].

Lemma few_index fs p : few fs -> valid fs p -> p mod 65536 = p.
Proof.
  intros (_ & _ & F) V. unfold valid, xf_at in V. destruct (p <? 0) eqn:E0; [congruence|]. destruct (p <? 21) eqn:E1; [apply Z.mod_small; lia|].
  apply nth_error_Some in V. unfold zlen in F. apply Z.mod_small. lia.
Qed.

Lemma one_run calls w m rc w' m' : Forall typed calls -> document calls = Ok w -> u32 (fst rc) -> u32 (snd rc) -> memo_valid (wb_fs w) m -> pstep w m rc w' m' ->
  exists more, Forall (paint_call k [rc]) more /\ document (calls ++ more) = Ok w' /\ keeps (wb_fs w) (wb_fs w') /\ grows (wb_fs w) (wb_fs w') /\ memo_valid (wb_fs w') m'
    /\ (ops_args (ops_at rc) -> Forall args more)
    /\ (forall k' r' c', cells_of k' (calls ++ more) r' c' =
          if here k' k r' (fst rc) c' (snd rc) then match cells_of k calls (fst rc) (snd rc) with None => Some UBlank | i => i end else cells_of k' calls r' c')
    /\ exists q, (forall k' r' c', xfat w' k' r' c' = if here k' k r' (fst rc) c' (snd rc) then Some q else xfat w k' r' c')
    /\ (Forall args calls -> ops_args (ops_at rc) -> few (wb_fs w') -> memo_sound (wb_fs w) m ->
        memo_sound (wb_fs w') m'
        /\ forall a, xf_rec (wb_fs w) (match xfat w k (fst rc) (snd rc) with Some p => p | None => 15 end) = Some a -> xf_rec (wb_fs w') q = Some (sets (ops_at rc) a)).
Proof.
  intros T D Hr Hc Mv (w0 & p & t & Hb & Xp & Eo & H). destruct rc as [r c]. cbn [fst snd] in *.
  destruct (blank_call _ _ _ _ _ _ T D Hr Hc Hb) as (fill & Ef & D0 & K0 & G0 & B & Bc).
  assert (T0 : Forall typed (calls ++ fill)).
  { apply Forall_app. split; [exact T|]. destruct Ef as [->| ->]; [constructor|]. constructor; [cbn [typed val_typed]; auto|constructor]. }
  assert (A0 : Forall args fill) by (destruct Ef as [->| ->]; repeat constructor).
  assert (P0 : Forall (paint_call k [(r, c)]) fill) by (destruct Ef as [->| ->]; repeat constructor).
  pose proof (mn_inv _ _ (run_means _ _ T0 D0)) as I0. pose proof (xfat_valid _ _ _ _ _ I0 Xp) as Vp.
  assert (Pp : match xfat w k r c with Some p => p | None => 15 end = p).
  { rewrite B, here_refl in Xp. destruct (xfat w k r c); congruence. }
  destruct H as [(q & Mf & H & ->)|(q & H & Xq & ->)].
  - (* remembered *)
    assert (C : api_call w0 (KCellOp k r c (CSetXF (Some q))) = Ok w') by exact H. pose proof (document_step _ _ _ _ D0 C) as D1.
    destruct (cellop_xfat _ _ _ _ _ _ I0 H) as (p0 & q0 & X0 & Ca & Xa). assert (p0 = p) by congruence. subst p0.
    destruct (cellop_grows _ _ _ _ _ Vp Ca) as [G1 _].
    assert (K1 : keeps (wb_fs w0) (wb_fs w')) by (eapply cellop_keeps; [|exact Ca]; intros f E; discriminate E).
    assert (q0 = q). { cbn [cellop_apply] in Ca. destruct (xf_valid _ _); [|discriminate Ca]. apply ok_pair in Ca. destruct Ca as [_ <-]. reflexivity. } subst q0.
    pose proof (memo_found _ _ _ _ Mf) as J. unfold memo_valid in Mv. pose proof Mv as Mv0. rewrite Forall_forall in Mv0. destruct (Mv0 _ J) as [Q21 _]. cbn [snd] in Q21.
    exists (fill ++ [KCellOp k r c (CSetXF (Some q))]). rewrite app_assoc.
    split. { apply Forall_app. split; [exact P0|]. constructor; [cbn; auto|constructor]. }
    split; [exact D1|]. split; [eapply keeps_trans; eauto|]. split; [eapply grows_trans; eauto|].
    split. { eapply Forall_impl; [|exact Mv]. intros e [E1 E2]. split; [exact E1|]. eapply valid_grows; [|exact E2]. eapply grows_trans; eauto. }
    split. { intros _. apply Forall_app. split; [exact A0|]. constructor; [exact Q21|constructor]. }
    split. { intros k' r' c'. unfold cells_of. rewrite fold_left_app. cbn [fold_left cells_step]. fold (cells_of k' (calls ++ fill)). apply Bc. }
    exists q. split. { intros k' r' c'. rewrite Xa, B. destruct (here k' k r' r c' c); reflexivity. }
    intros A Ao F Ms. assert (Kw : keeps (wb_fs w) (wb_fs w')) by (eapply keeps_trans; eauto).
    split. { eapply Forall_impl; [|exact Ms]. intros e (a & E1 & E2). exists a. split; eapply xf_rec_keeps; eauto. }
    rewrite Pp. intros a La. unfold memo_sound in Ms. rewrite Forall_forall in Ms. destruct (Ms _ J) as (b & E1 & E2). cbn [fst snd] in E1, E2.
    rewrite (few_index (wb_fs w0) p (few_back _ _ G1 F) Vp) in E1. rewrite La in E1. apply some_inj in E1. subst b. rewrite <- Eo. eapply xf_rec_keeps; eauto.
  - (* made *)
    destruct (setters_run (ops t) _ _ _ _ _ _ _ T0 D0 Xp H) as (q0 & D1 & K1 & G1 & X1 & Q1 & L1).
    assert (q0 = q) by (rewrite X1, here_refl in Xq; congruence). subst q0. specialize (Q1 (ops_some t)).
    exists (fill ++ set_calls k r c (ops t)). rewrite app_assoc.
    assert (T1 : Forall typed ((calls ++ fill) ++ set_calls k r c (ops t))).
    { apply Forall_app. split; [exact T0|]. apply Forall_map, Forall_forall. intros o _. exact I. }
    pose proof (mn_inv _ _ (run_means _ _ T1 D1)) as I1. pose proof (xfat_valid _ _ _ _ _ I1 Xq) as Vq.
    split. { apply Forall_app. split; [exact P0|]. apply Forall_map, Forall_forall. intros o _. cbn. auto. }
    split; [exact D1|]. split; [eapply keeps_trans; eauto|]. split; [eapply grows_trans; eauto|].
    split. { apply Forall_forall. intros e J. apply memo_in in J. destruct J as [J| ->]; [|split; [exact Q1|exact Vq]]. unfold memo_valid in Mv. rewrite Forall_forall in Mv. destruct (Mv e J) as [E1 E2].
             split; [exact E1|]. eapply valid_grows; [|exact E2]. eapply grows_trans; eauto. }
    split. { intro Ao. apply Forall_app. split; [exact A0|]. rewrite <- Eo in Ao. apply Forall_map. eapply Forall_impl; [|exact Ao]. intros o Q. exact Q. }
    split. { intros k' r' c'. rewrite <- Bc. unfold cells_of. rewrite fold_left_app. generalize (fold_left (cells_step k') (calls ++ fill) no_cells). intro f. unfold set_calls.
             clear. induction (ops t) as [|o l IH]; [reflexivity|exact IH]. }
    exists q. split. { intros k' r' c'. rewrite X1, B. destruct (here k' k r' r c' c); reflexivity. }
    intros A Ao F Ms. assert (Kw : keeps (wb_fs w) (wb_fs w')) by (eapply keeps_trans; eauto).
    assert (F0 : few (wb_fs w0)) by (eapply few_back; [exact G1|exact F]). rewrite <- Eo in Ao. assert (Aa : Forall args (calls ++ fill)) by (apply Forall_app; auto).
    assert (Step : forall a, xf_rec (wb_fs w0) p = Some a -> xf_rec (wb_fs w') q = Some (sets (ops t) a)) by (intros a; apply L1; auto).
    split.
    + apply Forall_forall. intros e J. apply memo_in in J. destruct J as [J| ->].
      * unfold memo_sound in Ms. rewrite Forall_forall in Ms. destruct (Ms e J) as (a & E1 & E2). exists a. split; eapply xf_rec_keeps; eauto.
      * cbn [fst snd]. rewrite (few_index _ _ F0 Vp). destruct (doc_tidy _ _ T0 Aa D0 F0) as [O Td]. unfold valid in Vp. destruct (xf_at (wb_fs w0) p) as [x|] eqn:Ex; [|congruence].
        rewrite Forall_forall in O. pose proof (Td _ _ (O p (xfat_refs _ _ _ _ _ Xp)) Ex) as Tx. pose proof (xf_rec_tidy _ _ _ Ex Tx) as Ra. exists (attrs_of x).
        split; [eapply xf_rec_keeps; [exact K1|exact Ra]|]. apply Step. exact Ra.
    + rewrite Pp. intros a La. rewrite <- Eo. apply Step. eapply xf_rec_keeps; eauto.
Qed.

(* ------------------------------------------------------------------ *)
(** * The loop *)

Variable step : wb * memo -> Z * Z -> res (wb * memo).
Hypothesis steps : forall calls w m rc w' m', Forall typed calls -> document calls = Ok w -> u32 (fst rc) -> u32 (snd rc) -> step (w, m) rc = Ok (w', m') -> pstep w m rc w' m'.

Lemma loop_run l : Forall (fun p => u32 (fst p) /\ u32 (snd p)) l -> NoDup l ->
  forall calls w m w' m', Forall typed calls -> document calls = Ok w -> memo_valid (wb_fs w) m -> fold_res step l (w, m) = Ok (w', m') ->
  exists more, Forall (paint_call k l) more /\ document (calls ++ more) = Ok w' /\ keeps (wb_fs w) (wb_fs w') /\ grows (wb_fs w) (wb_fs w')
    /\ ((forall rc, ops_args (ops_at rc)) -> Forall args more)
    /\ (forall k' r' c', cells_of k' (calls ++ more) r' c' =
          if (Nat.eqb k' k && mem r' c' l)%bool then match cells_of k' calls r' c' with None => Some UBlank | i => i end else cells_of k' calls r' c')
    /\ (forall k' r c, k' <> k \/ mem r c l = false -> xfat w' k' r c = xfat w k' r c)
    /\ (Forall args calls -> (forall rc, ops_args (ops_at rc)) -> few (wb_fs w') -> memo_sound (wb_fs w) m -> forall r c a, mem r c l = true ->
        xf_rec (wb_fs w) (match xfat w k r c with Some p => p | None => 15 end) = Some a -> exists q, xfat w' k r c = Some q /\ xf_rec (wb_fs w') q = Some (sets (ops_at (r, c)) a)).
Proof.
  intros F N. induction l as [|rc l IH]; intros calls w m w' m' T D Mv H; cbn [fold_res] in H.
  - apply ok_pair in H. destruct H as [<- <-]. exists []. rewrite app_nil_r. split; [constructor|]. split; [exact D|]. split; [apply keeps_refl|]. split; [apply grows_refl|]. split; [constructor|].
    split; [intros k' r' c'; unfold mem; cbn [existsb]; rewrite andb_false_r; reflexivity|]. split; [auto|]. intros _ _ _ _ r c a M. discriminate M.
  - inversion F as [|? ? [Fr Fc] Fl]; subst. inversion N as [|? ? Np Nl]; subst. apply bind_ok in H. destruct H as ((w1, m1) & H1 & H2).
    destruct (one_run _ _ _ _ _ _ T D Fr Fc Mv (steps _ _ _ _ _ _ T D Fr Fc H1)) as (c1 & P1 & D1 & K1 & G1 & V1 & A1 & B1 & q & X1 & L1).
    assert (T1 : Forall typed (calls ++ c1)).
    { apply Forall_app. split; [exact T|]. eapply Forall_impl; [|exact P1]. intros y Py. destruct y; try exact I; cbn [paint_call] in Py; try destruct Py. destruct v; try (destruct Py; fail). destruct p; [destruct Py|].
      destruct Py as [_ [E|[]]]. rewrite E in Fr, Fc. cbn [typed val_typed fst snd] in *. auto. }
    destruct (IH Fl Nl _ _ _ _ _ T1 D1 V1 H2) as (c2 & P2 & D2 & K2 & G2 & A2 & B2 & X2 & L2). clear IH.
    assert (Mp : forall r c, mem r c (rc :: l) = ((fst rc =? r) && (snd rc =? c) || mem r c l)%bool) by reflexivity.
    assert (Nm : mem (fst rc) (snd rc) l = false).
    { apply Bool.not_true_iff_false. unfold mem. intro K. apply existsb_exists in K. destruct K as (p' & J & K). apply Np. replace rc with p'; [exact J|].
      destruct rc, p'. cbn in *. f_equal; lia. }
    exists (c1 ++ c2). rewrite app_assoc. split.
    { assert (Wk : forall l1, incl l1 (rc :: l) -> forall y, paint_call k l1 y -> paint_call k (rc :: l) y).
      { intros l1 In1 y. unfold paint_call. destruct y; auto; [destruct v, p; auto|destruct o as [o|o|[o|]]; auto]; intros [E J]; (split; [exact E|apply In1, J]). }
      apply Forall_app. split; eapply Forall_impl; [apply (Wk [rc]); intros z [J|[]]; left; exact J|exact P1|apply (Wk l); intros z J; right; exact J|exact P2]. }
    split; [exact D2|]. split; [eapply keeps_trans; eauto|]. split; [eapply grows_trans; eauto|].
    split. { intro Ao. apply Forall_app. auto. }
    split.
    { intros k' r' c'. rewrite B2, B1, Mp. unfold here. destruct (Nat.eqb k' k) eqn:Ek; cbn [andb]; [|reflexivity]. apply Nat.eqb_eq in Ek. subst k'.
      destruct ((fst rc =? r') && (snd rc =? c'))%bool eqn:Q.
      - assert (r' = fst rc) by lia. assert (c' = snd rc) by lia. subst. rewrite !Z.eqb_refl. cbn [andb orb]. destruct (mem _ _ l); destruct (cells_of k calls (fst rc) (snd rc)); reflexivity.
      - replace ((r' =? fst rc) && (c' =? snd rc))%bool with false by lia. cbn [orb]. reflexivity. }
    split.
    { intros k' r c E. rewrite Mp in E. rewrite X2 by (destruct E as [E|E]; [auto|right; apply orb_false_iff in E; tauto]). rewrite X1. unfold here.
      replace (Nat.eqb k' k && (r =? fst rc) && (c =? snd rc))%bool with false by (destruct E; lia). reflexivity. }
    intros A Ao Fw Ms r c a M La. pose proof (few_back _ _ G2 Fw) as F1. destruct (L1 A (Ao _) F1 Ms) as [Ms1 S1].
    rewrite Mp in M. destruct ((fst rc =? r) && (snd rc =? c))%bool eqn:Q.
    + assert (r = fst rc) by lia. assert (c = snd rc) by lia. subst r c. rewrite X2 by (right; exact Nm). rewrite X1, here_refl. exists q. split; [reflexivity|].
      eapply xf_rec_keeps; [exact K2|]. destruct rc. exact (S1 _ La).
    + cbn [orb] in M. apply L2; auto. { apply Forall_app. auto. }
      rewrite X1. unfold here. replace (Nat.eqb k k && (r =? fst rc) && (c =? snd rc))%bool with false by (rewrite Nat.eqb_refl; lia). eapply xf_rec_keeps; eauto.
Qed.
End Paint.
