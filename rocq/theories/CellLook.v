(** What cell setters and range setters do to the looks of cells, along histories. *)
From Coq Require Import ZArith List Bool Lia ZifyBool ZifyNat Sorted.
From Verif Require Import Bytes UnitModel SpecBuf BufProofs RecModel SheetModel XfModel WbModel RecProofs RecFrames SpecXf XfProofs SpecXfOps PropsXf XfInv Looks ApiModel SpecBiff BookRecs ApiInv
  SpecApi ApiEff SheetProofs SheetTrace GlobTrace WbProofs SaveOk SaveRecs SaveRead SpecSaved SaveMeans DocLimits SavedView XfTrace SpecLook LookInv ViewPay RefTrace LookStep FontUse Careful ViewLook FontLook.
Import ListNotations.
Local Open Scope Z_scope.
Local Notation mem := ApiEff.mem.

(** The format object [q] shows [l] changed by [o]. *)
Definition styled (fs : fstate) (o : cellop) (l : look) (q : Z) : Prop :=
  match o with
  | CFormat o => xf_rec fs q = Some (spec_set o (lk_attrs l))
  | CFont o => exists j, xlook fs q = Some (mkLook (with_font_index j (lk_attrs l)) (spec_font o (lk_font l)) (lk_number l))
  | CSetXF (Some i) => q = i
  | CSetXF None => xlook fs q = Some l
  end.
Lemma styled_keeps a b o l q : keeps a b -> styled a o l q -> styled b o l q.
Proof.
  intros K S. destruct o as [o|o|[i|]]; cbn [styled] in *; auto.
  - eapply xf_rec_keeps; eauto.
  - destruct S as (j & S). exists j. eapply xlook_keeps; eauto.
  - eapply xlook_keeps; eauto.
Qed.

Lemma xfat_valid w k r c p : winv2 w -> xfat w k r c = Some p -> valid (wb_fs w) p.
Proof.
  intros I X. pose proof (wi_xfs _ (w2_inv _ I)) as W. unfold xfat in X. destruct (nth_error (wb_sheets w) k) as [s|] eqn:Es; [|discriminate X].
  destruct (find_cell s r c) as [x|] eqn:Ex; [|discriminate X]. injection X as <-. rewrite Forall_forall in W. destruct (W s (nth_sheet_in _ _ _ Es)) as (W1 & _).
  rewrite Forall_forall in W1. apply W1. apply (find_cell_in _ _ _ _ Ex).
Qed.
Lemma covered_keeps calls w k r c o w' p q : Forall typed calls -> document calls = Ok w -> covered calls o ->
  xfat w k r c = Some p -> cellop_apply o (wb_fs w) p = Ok (wb_fs w', q) -> keeps (wb_fs w) (wb_fs w').
Proof.
  intros T D C X H. destruct o as [o|o|o]; cbn [covered] in C.
  - eapply cellop_keeps; [|exact H]. intros f E. discriminate E.
  - destruct C as [C A]. destruct (careful_sound calls w T A C D) as (new & S). pose proof (xfat_valid _ _ _ _ _ (mn_inv _ _ (run_means _ _ T D)) X) as V.
    unfold valid in V. destruct (xf_at (wb_fs w) p) as [x|] eqn:Ex; [|congruence]. cbn [cellop_apply] in H.
    apply (cell_font_keeps (wb_fs w) p o (wb_fs w') q x Ex (fun i d E1 E2 => uses_live _ _ _ _ _ _ _ (sd_uses _ _ _ S) (xfat_refs _ _ _ _ _ X) Ex E1 E2) H).
  - eapply cellop_keeps; [|exact H]. intros f E. discriminate E.
Qed.
Lemma covered_styled calls w k r c o w' p q l : Forall typed calls -> Forall args calls -> document calls = Ok w -> covered calls o -> op_args o -> few (wb_fs w') ->
  xfat w k r c = Some p -> cellop_apply o (wb_fs w) p = Ok (wb_fs w', q) -> xlook (wb_fs w) p = Some l -> styled (wb_fs w') o l q.
Proof.
  intros T A D C Ao F X H L. pose proof (xfat_valid _ _ _ _ _ (mn_inv _ _ (run_means _ _ T D)) X) as V.
  destruct (cellop_grows _ _ _ _ _ V H) as [G _]. destruct (doc_tidy _ _ T A D (few_back _ _ G F)) as [O Td].
  pose proof (xfat_refs _ _ _ _ _ X) as J. rewrite Forall_forall in O. specialize (O p J).
  destruct o as [o|o|[i|]]; cbn [styled cellop_apply] in *.
  - exact (format_step _ _ _ _ _ _ O (few_back _ _ G F) Td Ao H L).
  - destruct C as [C _]. destruct (careful_sound calls w T A C D) as (new & S).
    unfold valid in V. destruct (xf_at (wb_fs w) p) as [x|] eqn:Ex; [|congruence].
    apply (font_step (wb_fs w) p o (wb_fs w') q x l (refs w) new); auto. exact (sd_uses _ _ _ S).
  - destruct (xf_valid (wb_fs w) (Some i)); [|discriminate H]. apply ok_pair in H. destruct H as [_ <-]. reflexivity.
  - destruct (xf_valid (wb_fs w) None); [|discriminate H]. apply ok_pair in H. destruct H as [Ef <-]. rewrite <- Ef. exact L.
Qed.

(* ------------------------------------------------------------------ *)
(** * Ranges *)

Lemma careful_snoc calls q : careful calls -> careful_call calls q -> careful (calls ++ [q]).
Proof.
  intros C Q a x b E. destruct b as [|y b] using rev_ind.
  - apply app_inj_tail in E. destruct E as [-> ->]. exact Q.
  - clear IHb. change (x :: b ++ [y]) with ((x :: b) ++ [y]) in E. rewrite app_assoc in E. apply app_inj_tail in E. destruct E as [E _]. exact (C a x b E).
Qed.
Lemma document_step calls w q w' : document calls = Ok w -> api_call w q = Ok w' -> document (calls ++ [q]) = Ok w'.
Proof.
  unfold document, api_run. intros D C. apply bind_ok in D. destruct D as (w0 & E0 & D). rewrite E0. cbn [bind]. rewrite fold_res_app. rewrite D. cbn [bind fold_res]. rewrite C. reflexivity.
Qed.
Lemma rsteps_keeps q fs R fs' R' : (forall a b, ~ own q a b) -> (forall o, ~ op_in q o) -> rsteps q fs R fs' R' -> keeps fs fs'.
Proof.
  intros No Np. induction 1 as [|fs R fs1 R1 fs2 R2 H H1 IH]; [apply keeps_refl|]. eapply keeps_trans; [|exact IH].
  destruct H; [apply xf_mark_keeps|apply xf_unmark_keeps|exfalso; eapply Np; eauto|exfalso; eapply No; eauto|apply xf_mark_keeps|eapply keeps_trans; [apply xf_mark_keeps|apply xf_unmark_keeps]|apply xf_unmark_keeps|apply keeps_refl].
Qed.

(** One position of a range: its cell exists or is made, then set. *)
Lemma range_one_call calls w k p o w' : Forall typed calls -> document calls = Ok w -> u32 (fst p) -> u32 (snd p) -> range_step k o w p = Ok w' ->
  exists w0 fill, (fill = [] \/ fill = [KCell k (fst p) (snd p) UBlank None]) /\ document (calls ++ fill) = Ok w0 /\ keeps (wb_fs w) (wb_fs w0)
    /\ (forall k' r' c', xfat w0 k' r' c' = if here k' k r' (fst p) c' (snd p) then match xfat w k (fst p) (snd p) with None => Some 15 | i => i end else xfat w k' r' c')
    /\ api_call w0 (KCellOp k (fst p) (snd p) o) = Ok w'.
Proof.
  intros T D Hr Hc H. unfold range_step in H. apply bind_ok in H. destruct H as (w0 & Hb & Ho). pose proof (mn_inv _ _ (run_means _ _ T D)) as I.
  destruct (blank_xfat _ _ _ _ _ I Hr Hc Hb) as [_ B]. exists w0. unfold find_or_blank in Hb. destruct (nth_error (wb_sheets w) k) as [s|]; [|discriminate Hb].
  destruct (find_cell s (fst p) (snd p)).
  - apply ok_inj in Hb. subst w0. exists []. rewrite app_nil_r. split; [auto|]. split; [exact D|]. split; [apply keeps_refl|]. split; [exact B|exact Ho].
  - exists [KCell k (fst p) (snd p) UBlank None]. split; [auto|]. assert (C : api_call w (KCell k (fst p) (snd p) UBlank None) = Ok w0) by exact Hb.
    split; [exact (document_step _ _ _ _ D C)|]. split; [|split; [exact B|exact Ho]].
    eapply (rsteps_keeps (KCell k (fst p) (snd p) UBlank None)); [intros a b []|intros o' []|]. apply (call_rsteps _ _ _ I); [|exact C]. cbn [typed val_typed]. auto.
Qed.
Lemma covered_more calls o more : covered calls o -> Forall args more -> (careful calls -> careful (calls ++ more)) -> covered (calls ++ more) o.
Proof. destruct o; cbn [covered]; auto. intros [C A] F M. split; [auto|]. apply Forall_app. auto. Qed.

Lemma range_looks k o l : op_args o -> Forall (fun p => u32 (fst p) /\ u32 (snd p)) l -> NoDup l ->
  forall calls w w', Forall typed calls -> document calls = Ok w -> covered calls o -> fold_res (range_step k o) l w = Ok w' ->
  keeps (wb_fs w) (wb_fs w')
  /\ (forall k' r c, k' <> k \/ mem r c l = false -> xfat w' k' r c = xfat w k' r c)
  /\ (Forall args calls -> few (wb_fs w') -> forall r c lk, mem r c l = true ->
      xlook (wb_fs w) (match xfat w k r c with Some p => p | None => 15 end) = Some lk -> exists q, xfat w' k r c = Some q /\ styled (wb_fs w') o lk q).
Proof.
  intros Ao F N. induction l as [|p l IH]; intros calls w w' T D C H; cbn [fold_res] in H.
  - apply ok_inj in H. subst w'. split; [apply keeps_refl|]. split; [auto|]. intros _ _ r c lk M. discriminate M.
  - inversion F as [|? ? [Fr Fc] Fl]; subst. inversion N as [|? ? Np Nl]; subst. apply bind_ok in H. destruct H as (w1 & H1 & H2).
    destruct (range_one_call _ _ _ _ _ _ T D Fr Fc H1) as (w0 & fill & Ef & D0 & K0 & B & Ho).
    assert (T0 : Forall typed (calls ++ fill)).
    { apply Forall_app. split; [exact T|]. destruct Ef as [->| ->]; [constructor|]. constructor; [cbn [typed val_typed]; auto|constructor]. }
    assert (A0 : Forall args fill) by (destruct Ef as [->| ->]; repeat constructor).
    assert (C0 : covered (calls ++ fill) o).
    { apply covered_more; auto. intro Cc. destruct Ef as [->| ->]; [rewrite app_nil_r; exact Cc|]. apply careful_snoc; [exact Cc|exact I]. }
    assert (D1 : document ((calls ++ fill) ++ [KCellOp k (fst p) (snd p) o]) = Ok w1) by exact (document_step _ _ _ _ D0 Ho).
    assert (T1 : Forall typed ((calls ++ fill) ++ [KCellOp k (fst p) (snd p) o])) by (apply Forall_app; split; [exact T0|repeat constructor]).
    assert (C1 : covered ((calls ++ fill) ++ [KCellOp k (fst p) (snd p) o]) o).
    { destruct o; try exact I. apply covered_more; [exact C0|constructor; [exact Ao|constructor]|]. intro Cc. apply careful_snoc; [exact Cc|exact I]. }
    destruct (IH Fl Nl _ _ _ T1 D1 C1 H2) as (K2 & X2 & S2). clear IH.
    pose proof (mn_inv _ _ (run_means _ _ T0 D0)) as I0. pose proof (mn_inv _ _ (run_means _ _ T1 D1)) as I1. cbn [api_call] in Ho.
    destruct (cellop_xfat _ _ _ _ _ _ I0 Ho) as (x & q & X & Ca & Xa).
    pose proof (covered_keeps _ _ _ _ _ _ _ _ _ T0 D0 C0 X Ca) as K1.
    assert (Mp : forall r c, mem r c (p :: l) = ((fst p =? r) && (snd p =? c) || mem r c l)%bool) by reflexivity.
    assert (Nm : mem (fst p) (snd p) l = false).
    { apply Bool.not_true_iff_false. unfold mem. intro K. apply existsb_exists in K. destruct K as (p' & J & K). apply Np. replace p with p'; [exact J|].
      destruct p, p'. cbn in *. f_equal; lia. }
    assert (Out : forall k' r c, here k' k r (fst p) c (snd p) = false -> xfat w1 k' r c = xfat w k' r c) by (intros k' r c E; rewrite Xa, E, B, E; reflexivity).
    split; [eapply keeps_trans; [exact K0|]; eapply keeps_trans; [exact K1|exact K2]|]. split.
    + intros k' r c E. rewrite Mp in E. rewrite X2 by (destruct E as [E|E]; [auto|right; apply orb_false_iff in E; tauto]). apply Out. unfold here. destruct E as [E|E]; lia.
    + intros A Fw r c lk M L. rewrite Mp in M. destruct ((fst p =? r) && (snd p =? c))%bool eqn:Ep.
      * assert (r = fst p) by lia. assert (c = snd p) by lia. subst r c. clear Ep M. rewrite X2 by (right; exact Nm).
        assert (Hh : here k k (fst p) (fst p) (snd p) (snd p) = true) by (unfold here; rewrite !Z.eqb_refl, Nat.eqb_refl; reflexivity).
        rewrite B, Hh in X. rewrite Xa, Hh. exists q. split; [reflexivity|].
        apply (styled_keeps (wb_fs w1)); [exact K2|].
        assert (F1 : few (wb_fs w1)).
        { eapply few_back; [|exact Fw]. eapply rsteps_grows. apply (range_rsteps k 0 0 0 0 o l w1 w' I1 Fl H2). }
        refine (covered_styled _ _ _ _ _ _ _ _ _ _ T0 _ D0 C0 Ao F1 _ Ca _); [apply Forall_app; auto| |].
        -- rewrite B, Hh. exact X.
        -- replace x with (match xfat w k (fst p) (snd p) with Some p => p | None => 15 end); [eapply xlook_keeps; eauto|]. destruct (xfat w k (fst p) (snd p)); congruence.
      * cbn [orb] in M. assert (A2 : Forall args ((calls ++ fill) ++ [KCellOp k (fst p) (snd p) o])) by (apply Forall_app; split; [apply Forall_app; auto|constructor; [exact Ao|constructor]]).
        apply (S2 A2 Fw r c lk M).
        rewrite (Out k r c) by (unfold here; lia). eapply xlook_keeps; [|exact L]. eapply keeps_trans; eauto.
Qed.
