(** Careful histories keep the usage counters of fonts right. *)
From Coq Require Import ZArith List Bool Lia ZifyBool ZifyNat Permutation.
From Verif Require Import Bytes UnitModel RecModel SheetModel XfModel WbModel XfInv Looks ApiModel ApiInv SpecApi ApiEff XfTrace SpecXfOps PropsXf SpecLook LookInv RefTrace LookStep FontUse.
Import ListNotations.
Local Open Scope Z_scope.

Lemma attach_or q i : args q -> attaches q i -> i = 15 \/ hands q i.
Proof. intro A. destruct q; cbn [attaches hands]; try contradiction; auto. destruct p; cbn [cell_xf]; intros ->; auto. Qed.
Definition nofont (fs : fstate) (j : Z) : Prop := forall x, xf_at fs j = Some x -> x_font x = None.
Lemma uses_15 fs R new : uses fs R new None -> uses (xf_mark fs 15) R new None.
Proof.
  intro U. unfold xf_mark. apply (uses_at fs 15 _ R new None R new U); auto.
  - intros x Ex. split; [destruct x; reflexivity|]. change (15 <? 21) with true. cbv iota. pose proof (us_dxf _ _ _ _ U 15 x ltac:(lia) Ex).
    change (x_use (with_use (use_up (x_use x)) x)) with (x_use x + 1). lia.
  - intros J. exact (us_ref _ _ _ _ U _ J).
  - intros x i Ex _. pose proof (us_dxf _ _ _ _ U 15 x ltac:(lia) Ex). pose proof (cnt_pos R 15). change (x_use (with_use (use_up (x_use x)) x)) with (x_use x + 1).
    unfold b2z. destruct (mem 15 new), (0 <? x_use x + 1) eqn:E1, (0 <? x_use x) eqn:E2; lia.
Qed.
(** [new] only matters as a set, and may lose elements. *)
Lemma uses_less fs R new new' E : (forall p, In p new' -> In p new) -> uses fs R new E -> uses fs R new' E.
Proof.
  intros S [A B C D T F H]. constructor; auto. intros n i d Ed. specialize (H n i d Ed).
  assert (total (relies fs new' i) n <= total (relies fs new i) n); [|lia]. apply total_mono. intro j. unfold relies. destruct (xf_at fs j) as [x|]; [|lia].
  destruct (is_font (x_font x) i); [|lia]. unfold b2z. destruct (mem j new') eqn:M; [|destruct (mem j new); lia].
  apply mem_in in M. apply S in M. apply mem_in in M. rewrite M. lia.
Qed.
Lemma uses_new fs R new p x : xf_at fs p = Some x -> x_font x = None -> 21 <= p -> uses fs R new None -> uses fs R (p :: new) None.
Proof.
  intros Ex Nf L [A B C D T F H]. constructor; auto.
  - intros j [<-|J]; [split; [exact L|congruence]|auto].
  - intros n i d Ed. specialize (H n i d Ed). erewrite total_same; [exact H|]. intro j. unfold relies. destruct (Z.eq_dec j p) as [->|N].
    + rewrite Ex, Nf. reflexivity.
    + destruct (xf_at fs j); [|reflexivity]. replace (mem j (p :: new)) with (mem j new); [reflexivity|]. unfold mem. cbn [existsb]. replace (j =? p) with false by lia. reflexivity.
Qed.

Definition attaching (q : call) (fs : fstate) (R new : list Z) : Prop :=
  (forall i, attaches q i -> attachable fs R new i)
  /\ forall j, op_in q (CSetXF (Some j)) -> if match q with KCellOp _ _ _ _ => true | _ => false end then attachable fs R new j else nofont fs j.
Lemma nofont_keeps a b j : keeps a b -> valid a j -> nofont a j -> nofont b j.
Proof.
  intros K V N y Ey. unfold valid in V. destruct (xf_at a j) as [x|] eqn:Ex; [|congruence]. destruct (kp_xf _ _ K _ _ Ex) as (z & Ez & Cz).
  rewrite Ey in Ez. injection Ez as <-. rewrite (core_font _ _ Cz). apply N. exact Ex.
Qed.
Lemma nofont_core a b j : (forall y, xf_at b j = Some y -> exists x, xf_at a j = Some x /\ x_font x = x_font y) -> nofont a j -> nofont b j.
Proof. intros H N y Ey. destruct (H y Ey) as (x & Ex & <-). exact (N x Ex). Qed.
Lemma mark_font fs i j y : xf_at (xf_mark fs i) j = Some y -> exists x, xf_at fs j = Some x /\ x_font x = x_font y.
Proof. unfold xf_mark. rewrite xf_at_upd_all. destruct (i =? j); [|eauto]. destruct (xf_at fs j) as [x|]; [|discriminate]. cbn [option_map]. intro H. injection H as <-. exists x. split; [reflexivity|destruct x; reflexivity]. Qed.
Lemma unmark_font fs i j y : xf_at (xf_unmark fs i) j = Some y -> exists x, xf_at fs j = Some x /\ x_font x = x_font y.
Proof.
  unfold xf_unmark. destruct (xf_at fs i) as [z|] eqn:Ez; [|eauto]. cbv zeta. intro H.
  assert (K : xf_at (xf_upd fs i (with_use (use_down (x_use z)))) j = Some y).
  { destruct (use_down (x_use z) =? 0); [|exact H]. unfold fmt_unmark in H. destruct (x_format z); [rewrite xf_at_fmt_upd in H|]; rewrite xf_at_funmark in H; exact H. }
  rewrite xf_at_upd_all in K. destruct (i =? j); [|eauto]. destruct (xf_at fs j) as [x|]; [|discriminate K]. cbn [option_map] in K. injection K as <-. exists x. split; [reflexivity|destruct x; reflexivity].
Qed.
Lemma attachable_font a b R new R' new' j : (forall y, xf_at b j = Some y -> exists x, xf_at a j = Some x /\ x_font x = x_font y) ->
  (In j R -> In j R') -> (In j new -> In j new') -> attachable a R new j -> attachable b R' new' j.
Proof. intros H I1 I2 [J|[J|[J|J]]]; unfold attachable; auto. right; right; right. eapply nofont_core; eauto. Qed.

Lemma rstep_uses q fs R fs' R' new : args q -> (forall a b, ~ own q a b) -> ~ is_row q -> rstep q fs R fs' R' ->
  uses fs R new None -> attaching q fs R new ->
  exists new', uses fs' R' new' None /\ attaching q fs' R' new' /\ (forall p, In p new' -> In p new) /\ (forall p, In p new -> ~ hands q p -> In p new').
Proof.
  intros A No Nr H U [At Op]. pose proof (us_new _ _ _ _ U) as N21. destruct H.
  - exists (drop i new). split; [apply uses_mark; auto|]. split; [split|split].
    + intros j J. destruct (Z.eq_dec j i) as [->|N]; [left; left; reflexivity|]. eapply attachable_font; [apply mark_font|right; exact H1| |apply At; exact J]. intro K. apply drop_in. auto.
    + intros j J. specialize (Op j J). destruct q; try contradiction J; cbn [attaches] in H; try contradiction H. eapply nofont_core; [apply mark_font|exact Op].
    + intros p J. apply drop_in in J. tauto.
    + intros p J Nh. apply drop_in. split; [exact J|]. intros ->. destruct (attach_or _ _ A H) as [->|K]; [|contradiction]. destruct (N21 _ J). lia.
  - exists new. split; [apply uses_unmark; exact U|]. split; [split|split]; auto.
    + intros j J. left. auto.
    + intros j J. specialize (Op j J). destruct q; try contradiction J; [exfalso; apply H0; exact I|]. eapply nofont_core; [apply unmark_font|exact Op].
  - assert (Gen : forall newx, uses fs' (x :: R) newx None -> (forall p, In p newx -> In p new) -> (forall p, In p new -> ~ hands q p -> In p newx) ->
       (forall j, op_in q (CSetXF (Some j)) -> if match q with KCellOp _ _ _ _ => true | _ => false end then attachable fs' (x :: R) newx j else nofont fs' j) ->
       exists new', uses fs' (x :: R) new' None /\ attaching q fs' (x :: R) new' /\ (forall p, In p new' -> In p new) /\ (forall p, In p new -> ~ hands q p -> In p new')).
    { intros newx Ux S1 S2 Oq. exists newx. split; [exact Ux|]. split; [split; [|exact Oq]|auto]. intros i J. right. left. destruct q; cbn [op_in attaches] in *; try contradiction. lia. }
    assert (Oo : forall o', op_in q o' -> o' = o) by (intros o' J; destruct q; cbn [op_in] in *; try contradiction; congruence).
    destruct o as [o|o|[j|]]; cbn [cellop_apply] in H1.
    + apply (Gen new); auto; [eapply uses_cell_format; eauto|]. intros j J. apply Oo in J. discriminate J.
    + apply (Gen new); auto; [eapply uses_cell_font; eauto|]. intros j J. apply Oo in J. discriminate J.
    + destruct (xf_valid fs (Some j)) eqn:Ev; [|discriminate H1]. apply ok_pair in H1. destruct H1 as [<- <-].
      pose proof (xf_valid_spec _ _ Ev _ eq_refl) as Vj. specialize (Op j H).
      assert (Aj : attachable fs (p :: R) new j) by (destruct q; cbn [op_in] in H; try contradiction; [exact Op|right; right; right; exact Op]).
      apply (Gen (drop j new)).
      * apply uses_unmark. eapply uses_perm; [apply perm_swap|]. apply uses_mark; auto.
      * intros z J. apply drop_in in J. tauto.
      * intros z J Nh. apply drop_in. split; [exact J|]. intros ->. apply Nh. destruct q; cbn [op_in] in H; try contradiction; rewrite <- H; reflexivity.
      * intros z J. apply Oo in J. injection J as ->. destruct q; cbn [op_in] in H; try contradiction; [left; left; reflexivity|].
        eapply nofont_core; [apply unmark_font|]. eapply nofont_core; [apply mark_font|]. exact Op.
    + destruct (xf_valid fs None); [|discriminate H1]. apply ok_pair in H1. destruct H1 as [<- <-]. apply (Gen new); auto.
  - exfalso. exact (No _ _ H).
  - exists new. split; [apply uses_15; exact U|]. split; [split|auto].
    + intros j J. eapply attachable_font; [apply mark_font| | |apply At; exact J]; auto.
    + intros j J. specialize (Op j J). destruct q; try contradiction J; [eapply attachable_font; [apply mark_font| | |exact Op]; auto|eapply nofont_core; [apply mark_font|exact Op]].
  - exists (drop 15 new). assert (D : forall p, In p new -> In p (drop 15 new)) by (intros p J; apply drop_in; split; [exact J|]; destruct (N21 _ J); lia).
    split.
    { destruct (xf_at fs 15) eqn:E15.
      - apply uses_unmark. apply uses_mark; [unfold valid; congruence|right; left; lia|exact U].
      - assert (E1 : xf_mark fs 15 = fs) by (unfold xf_mark, xf_upd; rewrite E15; reflexivity). rewrite E1. assert (E2 : xf_unmark fs 15 = fs) by (unfold xf_unmark; rewrite E15; reflexivity). rewrite E2.
        eapply uses_less; [|exact U]. intros p J. apply drop_in in J. tauto. }
    assert (X : forall j y, xf_at (xf_unmark (xf_mark fs 15) 15) j = Some y -> exists x, xf_at fs j = Some x /\ x_font x = x_font y).
    { intros j y Hy. apply unmark_font in Hy. destruct Hy as (z & Hz & <-). apply mark_font in Hz. exact Hz. }
    split; [split|split].
    + intros j J. eapply attachable_font; [apply X| | |apply At; exact J]; auto.
    + intros j J. specialize (Op j J). destruct q; try contradiction J; [eapply attachable_font; [apply X| | |exact Op]; auto|eapply nofont_core; [apply X|exact Op]].
    + intros p J. apply drop_in in J. tauto.
    + auto.
  - contradiction.
  - exists new. split; [eapply uses_perm; eauto|]. split; [split|auto].
    + intros j J. eapply attachable_font; [eauto| | |apply At; exact J]; auto. intro K. eapply Permutation_in; eauto.
    + intros j J. specialize (Op j J). destruct q; try contradiction J; [|exact Op]. eapply attachable_font; [eauto| | |exact Op]; auto. intro K. eapply Permutation_in; eauto.
Qed.
Lemma rsteps_uses q fs R fs' R' : args q -> (forall a b, ~ own q a b) -> ~ is_row q -> rsteps q fs R fs' R' -> forall new,
  uses fs R new None -> attaching q fs R new ->
  exists new', uses fs' R' new' None /\ (forall p, In p new' -> In p new) /\ (forall p, In p new -> ~ hands q p -> In p new').
Proof.
  intros A No Nr. induction 1; intros new U At; [exists new; auto|].
  destruct (rstep_uses _ _ _ _ _ new A No Nr H U At) as (n1 & U1 & At1 & S1 & T1). destruct (IHrsteps n1 U1 At1) as (n2 & U2 & S2 & T2).
  exists n2. split; [exact U2|]. split; auto.
Qed.

(** xformat makes a new format object. *)
Local Strategy 1000 [wb_xformat xf_user xf_zero].
Lemma zero_font : x_font xf_zero = None /\ x_use xf_zero = 0.
Proof. split; reflexivity. Qed.
Lemma uses_xformat fs f m fs' p R new : wb_xformat fs f m = Ok (fs', p) -> uses fs R new None -> p = 21 + zlen (fs_xfs fs) /\ uses fs' R (p :: new) None.
Proof.
  intros H U. rewrite wb_xformat_eq in H. cbv zeta in H.
  apply bind_ok in H. destruct H as (fs2 & H2 & H). apply bind_ok in H. destruct H as (fs3 & H3 & H). apply ok_pair in H. destruct H as [-> <-]. split; [reflexivity|].
  destruct zero_font as [Zf Zu]. pose proof (zlen_nonneg _ (fs_xfs fs)) as Zl.
  assert (NN : ~ In (21 + zlen (fs_xfs fs)) R).
  { intro J. pose proof (us_ref _ _ _ _ U _ J) as N. destruct (xf_at fs _) as [y|] eqn:Ey; [|congruence]. apply xf_at_bound in Ey. lia. }
  assert (U1 : uses (fst (add_xf fs xf_zero)) R ((21 + zlen (fs_xfs fs)) :: new) None).
  { apply (uses_new _ _ _ _ xf_zero); [rewrite xf_at_add, Z.eqb_refl; reflexivity|exact Zf|lia|]. apply uses_add; auto. }
  assert (U2 : uses fs2 R ((21 + zlen (fs_xfs fs)) :: new) None).
  { destruct f as [f|]; [|apply ok_inj in H2; rewrite <- H2; exact U1]. eapply uses_xf_user; [exact H2|lia|exact U1|]. cbn [In]. tauto. }
  destruct m as [m|]; [|apply ok_inj in H3; rewrite <- H3; exact U2]. eapply uses_xf_user; [exact H3|lia|exact U2|exact I].
Qed.
(** The start. *)
Lemma total_S f n : total f (S n) = total f n + f (Z.of_nat n).
Proof. reflexivity. Qed.
Lemma init_uses fs : fstate_init = Ok fs -> uses fs [] [] None.
Proof.
  intro H. assert (B : match fstate_init with
     | Ok g => (Nat.eqb (length (fs_dxfs g)) 21 && Nat.eqb (length (fs_xfs g)) 0 && Nat.eqb (length (fs_dfonts g)) 5 && Nat.eqb (length (fs_fonts g)) 0
         && forallb (fun x => (2 <=? x_use x) && match x_font x with Some i => match font_at g i with Some _ => true | None => false end | None => true end)%bool (fs_dxfs g)
         && forallb (fun i => match font_at g i with Some d => total (relies g [] i) 21 <=? fo_use d | None => true end) [0;1;2;3;4;5])%bool
     | _ => false end = true) by (vm_compute; reflexivity).
  rewrite H in B. repeat (apply andb_prop in B; destruct B as [B ?]). apply Nat.eqb_eq in B, H3, H4, H2.
  rewrite forallb_forall in H0, H1.
  assert (X : forall j x, xf_at fs j = Some x -> 0 <= j < 21 /\ In x (fs_dxfs fs)).
  { intros j x. unfold xf_at. destruct (j <? 0) eqn:J0; [discriminate|]. destruct (j <? 21) eqn:J1; [intro E; split; [lia|eapply nth_error_In; exact E]|].
    destruct (fs_xfs fs); [|discriminate H4]. destruct (Z.to_nat (j - 21)); discriminate. }
  constructor.
  - intros j x L E. apply X in E. lia.
  - intros j x L E. apply X in E. destruct E as [_ E]. specialize (H1 x E). unfold cnt. cbn [count_occ]. lia.
  - intros j [].
  - intros j x i E Ei. apply X in E. destruct E as [_ E]. specialize (H1 x E). rewrite Ei in H1. apply andb_prop in H1. destruct H1 as [_ H1]. destruct (font_at fs i); [discriminate|discriminate H1].
  - discriminate.
  - intros j [].
  - intros n i d Ed. cbn [is_font b2z].
    assert (Hi : In i [0;1;2;3;4;5]).
    { pose proof (font_at_bound _ _ _ Ed) as Bi. assert (Z0 : zlen (fs_fonts fs) = 0) by (unfold zlen; rewrite H2; reflexivity). rewrite Z0 in Bi.
      assert (C : i = 0 \/ i = 1 \/ i = 2 \/ i = 3 \/ i = 4 \/ i = 5) by lia. cbn [In]. intuition congruence. }
    specialize (H0 i Hi). cbv beta in H0. rewrite Ed in H0.
    assert (K : forall m, total (relies fs [] i) (21 + m) = total (relies fs [] i) 21).
    { induction m as [|m IH]; [reflexivity|]. rewrite Nat.add_succ_r, total_S, IH.
      replace (relies fs [] i (Z.of_nat (21 + m))) with 0; [lia|]. unfold relies. destruct (xf_at fs (Z.of_nat (21 + m))) as [x|] eqn:Ex; [|reflexivity]. apply X in Ex. lia. }
    pose proof (total_grow (relies fs [] i) n (21 + n) (relies_pos fs [] i) ltac:(lia)) as G. rewrite K in G. lia.
Qed.

(* ------------------------------------------------------------------ *)
(** * Documents *)

Definition hand (q : call) : option Z :=
  match q with
  | KCell _ _ _ _ o | KColwidth _ _ _ o | KRowheight _ _ _ o | KCellOp _ _ _ (CSetXF o) | KRange _ _ _ _ _ (CSetXF o) => o
  | _ => None
  end.
Lemma hand_hands q p : hands q p <-> hand q = Some p.
Proof. destruct q; cbn [hands hand]; try (split; [contradiction|discriminate]); try tauto; destruct o; try tauto; (split; [contradiction|discriminate]). Qed.
Lemma snoc_case {A} (a : list A) x b q l : l ++ [q] = a ++ x :: b -> (b = [] /\ x = q /\ a = l) \/ exists b', b = b' ++ [q] /\ l = a ++ x :: b'.
Proof.
  destruct b as [|y b' _] using rev_ind; intro H.
  - apply app_inj_tail in H. destruct H as [-> ->]. auto.
  - right. change (l ++ [q] = a ++ (x :: b') ++ [y]) in H. rewrite app_assoc in H. apply app_inj_tail in H. destruct H as [-> ->]. eauto.
Qed.
Lemma made_snoc calls q f p b : made (calls ++ [q]) f p b ->
  (exists m w fs, b = [] /\ q = KXformat f m /\ document calls = Ok w /\ wb_xformat (wb_fs w) f m = Ok (fs, p))
  \/ exists b', b = b' ++ [q] /\ made calls f p b'.
Proof.
  intros (a & m & w & fs & E & D & X). apply snoc_case in E. destruct E as [(-> & E & ->)|(b' & -> & ->)].
  - left. exists m, w, fs. auto.
  - right. exists b'. split; [reflexivity|]. exists a, m, w, fs. auto.
Qed.
Lemma made_more calls q f p b : made calls f p b -> made (calls ++ [q]) f p (b ++ [q]).
Proof. intros (a & m & w & fs & -> & D & X). exists a, m, w, fs. split; [rewrite <- app_assoc; reflexivity|auto]. Qed.
Lemma xformat_index fs f m fs' p : wb_xformat fs f m = Ok (fs', p) -> p = 21 + zlen (fs_xfs fs) /\ valid fs' p.
Proof.
  intro H. rewrite wb_xformat_eq in H. cbv zeta in H.
  apply bind_ok in H. destruct H as (fs2 & H2 & H). apply bind_ok in H. destruct H as (fs3 & H3 & H). apply ok_pair in H. destruct H as [-> <-]. split; [reflexivity|].
  assert (L2 : level (fst (add_xf fs xf_zero)) fs2) by (destruct f; [eapply xf_user_level; exact H2|apply ok_inj in H2; rewrite <- H2; apply level_refl]).
  assert (L3 : level fs2 fs') by (destruct m; [eapply xf_user_level; exact H3|apply ok_inj in H3; rewrite <- H3; apply level_refl]).
  apply (valid_level _ _ _ L3). apply (valid_level _ _ _ L2). unfold valid. rewrite xf_at_add, Z.eqb_refl. discriminate.
Qed.
Lemma call_xformat w f m w' : api_call w (KXformat f m) = Ok w' -> exists p, wb_xformat (wb_fs w) f m = Ok (wb_fs w', p) /\ refs w' = refs w.
Proof.
  intro H. cbn [api_call] in H. apply bind_ok in H. destruct H as ([fs p] & H & E). apply ok_inj in E. subst w'. exists p. split; [exact H|reflexivity].
Qed.
Lemma new_invalid fs : ~ valid fs (21 + zlen (fs_xfs fs)).
Proof.
  unfold valid. pose proof (zlen_nonneg _ (fs_xfs fs)). destruct (xf_at fs _) as [y|] eqn:Ey; [|congruence]. apply xf_at_bound in Ey. lia.
Qed.
Lemma made_valid calls : forall w f p b, Forall typed calls -> document calls = Ok w -> made calls f p b -> 21 <= p /\ valid (wb_fs w) p.
Proof.
  induction calls as [|q calls IH] using rev_ind; intros w f p b T D M.
  - destruct M as (a & m & w0 & fs & E & _). destruct a; discriminate E.
  - apply Forall_app in T. destruct T as [T Tq]. inversion Tq as [|? ? Tq' _]; subst. destruct (document_snoc _ _ _ D) as (w0 & D0 & C).
    apply made_snoc in M. destruct M as [(m & w1 & fs & -> & -> & D1 & X)|(b' & -> & M)].
    + rewrite D0 in D1. apply ok_inj in D1. subst w1. destruct (call_xformat _ _ _ _ C) as (p' & X' & _). rewrite X in X'. apply ok_inj in X'. apply pair_equal_spec in X'. destruct X' as [-> <-].
      destruct (xformat_index _ _ _ _ _ X) as [-> V]. pose proof (zlen_nonneg _ (fs_xfs (wb_fs w0))). split; [lia|exact V].
    + destruct (IH w0 f p b' T D0 M) as [L V]. split; [exact L|]. eapply valid_grows; [eapply rsteps_grows; eapply call_rsteps; eauto; exact (mn_inv _ _ (run_means _ _ T D0))|exact V].
Qed.

(** Fonts of format objects stay. *)
Lemma rstep_nofont q fs R fs' R' j : (forall i, q <> KXfSet j (FFont (Some i))) -> rstep q fs R fs' R' -> valid fs j -> nofont fs j -> nofont fs' j.
Proof.
  intros Nq H V N. destruct H.
  - eapply nofont_core; [apply mark_font|exact N].
  - eapply nofont_core; [apply unmark_font|exact N].
  - destruct o as [o|o|[z|]]; cbn [cellop_apply] in H1.
    + eapply nofont_keeps; [apply (cell_format_keeps _ _ _ _ _ H1)|exact V|exact N].
    + apply cell_font_finish in H1. destruct H1 as (x0 & fs1 & t0 & fs2 & t & fs6 & y & i & Ex & Ed & C & Hf & _ & _ & S).
      destruct (dup_use _ _ _ _ Ed) as (_ & _ & X1).
      assert (X2 : forall i, xf_at fs2 i = xf_at fs1 i).
      { destruct C as [(d & _ & E)|(i' & d & _ & _ & _ & -> & _)]; [|reflexivity]. apply pair_equal_spec in E. destruct E as [-> _]. intro z. rewrite xf_at_fmark, xf_at_funmark. reflexivity. }
      assert (V2 : valid fs2 j) by (unfold valid; rewrite X2, X1; exact V).
      assert (N2 : nofont fs2 j) by (intros z; rewrite X2, X1; apply N).
      intros z. rewrite (xf_at_font_set _ _ _ _ j S). exact (nofont_keeps _ _ _ (proj1 (finish_keeps _ _ _ _ _ Hf)) V2 N2 z).
    + destruct (xf_valid fs (Some z)); [|discriminate H1]. apply ok_pair in H1. destruct H1 as [<- <-].
      eapply nofont_core; [apply unmark_font|]. eapply nofont_core; [apply mark_font|]. exact N.
    + destruct (xf_valid fs None); [|discriminate H1]. apply ok_pair in H1. destruct H1 as [<- <-]. exact N.
  - destruct q; cbn [own] in H; try contradiction.
    + subst fs'. exact N.
    + destruct H as (i & H). unfold wb_fontnum in H. destruct (nth_error _ _); [|discriminate H]. apply ok_inj in H. apply (f_equal fst) in H. cbn [fst] in H. subst fs'. exact N.
    + subst fs'. exact N.
    + destruct H as (i & H). intros y. rewrite wb_xformat_eq in H. cbv zeta in H.
      apply bind_ok in H. destruct H as (fs2 & H2 & H). apply bind_ok in H. destruct H as (fs3 & H3 & H). apply ok_pair in H. destruct H as [-> <-].
      assert (Us : forall a o b, xf_user a (21 + zlen (fs_xfs fs)) o = Ok b -> xf_at b j = xf_at a j).
      { intros a o b Hu. unfold xf_user in Hu. destruct (xf_at a _) as [z|]; [|discriminate Hu]. apply bind_ok in Hu. destruct Hu as ([a1 u] & Ha & Hu). apply ok_inj in Hu. subst b.
        rewrite xf_at_upd_all. replace (21 + zlen (fs_xfs fs) =? j) with false.
        2:{ symmetry. apply Z.eqb_neq. intros <-. exact (new_invalid _ V). }
        destruct o as [o|f'|[f'|]]; cbn [fmt_apply] in Ha.
        - apply bind_ok in Ha. destruct Ha as (? & _ & Ha). apply ok_pair in Ha. destruct Ha as [-> _]. reflexivity.
        - destruct (font_handle a f'); [|discriminate Ha]. apply ok_inj in Ha. apply (f_equal fst) in Ha. cbn [xf_set_font fst] in Ha. subst a1. rewrite xf_at_fmark, xf_at_funmark. reflexivity.
        - destruct (format_handle a f'); [|discriminate Ha]. apply ok_inj in Ha. destruct (set_format_use a z f') as (X & _). rewrite Ha in X. apply X.
        - apply ok_pair in Ha. destruct Ha as [-> _]. reflexivity. }
      assert (E2 : xf_at fs2 j = xf_at fs j).
      { assert (E1 : xf_at (fst (add_xf fs xf_zero)) j = xf_at fs j).
        { rewrite xf_at_add. replace (j =? 21 + zlen (fs_xfs fs)) with false; [reflexivity|]. symmetry. apply Z.eqb_neq. intros ->. exact (new_invalid _ V). }
        rewrite <- E1. destruct fnt; [eapply Us; exact H2|apply ok_inj in H2; rewrite <- H2; reflexivity]. }
      assert (E3 : xf_at fs' j = xf_at fs2 j) by (destruct fmt; [eapply Us; exact H3|apply ok_inj in H3; rewrite <- H3; reflexivity]).
      rewrite E3, E2. apply N.
    + unfold xf_user in H. destruct (xf_at fs p) as [x|] eqn:Ex; [|discriminate H]. apply bind_ok in H. destruct H as ([fs1 y] & Ha & H). apply ok_inj in H. subst fs'.
      assert (G : (forall i, xf_at fs1 i = xf_at fs i) /\ (p = j -> x_font y = None)).
      { destruct o as [o|f'|[f'|]]; cbn [fmt_apply] in Ha.
        - apply bind_ok in Ha. destruct Ha as (z & Ha & Hb). apply ok_pair in Hb. destruct Hb as [-> ->]. split; [reflexivity|]. intros ->. rewrite (proj1 (xf_apply_use _ _ _ Ha)). apply N. exact Ex.
        - destruct (font_handle fs f'); [|discriminate Ha]. apply ok_inj in Ha. pose proof (f_equal fst Ha) as Ha1. pose proof (f_equal snd Ha) as Ha2. cbn [xf_set_font fst snd] in Ha1, Ha2. subst fs1 y.
          split; [intro i; rewrite xf_at_fmark, xf_at_funmark; reflexivity|]. intros ->. destruct f' as [i|]; [exfalso; exact (Nq i eq_refl)|destruct x; reflexivity].
        - destruct (format_handle fs f'); [|discriminate Ha]. apply ok_inj in Ha. destruct (set_format_use fs x f') as (X & _ & E1 & _). rewrite Ha in X, E1. cbn [fst snd] in *. split; [exact X|].
          intros ->. rewrite E1. apply N. exact Ex.
        - apply ok_pair in Ha. destruct Ha as [-> ->]. split; [reflexivity|]. intros ->. apply N. exact Ex. }
      destruct G as [G1 G2]. intros z. rewrite xf_at_upd_all, G1. destruct (p =? j) eqn:Q; [|apply N]. destruct (xf_at fs j); [|discriminate]. cbn [option_map]. intro K. injection K as <-. apply G2. lia.
    + intros y. rewrite (xf_at_font_set _ _ _ _ j H). apply N.
  - eapply nofont_core; [apply mark_font|exact N].
  - eapply nofont_core; [apply unmark_font|]. eapply nofont_core; [apply mark_font|exact N].
  - eapply nofont_core; [apply unmark_font|exact N].
  - exact N.
Qed.
Lemma rsteps_nofont q fs R fs' R' j : (forall i, q <> KXfSet j (FFont (Some i))) -> rsteps q fs R fs' R' -> valid fs j -> nofont fs j -> nofont fs' j.
Proof.
  intros Nq. induction 1; intros V N; [exact N|]. apply IHrsteps; [eapply valid_grows; [eapply rstep_grows; eassumption|exact V]|eapply rstep_nofont; eauto].
Qed.
Lemma without_nofont calls : forall w p, Forall typed calls -> document calls = Ok w -> without_font calls p -> nofont (wb_fs w) p.
Proof.
  induction calls as [|q calls IH] using rev_ind; intros w p T D (f & b & M & F & S).
  - destruct M as (a & m & w0 & fs & E & _). destruct a; discriminate E.
  - pose proof T as T'. apply Forall_app in T. destruct T as [T Tq]. inversion Tq as [|? ? Tq' _]; subst. destruct (document_snoc _ _ _ D) as (w0 & D0 & C).
    apply made_snoc in M. destruct M as [(m & w1 & fs & -> & -> & D1 & X)|(b' & -> & M)].
    + rewrite D0 in D1. apply ok_inj in D1. subst w1. destruct (call_xformat _ _ _ _ C) as (p' & X' & _). rewrite X in X'. apply ok_inj in X'. apply pair_equal_spec in X'. destruct X' as [-> <-].
      rewrite wb_xformat_eq in X. cbv zeta in X. apply bind_ok in X. destruct X as (fs2 & H2 & H). apply bind_ok in H. destruct H as (fs3 & H3 & H). apply ok_pair in H. destruct H as [-> <-].
      set (P := 21 + zlen (fs_xfs (wb_fs w0))) in *.
      assert (N1 : nofont (fst (add_xf (wb_fs w0) xf_zero)) P /\ valid (fst (add_xf (wb_fs w0) xf_zero)) P).
      { unfold nofont, valid. rewrite xf_at_add. fold P. rewrite Z.eqb_refl. split; [|discriminate]. intros x K. injection K as <-. apply zero_font. }
      destruct N1 as [N1 V1].
      assert (N2 : nofont fs2 P /\ valid fs2 P).
      { destruct F as [->| ->]; [apply ok_inj in H2; rewrite <- H2; auto|].
        split; [|apply (valid_level _ _ _ (xf_user_level _ _ _ _ H2)); exact V1].
        eapply (rstep_nofont (KXfSet P (FFont None)) _ []); [intros i K; discriminate K|apply r_own; exact H2|exact V1|exact N1]. }
      destruct N2 as [N2 V2]. destruct m as [m|]; [|apply ok_inj in H3; rewrite <- H3; exact N2].
      eapply (rstep_nofont (KXfSet P (FFormat m)) _ []); [intros i K; discriminate K|apply r_own; exact H3|exact V2|exact N2].
    + apply Forall_app in S. destruct S as [S Sq]. inversion Sq as [|? ? Sq' _]; subst.
      eapply rsteps_nofont; [exact Sq'|eapply call_rsteps; eauto; exact (mn_inv _ _ (run_means _ _ T D0))|exact (proj2 (made_valid calls w0 f p b' T D0 M))|].
      apply (IH w0 p T D0). exists f, b'. auto.
Qed.

(** Row heights without format. *)
Definition rows_plain (w : wb) : Prop := Forall (fun s => Forall (fun h => rh_xf h = None) (sh_heights s)) (wb_sheets w).
Lemma rh_put_plain x l : rh_xf x = None -> Forall (fun h => rh_xf h = None) l -> Forall (fun h => rh_xf h = None) (rh_put x l).
Proof.
  intros E. induction 1 as [|y t Hy Ht IH]; cbn [rh_put]; [auto|]. destruct (_ <? _); [auto|]. destruct (_ <? _); auto.
Qed.
Lemma doc_rows calls w : Forall typed calls -> document calls = Ok w -> Forall (fun q => match q with KRowheight _ _ _ p => p = None | _ => True end) calls -> rows_plain w.
Proof.
  intros T D F. apply Forall_forall. intros s J. apply In_nth_error in J. destruct J as [k E]. pose proof (me_heights _ _ _ (mn_sheet _ _ (run_means _ _ T D) k s E)) as H. rewrite H.
  clear - F. induction calls as [|q calls IH] using rev_ind; [constructor|]. apply Forall_app in F. destruct F as [F Fq]. inversion Fq as [|? ? Fq' _]; subst. rewrite fold_left_app. cbn [fold_left].
  destruct q; cbn [rows_step]; auto. destruct (Nat.eqb k k0); auto. apply rh_put_plain; [exact Fq'|auto].
Qed.
Lemma row_refs_plain l : Forall (fun h => rh_xf h = None) l -> row_refs l = [].
Proof. induction 1 as [|y t Hy Ht IH]; [reflexivity|]. unfold row_refs in *. cbn [flat_map]. rewrite Hy, IH. reflexivity. Qed.
Lemma rowheight_plain w k r h w' : rows_plain w -> api_rowheight w k r h None = Ok w' -> wb_fs w' = wb_fs w /\ refs w' = refs w.
Proof.
  intros P H. apply on_sheet_inv in H. destruct H as (s & w1 & s1 & E & H & ->). cbn [xf_valid negb] in H. apply ok_pair in H. destruct H as [Hw Hs].
  unfold rows_plain in P. rewrite Forall_forall in P. pose proof (P s (nth_error_In _ _ E)) as Ps.
  split.
  - rewrite <- Hw. cbn [up_sheets up_fs wb_fs mark_opt]. destruct (find _ (sh_heights s)) as [x|] eqn:Ex; [|reflexivity]. apply find_some in Ex. rewrite Forall_forall in Ps. rewrite (Ps x (proj1 Ex)). reflexivity.
  - unfold refs. cbn [up_sheets wb_sheets].
    assert (S : sheet_refs s1 = sheet_refs s).
    { rewrite <- Hs. unfold sheet_refs, sheet_rowheight. cbn [set_heights sh_cells sh_cols sh_heights]. rewrite (row_refs_plain _ Ps), (row_refs_plain (rh_put _ _)); [reflexivity|]. apply rh_put_plain; [reflexivity|exact Ps]. }
    destruct (nth_split_upd k _ s s1 E) as (a & b & -> & _ & ->). rewrite !flat_map_app. cbn [flat_map]. rewrite S. reflexivity.
Qed.
Lemma shown_handed k r c calls p : fmt_of k calls r c = Known p -> p = 15 \/ Exists (fun q => hands q p) calls.
Proof.
  unfold fmt_of. assert (G : forall calls f, (forall p, f = Known p -> p = 15) -> forall p, fold_left (fmt_step k r c) calls f = Known p -> p = 15 \/ Exists (fun q => hands q p) calls).
  { clear. induction calls as [|q calls IH] using rev_ind; intros f Hf p H; [left; auto|]. rewrite fold_left_app in H. cbn [fold_left] in H.
    assert (Old : forall p, fold_left (fmt_step k r c) calls f = Known p -> p = 15 \/ Exists (fun q => hands q p) (calls ++ [q])).
    { intros p' H'. destruct (IH f Hf p' H') as [J|J]; [auto|]. right. apply Exists_app. auto. }
    assert (Last : hands q p -> p = 15 \/ Exists (fun q => hands q p) (calls ++ [q])) by (intro J; right; apply Exists_app; right; constructor; exact J).
    destruct q; cbn [fmt_step] in H; try (exact (Old _ H)).
    - destruct (_ && _)%bool; [|exact (Old _ H)]. injection H as <-. destruct p0; cbn [SpecApi.given] in *; [apply Last; reflexivity|auto].
    - destruct (_ && _)%bool; [|exact (Old _ H)]. destruct o as [o|o|[j|]]; cbn [after_op] in H; try (destruct (fold_left _ _ _); discriminate H); try discriminate H.
      + destruct (fold_left (fmt_step k r c) calls f) eqn:Q; try discriminate H; injection H as <-; apply Last; reflexivity.
      + apply Old. destruct (fold_left (fmt_step k r c) calls f); congruence.
    - destruct (_ && _)%bool; [|exact (Old _ H)]. destruct o as [o|o|[j|]]; cbn [after_op] in H; try (destruct (fold_left _ _ _); discriminate H); try discriminate H.
      + destruct (fold_left (fmt_step k r c) calls f) eqn:Q; try discriminate H; injection H as <-; apply Last; reflexivity.
      + destruct (fold_left (fmt_step k r c) calls f) eqn:Q; [injection H as <-; auto|apply Old; congruence|discriminate H]. }
  apply G. discriminate.
Qed.

(** References after a call that neither sets cells nor hands out [p]. *)
Lemma rstep_outside q fs R fs' R' p : 21 <= p -> ~ hands q p -> match q with KCellOp _ _ _ _ | KRange _ _ _ _ _ _ => False | _ => True end ->
  args q -> rstep q fs R fs' R' -> ~ In p R -> ~ In p R'.
Proof.
  intros L Nh Nq A H N. destruct H; auto.
  - intros [->|J]; [|auto]. destruct (attach_or _ _ A H) as [->|K]; [lia|auto].
  - intro J. apply N. right. exact J.
  - destruct q; cbn [op_in] in *; contradiction.
  - intro J. apply N. eapply Permutation_in; [symmetry; eassumption|exact J].
Qed.
Lemma rsteps_outside q fs R fs' R' p : 21 <= p -> ~ hands q p -> match q with KCellOp _ _ _ _ | KRange _ _ _ _ _ _ => False | _ => True end ->
  args q -> rsteps q fs R fs' R' -> ~ In p R -> ~ In p R'.
Proof. intros L Nh Nq A. induction 1; [auto|]. intro N. apply IHrsteps. eapply rstep_outside; eauto. Qed.

Lemma careful_prefix calls q : careful (calls ++ [q]) -> careful calls /\ careful_call calls q.
Proof.
  intro C. split; [|exact (C calls q [] eq_refl)]. intros a x b ->. apply (C a x (b ++ [q])). rewrite <- app_assoc. reflexivity.
Qed.
Lemma fresh_snoc calls q p : (forall f m, q <> KXformat f m) -> (fresh (calls ++ [q]) p <-> fresh calls p /\ ~ hands q p).
Proof.
  intro Nx. split.
  - intros ((f & b & M) & F). apply Forall_app in F. destruct F as [F Fq]. inversion Fq; subst. split; [|assumption]. split; [|exact F].
    apply made_snoc in M. destruct M as [(m & w & fs & _ & -> & _)|(b' & _ & M)]; [exfalso; exact (Nx f m eq_refl)|eauto].
  - intros [((f & b & M) & F) Nh]. split; [exists f, (b ++ [q]); apply made_more; exact M|]. apply Forall_app. auto.
Qed.

Record sound (calls : list call) (w : wb) (new : list Z) : Prop := {
  sd_uses : uses (wb_fs w) (refs w) new None;
  sd_new : forall p, In p new <-> fresh calls p;
  sd_handed : forall p, Exists (fun q => hands q p) calls -> valid (wb_fs w) p;
  sd_untouched : forall p, untouched calls p -> fresh calls p /\ ~ In p (refs w) }.

Lemma shown_ref calls w p : Forall typed calls -> document calls = Ok w -> shown calls p -> In p (refs w).
Proof.
  intros T D (k & r & c & H). pose proof (formats_tracked calls w T D k r c) as F. rewrite H in F. cbn [fmt_agrees] in F. eapply xfat_refs. exact F.
Qed.
Definition ownish (q : call) : Prop :=
  match q with KFont _ | KFontNum _ | KFormat _ | KXformat _ _ | KXfSet _ _ | KFontSet _ _ => True | _ => False end.
Lemma own_call w q w' : ownish q -> api_call w q = Ok w' -> own q (wb_fs w) (wb_fs w') /\ refs w' = refs w.
Proof.
  intros O H. destruct q; cbn [ownish] in O; try contradiction; clear O; cbn [api_call own] in *.
  - apply ok_inj in H. subst w'. split; reflexivity.
  - apply bind_ok in H. destruct H as ([fs i] & H & E). apply ok_inj in E. subst w'. split; [exists i; exact H|reflexivity].
  - apply ok_inj in H. subst w'. split; reflexivity.
  - apply bind_ok in H. destruct H as ([fs i] & H & E). apply ok_inj in E. subst w'. split; [exists i; exact H|reflexivity].
  - apply bind_ok in H. destruct H as (fs & H & E). apply ok_inj in E. subst w'. split; [exact H|reflexivity].
  - apply bind_ok in H. destruct H as (fs & H & E). apply ok_inj in E. subst w'. split; [exact H|reflexivity].
Qed.

Lemma careful_hands calls w q p new : Forall typed calls -> document calls = Ok w -> sound calls w new -> careful_call calls q -> hands q p -> valid (wb_fs w) p.
Proof.
  intros T D S C H. assert (K : fresh calls p \/ shown calls p \/ without_font calls p).
  { destruct q; cbn [hands careful_call] in *; try contradiction; try (destruct o; try contradiction); try congruence; subst; auto. }
  destruct K as [((f & b & M) & _)|[K|(f & b & M & _)]].
  - eapply made_valid; eauto.
  - apply (us_ref _ _ _ _ (sd_uses _ _ _ S)). eapply shown_ref; eauto.
  - eapply made_valid; eauto.
Qed.
Lemma sound_other calls w q w' new newx : Forall typed calls -> typed q -> args q -> document calls = Ok w -> api_call w q = Ok w' ->
  (forall f m, q <> KXformat f m) -> careful_call calls q -> sound calls w new -> uses (wb_fs w') (refs w') newx None ->
  (forall p, In p newx -> In p new) -> (forall p, In p new -> ~ hands q p -> In p newx) -> exists new', sound (calls ++ [q]) w' new'.
Proof.
  intros T Tq A D C Nx Cf S U S1 S2. pose proof (call_rsteps _ _ _ (mn_inv _ _ (run_means _ _ T D)) Tq C) as St.
  assert (X : exists new', (forall p, In p new' <-> In p newx /\ ~ hands q p)).
  { destruct (hand q) as [p0|] eqn:Eh.
    - exists (drop p0 newx). intro p. rewrite drop_in, hand_hands, Eh. split; intros [J N]; split; auto; congruence.
    - exists newx. intro p. rewrite hand_hands, Eh. split; [intro J; split; [exact J|discriminate]|tauto]. }
  destruct X as [new' X]. exists new'. constructor.
  - eapply uses_less; [|exact U]. intros p J. apply X in J. tauto.
  - intro p. rewrite X, (fresh_snoc _ _ _ Nx), <- (sd_new _ _ _ S). split; intros [J N]; split; auto.
  - intros p J. apply (valid_grows _ _ _ (rsteps_grows _ _ _ _ _ St)). apply Exists_app in J. destruct J as [J|J]; [apply (sd_handed _ _ _ S); exact J|].
    inversion J as [? ? J'|? ? J']; subst; [|inversion J']. eapply careful_hands; eauto.
  - intros p (f & b & M & F). apply made_snoc in M. destruct M as [(m & w1 & fs & _ & -> & _)|(b' & -> & M)]; [exfalso; exact (Nx f m eq_refl)|].
    apply Forall_app in F. destruct F as [F Fq]. inversion Fq as [|? ? [Nh Nc] _]; subst.
    destruct (sd_untouched _ _ _ S p) as [Fr Nr]; [exists f, b'; auto|]. split; [apply fresh_snoc; auto|].
    destruct (made_valid _ _ _ _ _ T D M) as [L _]. eapply rsteps_outside; eauto.
Qed.
Lemma sound_xformat calls w f m w' new : Forall typed calls -> document calls = Ok w -> api_call w (KXformat f m) = Ok w' ->
  sound calls w new -> exists new', sound (calls ++ [KXformat f m]) w' new'.
Proof.
  intros T D C S. destruct (call_xformat _ _ _ _ C) as (p & X & Er). destruct (uses_xformat _ _ _ _ _ _ _ X (sd_uses _ _ _ S)) as [Ep U].
  pose proof (new_invalid (wb_fs w)) as NV. rewrite <- Ep in NV. pose proof (wb_xformat_grows _ _ _ _ _ X) as G.
  assert (Nh : Forall (fun q => ~ hands q p) calls).
  { apply Forall_forall. intros q J H. apply NV. apply (sd_handed _ _ _ S). apply Exists_exists. eauto. }
  assert (Fp : fresh (calls ++ [KXformat f m]) p).
  { split; [exists f, [], calls, m, w, (wb_fs w'); auto|]. apply Forall_app. split; [exact Nh|]. constructor; [intros []|constructor]. }
  exists (p :: new). constructor.
  - rewrite Er. exact U.
  - intro j. split.
    + intros [<-|J]; [exact Fp|]. apply (sd_new _ _ _ S) in J. destruct J as [(f' & b & M) F]. split; [exists f', (b ++ [KXformat f m]); apply made_more; exact M|].
      apply Forall_app. split; [exact F|]. constructor; [intros []|constructor].
    + intros [(f' & b & M) F]. apply Forall_app in F. destruct F as [F _]. apply made_snoc in M. destruct M as [(m' & w1 & fs & _ & E & D1 & X1)|(b' & _ & M)].
      * rewrite D in D1. apply ok_inj in D1. subst w1. injection E as <- <-. rewrite X in X1. apply ok_inj in X1. apply pair_equal_spec in X1. left. apply X1.
      * right. apply (sd_new _ _ _ S). split; [eauto|exact F].
  - intros j J. apply (valid_grows _ _ _ G). apply Exists_app in J. destruct J as [J|J]; [apply (sd_handed _ _ _ S); exact J|].
    inversion J as [? ? J'|? ? J']; subst; [destruct J'|inversion J'].
  - intros j (f' & b & M & F). rewrite Er. apply made_snoc in M. destruct M as [(m' & w1 & fs & _ & E & D1 & X1)|(b' & -> & M)].
    + rewrite D in D1. apply ok_inj in D1. subst w1. injection E as <- <-. rewrite X in X1. apply ok_inj in X1. apply pair_equal_spec in X1. destruct X1 as [_ <-].
      split; [exact Fp|]. intro J. apply NV. exact (us_ref _ _ _ _ (sd_uses _ _ _ S) _ J).
    + apply Forall_app in F. destruct F as [F _]. destruct (sd_untouched _ _ _ S j) as [[M' Fr] Nr]; [exists f', b'; auto|]. split; [|exact Nr].
      split; [exists f', (b' ++ [KXformat f m]); apply made_more; exact M|]. apply Forall_app. split; [exact Fr|]. constructor; [intros []|constructor].
Qed.
Lemma own_uses q fs fs' R new : args q -> (forall f m, q <> KXformat f m) -> own q fs fs' ->
  (match q with KXfSet p (FFont _) => In p R <-> ~ In p new | _ => True end) -> uses fs R new None -> uses fs' R new None.
Proof.
  intros A Nx O C U. destruct q; cbn [own args] in *; try contradiction.
  - subst fs'. apply uses_add_font. exact U.
  - destruct O as (i & O). unfold wb_fontnum in O. destruct (nth_error _ _) as [d|]; [|discriminate O]. apply ok_inj in O. apply (f_equal fst) in O. cbn [fst] in O. rewrite <- O. apply uses_add_font. exact U.
  - subst fs'. apply (uses_same fs); auto.
  - exfalso. eapply Nx. reflexivity.
  - eapply uses_xf_user; [exact O|apply A|exact U|]. destruct o; auto.
  - eapply uses_font_set; [exact O|exact U].
Qed.
Theorem careful_sound calls : forall w, Forall typed calls -> Forall args calls -> careful calls -> document calls = Ok w -> exists new, sound calls w new.
Proof.
  induction calls as [|q calls IH] using rev_ind; intros w T A C D.
  - apply document_nil in D. destruct (wb_new_sheets _ D) as [E _]. exists []. constructor.
    + unfold refs. rewrite E. apply init_uses. apply wb_new_fs. exact D.
    + intro p. split; [intros []|]. intros [(f & b & a & m & w0 & fs & X & _) _]. destruct a; discriminate X.
    + intros p J. inversion J.
    + intros p (f & b & (a & m & w0 & fs & X & _) & _). destruct a; discriminate X.
  - apply careful_prefix in C. destruct C as [C Cq]. apply Forall_app in T. destruct T as [T Tq]. inversion Tq as [|? ? Tq' _]; subst.
    apply Forall_app in A. destruct A as [A Aq]. inversion Aq as [|? ? Aq' _]; subst. destruct (document_snoc _ _ _ D) as (w0 & D0 & Cl).
    destruct (IH w0 T A C D0) as (new & S). clear IH.
    assert (Rows : Forall (fun q => match q with KRowheight _ _ _ p => p = None | _ => True end) calls).
    { apply Forall_forall. intros x J. apply in_split in J. destruct J as (a & b & ->). pose proof (C a x b eq_refl) as K. destruct x; auto. }
    assert (Own : ownish q -> (forall f m, q <> KXformat f m) -> exists new0, sound (calls ++ [q]) w new0).
    { intros Eo Nx. destruct (own_call _ _ _ Eo Cl) as [O Er].
      assert (U : uses (wb_fs w) (refs w) new None).
      { rewrite Er. eapply own_uses; [exact Aq'|exact Nx|exact O| |exact (sd_uses _ _ _ S)]. destruct q; auto. destruct o; auto. cbn [careful_call] in Cq.
        destruct Cq as [K|K].
        - pose proof (shown_ref _ _ _ T D0 K) as J. split; [|auto]. intros _ Jn. apply (sd_new _ _ _ S) in Jn. destruct Jn as [_ F].
          destruct K as (k & r & c & K). apply shown_handed in K. destruct K as [->|K]; [destruct Aq'; lia|]. apply Exists_exists in K. destruct K as (x & Jx & Hx). rewrite Forall_forall in F. exact (F x Jx Hx).
        - destruct (sd_untouched _ _ _ S p K) as [Fr Nr]. apply (sd_new _ _ _ S) in Fr. tauto. }
      apply (sound_other calls w0 q w new new); auto. }
    assert (Oth : ~ ownish q -> ~ is_row q -> attaching q (wb_fs w0) (refs w0) new -> exists new0, sound (calls ++ [q]) w new0).
    { intros No Nr At. destruct (rsteps_uses q (wb_fs w0) (refs w0) (wb_fs w) (refs w)) with (new := new) as (newx & U & S1 & S2).
      - exact Aq'.
      - intros a b O. apply No. destruct q; try contradiction O; exact I.
      - exact Nr.
      - apply call_rsteps; [exact (mn_inv _ _ (run_means _ _ T D0))|exact Tq'|exact Cl].
      - exact (sd_uses _ _ _ S).
      - exact At.
      - apply (sound_other calls w0 q w new newx); auto. intros f m ->. apply No. exact I. }
    assert (Ok3 : forall p, fresh calls p \/ shown calls p \/ without_font calls p -> attachable (wb_fs w0) (refs w0) new p).
    { intros p [K|[K|K]]; [unfold attachable; right; right; left; apply (sd_new _ _ _ S); exact K|left; exact (shown_ref calls w0 p T D0 K)|unfold attachable]. right; right; right. first [exact (without_nofont calls w0 p T D0 K)|exact (without_nofont calls w0 _ T D0 Cq)]. }
    assert (Blank : attachable (wb_fs w0) (refs w0) new 15) by (right; left; lia).
    assert (Oth0 : ~ ownish q -> ~ is_row q -> (forall i, ~ attaches q i) -> (forall o, ~ op_in q o) -> exists new0, sound (calls ++ [q]) w new0).
    { intros N1 N2 N3 N4. apply Oth; auto. split; [intros i J; exfalso; exact (N3 _ J)|intros j J; exfalso; exact (N4 _ J)]. }
    destruct q; try (apply Oth0; [solve [intros []]|solve [intros []]|solve [intros ? []]|solve [intros ? []]]); try (apply Own; [exact I|let H := fresh in intros ? ? H; discriminate H]).
    + (* a cell *) apply Oth; [intros []|intros []|]. split; [|intros j []]. cbn [attaches careful_call] in *. intros i ->. destruct p; cbn [cell_xf]; auto.
    + (* a cell setter *) apply Oth; [intros []|intros []|]. split; [intros i []|]. intros j J. cbn [op_in] in J. subst o. cbn [careful_call] in Cq. auto.
    + (* a range *) apply Oth; [intros []|intros []|]. split; [intros i ->; exact Blank|]. intros j J. cbn [op_in] in J. subst o. cbn [careful_call] in Cq. first [exact (without_nofont calls w0 p T D0 K)|exact (without_nofont calls w0 _ T D0 Cq)].
    + (* a column *) apply Oth; [intros []|intros []|]. split; [|intros j []]. cbn [attaches careful_call] in *. intros i ->. auto.
    + (* a row *) cbn [careful_call] in Cq. subst p. cbn [api_call] in Cl. destruct (rowheight_plain _ _ _ _ _ (doc_rows _ _ T D0 Rows) Cl) as [E1 E2].
      assert (U : uses (wb_fs w) (refs w) new None) by (rewrite E1, E2; exact (sd_uses _ _ _ S)).
      assert (Nx : forall f m, KRowheight k row height None <> KXformat f m) by (intros f m H; discriminate H).
      exact (sound_other calls w0 _ w new new T Tq' Aq' D0 Cl Nx eq_refl S U (fun p J => J) (fun p J _ => J)).
    + (* xformat *) exact (sound_xformat calls w0 _ _ w new T D0 Cl S).
Qed.
