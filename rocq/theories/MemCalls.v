(** Each proper call succeeds and keeps the invariant. *)
From Coq Require Import ZArith List Bool Arith Lia Permutation.
From Verif Require Import UnitModel SpecMem MemModel MemProof MemInv MemSteps MemNodes.
Import ListNotations.
Local Open Scope nat_scope.
#[local] Arguments gowned : simpl never.
#[local] Arguments one : simpl never.
#[local] Arguments sowned : simpl never.
#[local] Arguments downed : simpl never.
#[local] Arguments cowned : simpl never.
#[local] Arguments kowned : simpl never.
#[local] Arguments iowned : simpl never.

Definition good (h : story) (m : mem) (c : mcall) : Prop :=
  exists m' a tree' roots', mrun m c = Ok (m', a) /\ minv (h ++ [(c, a)]) m' tree' roots'
    /\ ninv (h ++ [(c, a)]) (w_nodes (m_w m')) tree' roots' (h_next (w_heap (m_w m'))).

Lemma quiet_good : forall h m c m' a tree roots, quiet c -> ninv h (w_nodes (m_w m)) tree roots (h_next (w_heap (m_w m))) ->
  mrun m c = Ok (m', a) -> minv (h ++ [(c, a)]) m' tree roots -> w_nodes (m_w m') = w_nodes (m_w m) -> h_next (w_heap (m_w m)) <= h_next (w_heap (m_w m')) -> good h m c.
Proof.
  intros h m c m' a tree roots Q N E I W L. exists m', a, tree, roots. split; [exact E|]. split; [exact I|]. rewrite W. exact (ninv_quiet h c a _ tree roots _ _ Q L N).
Qed.

Section Calls.
Context {h : story} {m : mem} {tree : nat -> rose} {roots : list nat}.
Hypothesis I : minv h m tree roots.
Hypothesis N : ninv h (w_nodes (m_w m)) tree roots (h_next (w_heap (m_w m))).

Let V := mi_heap _ _ _ _ I.
Let G := mi_g _ _ _ _ I.
Let R := groom_of I.

Lemma keep_good : forall c a w', quiet c -> place c = None -> mrun m c = Ok (keep m w', a) -> gstep (m_w m) w' -> newhandle c a (keep m w') -> good h m c.
Proof.
  intros c a w' Q P E S K. apply (quiet_good h m c (keep m w') a tree roots Q N E); [exact (keep_step h m c a w' tree roots I S K P)|exact (gs_nodes _ _ S)|exact (gs_next _ _ S)].
Qed.
Lemma same_good : forall c a, quiet c -> place c = None -> mrun m c = Ok (m, a) -> newhandle c a m -> good h m c.
Proof.
  intros c a Q P E K. assert (E' : keep m (m_w m) = m) by (destruct m; reflexivity). apply (keep_good c a (m_w m)); try assumption; rewrite ?E'; try assumption.
  apply gstep_refl; [exact V|exact G].
Qed.

Ltac run := unfold mrun; rewrite (use_ok _ _ (self_live I)); cbn [bind].

Lemma good_font : good h m MFont.
Proof.
  destruct (add_font (m_w m)) as [p w1] eqn:E. destruct (add_font_ok _ _ _ V G E) as [S K]. apply (keep_good MFont (Some p) w1); [exact Logic.I|reflexivity| |exact S|exact K]. run. rewrite E. reflexivity.
Qed.
Lemma font_live : forall p, made_font h p -> live (m_w m) p.
Proof. intros p M. apply (glob_live I), in_gowned_font, in_or_app. right. exact (proj1 (proj2 (mi_hand _ _ _ _ I)) p M). Qed.
Lemma good_fontdup : forall f, made_font h f -> good h m (MFontDup f).
Proof.
  intros f M. destruct (add_font (m_w m)) as [p w1] eqn:E. destruct (add_font_ok _ _ _ V G E) as [S K]. apply (keep_good (MFontDup f) (Some p) w1); [exact Logic.I|reflexivity| |exact S|exact K].
  run. rewrite (use_ok _ _ (font_live f M)). cbn [bind]. rewrite E. reflexivity.
Qed.
Lemma good_fontset : forall f, made_font h f -> good h m (MFontSet f).
Proof. intros f M. apply (same_good _ None); [exact Logic.I|reflexivity| |exact Logic.I]. run. rewrite (use_ok _ _ (font_live f M)). reflexivity. Qed.
Lemma good_format : good h m MFormat.
Proof.
  destruct (add_fmt (m_w m)) as [p w1] eqn:E. destruct (add_fmt_ok _ _ _ V G E) as [S K]. apply (keep_good MFormat (Some p) w1); [exact Logic.I|reflexivity| |exact S|exact K]. run. rewrite E. reflexivity.
Qed.
Lemma maybe_font : forall o, maybe (made_font h) o -> ofin (g_dfonts (w_glob (m_w m)) ++ g_fonts (w_glob (m_w m))) o.
Proof. intros [p|] M; [|exact Logic.I]. apply in_or_app; right. exact (proj1 (proj2 (mi_hand _ _ _ _ I)) p M). Qed.
Lemma maybe_format : forall o, maybe (made_format h) o -> ofin (g_fmts (w_glob (m_w m))) o.
Proof. intros [p|] M; [|exact Logic.I]. exact (proj1 (proj2 (proj2 (mi_hand _ _ _ _ I))) p M). Qed.
Lemma xf_in : forall x, made_xf h x -> xin (w_glob (m_w m)) x.
Proof. intros x M. unfold xin. rewrite map_app. apply in_or_app; right. exact (proj1 (proj2 (proj2 (proj2 (mi_hand _ _ _ _ I)))) x M). Qed.
Lemma maybe_xf : forall o x, maybe (made_xf h) o -> o = Some x -> xin (w_glob (m_w m)) x.
Proof. intros o x M ->. apply xf_in. exact M. Qed.
Lemma good_xf : forall f fm, maybe (made_font h) f -> maybe (made_format h) fm -> good h m (MXf f fm).
Proof.
  intros f fm F M. destruct (add_xf_ok (m_w m) f fm V G R (maybe_font f F) (maybe_format fm M)) as (p & w' & E & S & X & _).
  apply (keep_good _ (Some p) w'); [exact Logic.I|reflexivity| |exact S|cbn; rewrite X, map_app; apply in_or_app; right; left; reflexivity]. run. rewrite E. reflexivity.
Qed.
Lemma good_xfdup : forall x, made_xf h x -> good h m (MXfDup x).
Proof.
  intros x M. destruct (dup_xf_ok (m_w m) x V G R (xf_in x M)) as (p & w' & f & fm & E & S & X & _).
  apply (keep_good _ (Some p) w'); [exact Logic.I|reflexivity| |exact S|cbn; rewrite X, map_app; apply in_or_app; right; left; reflexivity]. run. rewrite E. reflexivity.
Qed.
Lemma good_xfset : forall x f fm, made_xf h x -> maybe (made_font h) f -> maybe (made_format h) fm -> good h m (MXfSet x f fm).
Proof.
  intros x f fm X F M. destruct (set_xf_ok (m_w m) x f fm V G R (xf_in x X) (maybe_font f F) (maybe_format fm M)) as (w' & E & S & _).
  apply (keep_good _ None w'); [exact Logic.I|reflexivity| |exact S|exact Logic.I]. run. rewrite E. reflexivity.
Qed.
Lemma good_color : forall b, good h m (MColor b).
Proof.
  intros [|]; [|apply (same_good _ None); [exact Logic.I|reflexivity| |exact Logic.I]; run; reflexivity].
  destruct (g_palette (w_glob (m_w m))) as [p|] eqn:E.
  - apply (same_good _ None); [exact Logic.I|reflexivity| |exact Logic.I]. run. rewrite E. reflexivity.
  - destruct (w_new (m_w m)) as [p w1] eqn:W. destruct (w_new_ok _ _ _ V W) as (A & B & C & D & F & K).
    eapply (keep_good _ None); [exact Logic.I|reflexivity| | |exact Logic.I].
    + run. rewrite E, W. reflexivity.
    + rewrite F. unfold up_glob. destruct G as [G1 G2]. constructor; cbn; try assumption; try apply incl_refl; try reflexivity; try lia.
      * intro q. specialize (K q). rewrite !cnt_gowned, E. cbn. lia.
      * split; apply incl_refl.
Qed.

(** Sheets. *)
Lemma all_stacks_app : forall self w l1 l2 a b, all_stacks (mkMem self w (l1 ++ l2) a b) = all_stacks (mkMem self w l1 a b) ++ all_stacks (mkMem self w l2 a b).
Proof. intros. unfold all_stacks. cbn [m_sheets]. apply flat_map_app. Qed.

Lemma good_sheet : good h m MSheet.
Proof.
  destruct (w_new (m_w m)) as [p w1] eqn:W1. destruct (w_new_ok _ _ _ V W1) as (A1 & B1 & C1 & D1 & F1 & K1).
  destruct (w_new w1) as [b w2] eqn:W2. destruct (w_new_ok _ _ _ B1 W2) as (A2 & B2 & C2 & D2 & F2 & K2).
  eapply quiet_good with (a := Some p) (tree := tree) (roots := roots); [exact Logic.I|exact N| | | |].
  - run. rewrite W1, W2. reflexivity.
  - rewrite F2, F1. unfold up_glob. assert (ST : all_stacks (mkMem (m_self m) (mkW (w_heap w2) (w_nodes w2) (mkGlob (g_dfonts (w_glob (m_w m))) (g_fonts (w_glob (m_w m))) (g_fmts (w_glob (m_w m))) (g_dxfs (w_glob (m_w m))) (g_xfs (w_glob (m_w m))) (g_styles (w_glob (m_w m))) (g_bsheets (w_glob (m_w m)) ++ [b]) (g_palette (w_glob (m_w m))) (g_labels (w_glob (m_w m))) (g_default (w_glob (m_w m))))) (m_sheets m ++ [new_sheet p]) (m_sum m) (m_doc m)) = all_stacks m).
    { unfold all_stacks. cbn [m_sheets]. rewrite flat_map_app. cbn. apply app_nil_r. }
    apply (mstep h m); try assumption.
    + intro q. specialize (K1 q). specialize (K2 q). rewrite !cnt_owned, !cnt_gowned. cbn [m_w m_self m_sheets m_sum m_doc w_heap w_glob g_dfonts g_fonts g_fmts g_dxfs g_xfs g_styles g_bsheets g_palette].
      rewrite cnt_end, cnt_snoc, cnt_sowned. cbn. lia.
    + rewrite ST. cbn [m_w m_sheets w_glob w_nodes]. rewrite D2, D1. apply Forall_app. split.
      * refine (Forall_impl _ _ (mi_s _ _ _ _ I)). intros s Hs. refine (sinv_mono _ _ _ _ _ _ _ _ _ _ _ Hs); [intros x Hx; exact Hx|apply incl_refl].
      * constructor; [|constructor]. constructor; cbn; try constructor; constructor.
    + intros q Hq. destruct (mi_lab _ _ _ _ I q Hq) as (c & Hc & Hd). exists c. split; [|exact Hd]. unfold all_cells in *. cbn [m_sheets]. rewrite flat_map_app. apply in_or_app; left; exact Hc.
    + constructor; try apply incl_refl; [cbn; rewrite map_app; apply incl_appl, incl_refl|rewrite ST; apply incl_refl].
    + cbn. rewrite map_app. apply in_or_app; right; left; reflexivity.
    + reflexivity.
    + unfold places. cbn [m_sheets]. rewrite flat_map_app. cbn. apply app_nil_r.
  - cbn. congruence.
  - cbn. lia.
Qed.

(** Properties of the document. *)
Lemma take_some : forall {A} (f : A -> bool) l a r, take_out f l = Some (a, r) -> exists l1 l2, l = l1 ++ a :: l2 /\ r = l1 ++ l2 /\ f a = true.
Proof.
  intros A f. induction l as [|x l IH]; intros a r E; cbn [take_out] in E; [discriminate|]. destruct (f x) eqn:F.
  - injection E as -> ->. exists [], r. auto.
  - destruct (take_out f l) as [[b s]|]; [|discriminate]. injection E as -> <-. destruct (IH a s eq_refl) as (l1 & l2 & -> & -> & T). exists (x :: l1), l2. auto.
Qed.
Lemma take_none : forall {A} (f : A -> bool) l a, take_out f l = None -> In a l -> f a = false.
Proof.
  intros A f. induction l as [|x l IH]; intros a E J; [destruct J|]. cbn [take_out] in E. destruct (f x) eqn:F; [discriminate|]. destruct (take_out f l) as [[b s]|]; [discriminate|]. destruct J as [->|J]; [exact F|exact (IH a eq_refl J)].
Qed.
Lemma put_item_ok : forall w d k, hv (w_heap w) -> (forall q, cnt q (downed d) <= cnt q (h_live (w_heap w))) ->
  exists w' d', put_item w d k = Ok (w', d') /\ hv (w_heap w') /\ h_next (w_heap w) <= h_next (w_heap w') /\ w_nodes w' = w_nodes w /\ w_glob w' = w_glob w
    /\ forall q, cnt q (h_live (w_heap w')) + cnt q (downed d) = cnt q (h_live (w_heap w)) + cnt q (downed d').
Proof.
  intros w d k Vw C. unfold put_item.
  assert (L : forall q, In q (downed d) -> live w q) by (intros q Hq; apply cnt_In in Hq; specialize (C q); unfold live; lia).
  rewrite use_ok by (apply L; left; reflexivity). cbn [bind].
  destruct (w_new w) as [p w1] eqn:W1. destruct (w_new_ok _ _ _ Vw W1) as (A1 & B1 & C1 & D1 & F1 & K1).
  destruct (w_new w1) as [s w2] eqn:W2. destruct (w_new_ok _ _ _ B1 W2) as (A2 & B2 & C2 & D2 & F2 & K2).
  rewrite uses_ok.
  2:{ intros q Hq. unfold live. rewrite K2, K1. assert (X : live w q). { apply L. right. apply in_map_iff in Hq. destruct Hq as [i [<- Hi]]. apply in_flat_map. exists i. split; [exact Hi|left; reflexivity]. } unfold live in X. lia. }
  cbn [bind]. destruct (take_out _ (hd_items d)) as [[i r]|] eqn:T.
  - destruct (take_some _ _ _ _ T) as (l1 & l2 & E1 & -> & _).
    assert (DC : forall q, cnt q (downed d) = one q (hd_ptr d) + cnt q (flat_map iowned l1) + cnt q (iowned i) + cnt q (flat_map iowned l2)) by (intro q; unfold downed; rewrite E1; cbn [cnt]; rewrite cnt_mid; lia).
    destruct (delete_item_ok w2 i B2) as [h3 [E3 R3]]; [intro q; rewrite K2, K1; specialize (C q); rewrite DC in C; lia|].
    rewrite E3. cbn [bind]. eexists. eexists. split; [reflexivity|]. cbn [up_heap w_heap w_nodes w_glob]. destruct R3 as [V3 [X3 C3]]. split; [exact V3|]. split; [lia|]. split; [congruence|]. split; [congruence|].
    intro q. specialize (C3 q). rewrite K2, K1 in C3. rewrite DC. unfold downed. cbn [hd_ptr hd_items cnt]. rewrite cnt_end, flat_map_app, cnt_app. change (cnt q (iowned (mkItem k p (Some s)))) with (one q p + (one q s + 0)). lia.
  - eexists. eexists. split; [reflexivity|]. split; [exact B2|]. split; [lia|]. split; [congruence|]. split; [congruence|]. intro q. rewrite K2, K1. unfold downed. cbn [hd_ptr hd_items cnt]. rewrite cnt_end. change (cnt q (iowned (mkItem k p (Some s)))) with (one q p + (one q s + 0)). lia.
Qed.
Lemma good_prop : forall b k, good h m (MProp b k).
Proof.
  intros b k. assert (C : forall q, cnt q (downed (if b then m_doc m else m_sum m)) <= cnt q (h_live (w_heap (m_w m)))) by (intro q; rewrite (mi_cnt _ _ _ _ I), cnt_owned; destruct b; lia).
  destruct (put_item_ok (m_w m) _ k V C) as (w' & d' & E & V' & L & W & F & K).
  eapply quiet_good with (a := None) (tree := tree) (roots := roots) (m' := mkMem (m_self m) w' (m_sheets m) (if b then m_sum m else d') (if b then d' else m_doc m)); [exact Logic.I|exact N| | | |].
  - run. destruct b; rewrite E; reflexivity.
  - apply (mstep h m); cbn [m_w]; rewrite ?F, ?W; try assumption.
    + intro q. specialize (K q). rewrite !cnt_owned. cbn [m_w m_self m_sheets m_sum m_doc]. rewrite F. destruct b; lia.
    + refine (Forall_impl _ _ (mi_s _ _ _ _ I)). intros s Hs. refine (sinv_mono _ _ _ _ _ _ _ _ _ _ _ Hs); [intros x Hx; exact Hx|apply incl_refl].
    + intros p Hp. cbn [m_w] in Hp. rewrite F in Hp. exact (mi_lab _ _ _ _ I p Hp).
    + constructor; cbn [m_w]; rewrite ?F; apply incl_refl.
    + exact Logic.I.
    + reflexivity.
    + reflexivity.
  - exact W.
  - exact L.
Qed.

(** Something done to one sheet. *)
Lemma on_sheet_split : forall w l s, In s (map ms_ptr l) -> live w s -> exists l1 t l2, l = l1 ++ t :: l2 /\ ms_ptr t = s /\
  forall f, on_sheet w l s f = (let* (w1, t1, a) := f w t in Ok (w1, l1 ++ t1 :: l2, a)).
Proof.
  intros w. induction l as [|x l IH]; intros s J L; [destruct J|]. cbn [on_sheet]. destruct (Nat.eqb_spec (ms_ptr x) s) as [E|E].
  - exists [], x, l. split; [reflexivity|]. split; [exact E|]. intro f. rewrite (use_ok _ _ L). cbn [bind]. destruct (f w x) as [[[? ?] ?]| |]; reflexivity.
  - destruct J as [J|J]; [contradiction|]. destruct (IH s J L) as (l1 & t & l2 & -> & E2 & H). exists (x :: l1), t, l2. split; [reflexivity|]. split; [exact E2|]. intro f. rewrite H. destruct (f w t) as [[[? ?] ?]| |]; reflexivity.
Qed.
Lemma sheet_in : forall s, made_sheet h s -> In s (map ms_ptr (m_sheets m)).
Proof. exact (proj1 (mi_hand _ _ _ _ I)). Qed.
Lemma made_sheet_live : forall s, made_sheet h s -> live (m_w m) s.
Proof. intros s M. apply sheet_in in M. apply in_map_iff in M. destruct M as [t [<- J]]. apply (sheet_live I t _ J). left; reflexivity. Qed.
Lemma at_sheet_split : forall s, made_sheet h s -> exists l1 t l2, m_sheets m = l1 ++ t :: l2 /\ ms_ptr t = s /\ In t (m_sheets m) /\
  forall f, at_sheet m s f = (let* (w1, t1, a) := f (m_w m) t in Ok (mkMem (m_self m) w1 (l1 ++ t1 :: l2) (m_sum m) (m_doc m), a)).
Proof.
  intros s M. destruct (on_sheet_split (m_w m) (m_sheets m) s (sheet_in s M) (made_sheet_live s M)) as (l1 & t & l2 & E1 & E2 & H). exists l1, t, l2. split; [exact E1|]. split; [exact E2|].
  split; [rewrite E1; apply in_or_app; right; left; reflexivity|]. intro f. unfold at_sheet. rewrite H. destruct (f (m_w m) t) as [[[? ?] ?]| |]; reflexivity.
Qed.

Lemma sheet_step : forall c a l1 t l2 w' t', m_sheets m = l1 ++ t :: l2 -> quiet c -> place c = None ->
  w_nodes w' = w_nodes (m_w m) -> w_glob w' = w_glob (m_w m) -> hv (w_heap w') -> h_next (w_heap (m_w m)) <= h_next (w_heap w') ->
  (forall q, cnt q (h_live (w_heap w')) + cnt q (sowned tree t) = cnt q (h_live (w_heap (m_w m))) + cnt q (sowned tree t')) ->
  ms_ptr t' = ms_ptr t -> ms_cells t' = ms_cells t -> ms_notes t' = ms_notes t -> ms_hint t' = ms_hint t -> ms_nhint t' = ms_nhint t ->
  incl (map st_ptr (ms_stacks t)) (map st_ptr (ms_stacks t')) ->
  Forall (fun e => forall x, ml_xf e = Some x -> xin (w_glob (m_w m)) x) (ms_cols t' ++ ms_rows t') ->
  Forall (fun d : nat * list nat => incl (snd d) (all_stacks m)) (ms_dvs t') ->
  newhandle c a (mkMem (m_self m) w' (l1 ++ t' :: l2) (m_sum m) (m_doc m)) ->
  mrun m c = Ok (mkMem (m_self m) w' (l1 ++ t' :: l2) (m_sum m) (m_doc m), a) -> good h m c.
Proof.
  intros c a l1 t l2 w' t' E Q P W F Vw L C T1 T2 T3 T4 T5 ST LN DV NH RUN.
  assert (KS : incl (all_stacks m) (all_stacks (mkMem (m_self m) w' (l1 ++ t' :: l2) (m_sum m) (m_doc m)))).
  { unfold all_stacks. cbn [m_sheets]. rewrite E, !flat_map_app. cbn [flat_map]. intros p Hp. rewrite !in_app_iff in *. destruct Hp as [Hp|[Hp|Hp]]; [left; exact Hp|right; left; apply ST; exact Hp|right; right; exact Hp]. }
  apply (quiet_good h m c _ a tree roots Q N RUN); [|exact W|exact L].
  apply (mstep h m); cbn [m_w]; rewrite ?F, ?W; try assumption.
  - intro q. specialize (C q). rewrite !cnt_owned. cbn [m_w m_self m_sheets m_sum m_doc]. rewrite F, E, !cnt_mid. lia.
  - cbn [m_sheets]. assert (S := mi_s _ _ _ _ I). rewrite E in S. apply Forall_app in S. destruct S as [S1 S2]. inversion S2 as [|? ? S3 S4]; subst.
    assert (MO : forall s, sinv h (w_glob (m_w m)) (w_nodes (m_w m)) tree (all_stacks m) s -> sinv (h ++ [(c, a)]) (w_glob (m_w m)) (w_nodes (m_w m)) tree (all_stacks (mkMem (m_self m) w' (l1 ++ t' :: l2) (m_sum m) (m_doc m))) s).
    { intros s Hs. refine (sinv_mono _ _ _ _ _ _ _ _ _ _ KS Hs). intros x Hx; exact Hx. }
    apply Forall_app. split; [exact (Forall_impl _ MO S1)|]. constructor; [|exact (Forall_impl _ MO S4)]. destruct (MO t S3) as [B1 B2 B3 B4 B5 B6]. constructor; rewrite ?T2, ?T3, ?T4, ?T5; try assumption.
    + unfold sbody. rewrite T2, T3. exact B1.
    + refine (Forall_impl _ _ DV). intros d Hd. exact (incl_tran Hd KS).
  - intros p Hp. cbn [m_w] in Hp. rewrite F in Hp. destruct (mi_lab _ _ _ _ I p Hp) as (d & Hd & He). exists d. split; [|exact He]. unfold all_cells in *. cbn [m_sheets]. rewrite E in Hd. rewrite !flat_map_app in *. cbn [flat_map] in *. rewrite T2, T3. exact Hd.
  - constructor; cbn [m_w m_sheets]; rewrite ?F; try apply incl_refl; [|exact KS]. rewrite E, !map_app. cbn [map]. rewrite T1. apply incl_refl.
  - unfold places. cbn [m_sheets]. rewrite E, !flat_map_app. cbn [flat_map]. rewrite T1, T2, T3. reflexivity.
Qed.

Lemma sinv_of : forall t, In t (m_sheets m) -> sinv h (w_glob (m_w m)) (w_nodes (m_w m)) tree (all_stacks m) t.
Proof. intros t J. exact (proj1 (Forall_forall _ _) (mi_s _ _ _ _ I) t J). Qed.

Ltac sheet M l1 t l2 E1 E2 J H := destruct (at_sheet_split _ M) as (l1 & t & l2 & E1 & E2 & J & H).

Lemma good_merge : forall s, made_sheet h s -> good h m (MMerge s).
Proof.
  intros s M. sheet M l1 t l2 E1 E2 J H. destruct (w_new (m_w m)) as [p w1] eqn:W. destruct (w_new_ok _ _ _ V W) as (A & B & C & D & F & K). destruct (sinv_of t J) as [B1 B2 B3 B4 B5 B6].
  eapply (sheet_step (MMerge s) None l1 t l2 w1 _ E1); [exact Logic.I|reflexivity|exact D|exact F|exact B|lia| | | | | | | | | | |run; rewrite H, W; cbn [bind]; reflexivity]; try reflexivity; try assumption; try exact Logic.I.
  - intro q. specialize (K q). rewrite !cnt_sowned. cbn. rewrite cnt_snoc. lia.
  - apply incl_refl.
Qed.
Lemma good_range : forall s, made_sheet h s -> good h m (MRange s).
Proof.
  intros s M. sheet M l1 t l2 E1 E2 J H. destruct (w_new (m_w m)) as [p w1] eqn:W. destruct (w_new_ok _ _ _ V W) as (A & B & C & D & F & K). destruct (sinv_of t J) as [B1 B2 B3 B4 B5 B6].
  eapply (sheet_step (MRange s) (Some p) l1 t l2 w1 _ E1); [exact Logic.I|reflexivity|exact D|exact F|exact B|lia| | | | | | | | | | |run; rewrite H, W; cbn [bind]; reflexivity]; try reflexivity; try assumption; try exact Logic.I.
  - intro q. specialize (K q). rewrite !cnt_sowned. cbn. rewrite cnt_snoc. lia.
  - apply incl_refl.
Qed.
Lemma good_valid : forall s conds, made_sheet h s -> Forall (made_stack h) conds -> good h m (MValid s conds).
Proof.
  intros s conds M CD. sheet M l1 t l2 E1 E2 J H. destruct (w_new (m_w m)) as [p w1] eqn:W. destruct (w_new_ok _ _ _ V W) as (A & B & C & D & F & K). destruct (sinv_of t J) as [B1 B2 B3 B4 B5 B6].
  eapply (sheet_step (MValid s conds) None l1 t l2 w1 _ E1); [exact Logic.I|reflexivity|exact D|exact F|exact B|lia| | | | | | | | | | |run; rewrite H, W; cbn [bind]; reflexivity]; try reflexivity; try assumption; try exact Logic.I.
  - intro q. specialize (K q). rewrite !cnt_sowned. cbn. rewrite map_app. cbn. rewrite cnt_snoc. lia.
  - apply incl_refl.
  - apply Forall_app. split; [exact B6|]. constructor; [|constructor]. cbn [snd]. intros q Hq. rewrite Forall_forall in CD. exact (proj2 (proj2 (proj2 (proj2 (mi_hand _ _ _ _ I)))) q (CD q Hq)).
Qed.
Lemma standing_cell : forall p, standing h p -> exists c, In c (all_cells m) /\ mc_ptr c = p.
Proof.
  intros p S. apply standing_stands in S. destruct S as [pl S]. apply (mi_place _ _ _ _ I) in S. unfold places in S. apply in_flat_map in S. destruct S as [s [Hs Hp]].
  apply in_app_or in Hp. destruct Hp as [Hp|Hp]; apply in_map_iff in Hp; destruct Hp as [c [Ec Hc]]; injection Ec as _ <-; exists c; (split; [|reflexivity]); apply in_flat_map; exists s; (split; [exact Hs|]); apply in_or_app; [left|right]; exact Hc.
Qed.
Lemma all_cells_live : forall c, In c (all_cells m) -> live (m_w m) (mc_ptr c).
Proof.
  intros c Hc. unfold all_cells in Hc. apply in_flat_map in Hc. destruct Hc as [s [Hs Hc]]. apply in_app_or in Hc. destruct Hc as [Hc|Hc]; [apply (cells_live I s _ Hs)|apply (notes_live I s _ Hs)]; apply in_map; exact Hc.
Qed.
Lemma standing_live : forall p, standing h p -> live (m_w m) p.
Proof. intros p S. destruct (standing_cell p S) as (c & Hc & <-). exact (all_cells_live c Hc). Qed.
Lemma good_link : forall s c, made_sheet h s -> standing h c -> good h m (MLink s c).
Proof.
  intros s c M S. sheet M l1 t l2 E1 E2 J H. destruct (w_new (m_w m)) as [p w1] eqn:W. destruct (w_new_ok _ _ _ V W) as (A & B & C & D & F & K). destruct (sinv_of t J) as [B1 B2 B3 B4 B5 B6].
  eapply (sheet_step (MLink s c) None l1 t l2 w1 _ E1); [exact Logic.I|reflexivity|exact D|exact F|exact B|lia| | | | | | | | | | |run; rewrite H, (use_ok _ _ (standing_live c S)); cbn [bind]; rewrite W; cbn [bind]; reflexivity]; try reflexivity; try assumption; try exact Logic.I.
  - intro q. specialize (K q). rewrite !cnt_sowned. cbn. rewrite cnt_snoc. lia.
  - apply incl_refl.
Qed.
Lemma good_stack : forall s, made_sheet h s -> good h m (MStack s).
Proof.
  intros s M. sheet M l1 t l2 E1 E2 J H. destruct (w_new (m_w m)) as [p w1] eqn:W. destruct (w_new_ok _ _ _ V W) as (A & B & C & D & F & K). destruct (sinv_of t J) as [B1 B2 B3 B4 B5 B6].
  destruct (h_news 3 (w_heap w1)) as [ps h2] eqn:NW. destruct (h_news_ok 3 _ _ _ B NW) as (V2 & L2 & K2).
  eapply (sheet_step (MStack s) (Some p) l1 t l2 (up_heap w1 h2) _ E1); [exact Logic.I|reflexivity|exact D|exact F|exact V2|cbn [up_heap w_heap]; lia| | | | | | | | | | |run; rewrite H, W, NW; cbn [bind]; reflexivity]; try reflexivity; try assumption; try exact Logic.I.
  - intro q. specialize (K q). specialize (K2 q). rewrite !cnt_sowned. cbn. rewrite cnt_end. change (cnt q (kowned (mkStack p ps))) with (one q p + cnt q ps). lia.
  - cbn. rewrite map_app. apply incl_appl, incl_refl.
  - cbn. unfold all_stacks. cbn [m_sheets]. rewrite flat_map_app. cbn. apply in_or_app; right. apply in_or_app; left. rewrite map_app. apply in_or_app; right; left; reflexivity.
Qed.
Lemma good_find : forall s r co, made_sheet h s -> good h m (MFind s r co).
Proof.
  intros s r co M. sheet M l1 t l2 E1 E2 J H. destruct (sinv_of t J) as [B1 B2 B3 B4 B5 B6].
  eapply (sheet_step (MFind s r co) _ l1 t l2 (m_w m) t E1); [exact Logic.I|reflexivity|reflexivity|reflexivity|exact V|lia| | | | | | | | | | |]; try reflexivity; try assumption; try exact Logic.I; try apply incl_refl.
  run. rewrite H. rewrite touch_ok; [|exact G|exact (glob_live I)|unfold xin; rewrite map_app; apply in_or_app; left; exact (proj2 G)]. cbn [bind]. rewrite uses_ok by (intros p Hp; exact (cells_live I t p J Hp)). reflexivity.
Qed.
Lemma put_line_ok : forall l k x, (forall q, cnt q (map ml_ptr l) + cnt q (gowned (w_glob (m_w m))) <= cnt q (h_live (w_heap (m_w m)))) ->
  Forall (fun e => forall x, ml_xf e = Some x -> xin (w_glob (m_w m)) x) l -> (forall y, x = Some y -> xin (w_glob (m_w m)) y) ->
  exists w' l', put_line (m_w m) l k x = Ok (w', l') /\ hv (w_heap w') /\ h_next (w_heap (m_w m)) <= h_next (w_heap w') /\ w_nodes w' = w_nodes (m_w m) /\ w_glob w' = w_glob (m_w m)
    /\ (forall q, cnt q (h_live (w_heap w')) + cnt q (map ml_ptr l) = cnt q (h_live (w_heap (m_w m))) + cnt q (map ml_ptr l'))
    /\ Forall (fun e => forall x, ml_xf e = Some x -> xin (w_glob (m_w m)) x) l'.
Proof.
  intros l k x C FX XX. unfold put_line. destruct (w_new (m_w m)) as [p w1] eqn:W. destruct (w_new_ok _ _ _ V W) as (A & B & CC & D & F & K).
  assert (L1 : glive w1). { intros q Hq. rewrite F in Hq. assert (X := glob_live I q Hq). unfold live in *. rewrite K. lia. }
  assert (G1 : ginv (w_glob w1)) by (rewrite F; exact G).
  rewrite touch_opt_ok; [|exact G1|exact L1|rewrite F; exact XX]. cbn [bind].
  rewrite uses_ok by (intros q Hq; unfold live; rewrite K; apply cnt_In in Hq; specialize (C q); lia). cbn [bind].
  destruct (take_out _ l) as [[e r]|] eqn:T.
  - destruct (take_some _ _ _ _ T) as (l1 & l2 & E1 & -> & _). assert (FE := FX). rewrite E1 in FE. apply Forall_app in FE. destruct FE as [F1 F2]. inversion F2 as [|? ? F3 F4]; subst.
    rewrite touch_opt_ok; [|exact G1|exact L1|rewrite F; exact F3]. cbn [bind]. unfold w_del.
    destruct (h_del_ok (w_heap w1) (ml_ptr e) B) as [h2 [E2 [V2 [X2 C2]]]].
    + rewrite K. specialize (C (ml_ptr e)). rewrite map_app, cnt_app in C. cbn [map cnt] in C. rewrite one_same in C. lia.
    + rewrite E2. cbn [bind]. eexists. eexists. split; [reflexivity|]. cbn [up_heap w_heap w_nodes w_glob]. split; [exact V2|]. split; [lia|]. split; [exact D|]. split; [exact F|]. split.
      * intro q. specialize (C2 q). rewrite K in C2. rewrite !map_app, !cnt_app. cbn [map cnt ml_ptr] in *. lia.
      * apply Forall_app. split; [apply Forall_app; split; assumption|]. constructor; [exact XX|constructor].
  - eexists. eexists. split; [reflexivity|]. split; [exact B|]. split; [lia|]. split; [exact D|]. split; [exact F|]. split.
    + intro q. rewrite K, map_app, cnt_app. cbn [map cnt ml_ptr]. lia.
    + apply Forall_app. split; [exact FX|]. constructor; [exact XX|constructor].
Qed.
Lemma sheet_room : forall t q, In t (m_sheets m) -> cnt q (sowned tree t) + cnt q (gowned (w_glob (m_w m))) <= cnt q (h_live (w_heap (m_w m))).
Proof. intros t q J. rewrite (mi_cnt _ _ _ _ I), cnt_owned. assert (X := cnt_flat_in (sowned tree) (m_sheets m) t q J). lia. Qed.
Lemma good_col : forall s k x, made_sheet h s -> maybe (made_xf h) x -> good h m (MCol s k x).
Proof.
  intros s k x M X. sheet M l1 t l2 E1 E2 J H. destruct (sinv_of t J) as [B1 B2 B3 B4 B5 B6]. apply Forall_app in B4. destruct B4 as [B4 B4'].
  destruct (put_line_ok (ms_cols t) k x) as (w' & l' & E & Vw & L & D & F & K & FF); [intro q; assert (Y := sheet_room t q J); rewrite cnt_sowned in Y; lia|exact B4|intros y ->; exact (xf_in y X)|].
  eapply (sheet_step (MCol s k x) None l1 t l2 w' _ E1); [exact Logic.I|reflexivity|exact D|exact F|exact Vw|exact L| | | | | | | | | | |run; rewrite H, E; cbn [bind]; reflexivity]; try reflexivity; try assumption; try exact Logic.I.
  - intro q. specialize (K q). rewrite !cnt_sowned. cbn. lia.
  - apply incl_refl.
  - cbn. apply Forall_app. split; assumption.
Qed.
Lemma good_row : forall s k x, made_sheet h s -> maybe (made_xf h) x -> good h m (MRow s k x).
Proof.
  intros s k x M X. sheet M l1 t l2 E1 E2 J H. destruct (sinv_of t J) as [B1 B2 B3 B4 B5 B6]. apply Forall_app in B4. destruct B4 as [B4 B4'].
  destruct (put_line_ok (ms_rows t) k x) as (w' & l' & E & Vw & L & D & F & K & FF); [intro q; assert (Y := sheet_room t q J); rewrite cnt_sowned in Y; lia|exact B4'|intros y ->; exact (xf_in y X)|].
  eapply (sheet_step (MRow s k x) None l1 t l2 w' _ E1); [exact Logic.I|reflexivity|exact D|exact F|exact Vw|exact L| | | | | | | | | | |run; rewrite H, E; cbn [bind]; reflexivity]; try reflexivity; try assumption; try exact Logic.I.
  - intro q. specialize (K q). rewrite !cnt_sowned. cbn. lia.
  - apply incl_refl.
  - cbn. apply Forall_app. split; assumption.
Qed.
Lemma good_push : forall f c, made_stack h f -> maybe (standing h) c -> good h m (MPush f c).
Proof.
  intros f c M S. assert (Hf := proj2 (proj2 (proj2 (proj2 (mi_hand _ _ _ _ I)))) f M). apply (same_good _ None); [exact Logic.I|reflexivity| |exact Logic.I].
  run. rewrite (use_ok _ _ (stack_live I f Hf)). cbn [bind]. destruct (find _ (flat_map ms_stacks (m_sheets m))) as [k|] eqn:E.
  - apply find_some in E. destruct E as [Hk _]. apply in_flat_map in Hk. destruct Hk as [s [Hs Hk]]. rewrite uses_ok.
    + cbn [bind]. rewrite uses_ok; [reflexivity|]. intros p Hp. destruct c as [c|]; [|destruct Hp]. destruct Hp as [<-|[]]. exact (standing_live c S).
    + intros p Hp. apply (sheet_live I s p Hs). apply cnt_In. rewrite cnt_sowned. assert (1 <= cnt p (flat_map kowned (ms_stacks s))); [|lia]. apply cnt_In. apply in_flat_map. exists k. split; [exact Hk|right; exact Hp].
  - exfalso. unfold all_stacks in Hf. apply in_flat_map in Hf. destruct Hf as [s [Hs Hf]]. apply in_map_iff in Hf. destruct Hf as [k [Ek Hk]].
    assert (X := find_none _ _ E k). cbn beta in X. rewrite Ek, Nat.eqb_refl in X. assert (Y : true = false); [|discriminate]. apply X. apply in_flat_map. exists s; auto.
Qed.
End Calls.
