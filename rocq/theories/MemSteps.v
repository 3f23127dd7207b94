(** Every proper call succeeds and keeps the invariant of the memory. *)
From Coq Require Import ZArith List Bool Arith Lia Permutation.
From Verif Require Import UnitModel SpecMem MemModel MemProof MemInv.
Import ListNotations.
Local Open Scope nat_scope.

(* ------------------------------------------------------------------ *)
(** * Stories *)

Definition stands (h : story) (pl : bool * nat * Z * Z) (p : nat) : Prop :=
  exists h1 c h2, h = h1 ++ (c, Some p) :: h2 /\ place c = Some pl /\ Forall (fun e => place (fst e) <> Some pl) h2.
Lemma standing_stands : forall h p, standing h p <-> exists pl, stands h pl p.
Proof. intros h p. split; [intros (h1 & c & h2 & pl & H); exists pl, h1, c, h2; exact H|intros (pl & h1 & c & h2 & H); exists h1, c, h2, pl; exact H]. Qed.
Lemma stands_nil : forall pl p, ~ stands [] pl p.
Proof. intros pl p (h1 & c & h2 & E & _). destruct h1; discriminate. Qed.
Lemma stands_snoc : forall h c a pl p, stands (h ++ [(c, a)]) pl p <-> (place c = Some pl /\ a = Some p) \/ (place c <> Some pl /\ stands h pl p).
Proof.
  intros h c a pl p. split.
  - intros (h1 & d & h2 & E & P & F). destruct h2 as [|e h2] using rev_ind.
    + apply app_inj_tail in E. destruct E as [_ E]. injection E as -> ->. left. auto.
    + clear IHh2. replace (h1 ++ (d, Some p) :: h2 ++ [e]) with ((h1 ++ (d, Some p) :: h2) ++ [e]) in E by (rewrite <- app_assoc; reflexivity).
      apply app_inj_tail in E. destruct E as [-> <-]. apply Forall_app in F. destruct F as [F1 F2]. inversion F2 as [|? ? N _]; subst. right. split; [exact N|].
      exists h1, d, h2. auto.
  - intros [[P ->]|[N (h1 & d & h2 & -> & P & F)]].
    + exists h, c, []. auto.
    + exists h1, d, (h2 ++ [(c, a)]). split; [rewrite <- app_assoc; reflexivity|]. split; [exact P|]. apply Forall_app. split; [exact F|constructor; [exact N|constructor]].
Qed.

Definition places (m : mem) : list ((bool * nat * Z * Z) * nat) :=
  flat_map (fun s => map (fun c => ((false, ms_ptr s, mc_row c, mc_col c), mc_ptr c)) (ms_cells s) ++ map (fun c => ((true, ms_ptr s, mc_row c, mc_col c), mc_ptr c)) (ms_notes s)) (m_sheets m).

Definition handles (h : story) (m : mem) : Prop :=
  (forall p, made_sheet h p -> In p (map ms_ptr (m_sheets m)))
  /\ (forall p, made_font h p -> In p (g_fonts (w_glob (m_w m))))
  /\ (forall p, made_format h p -> In p (g_fmts (w_glob (m_w m))))
  /\ (forall p, made_xf h p -> In p (map xo_ptr (g_xfs (w_glob (m_w m)))))
  /\ (forall p, made_stack h p -> In p (all_stacks m)).
Definition newhandle (c : mcall) (a : option nat) (m : mem) : Prop :=
  match c with
  | MSheet => ofin (map ms_ptr (m_sheets m)) a
  | MFont | MFontDup _ => ofin (g_fonts (w_glob (m_w m))) a
  | MFormat => ofin (g_fmts (w_glob (m_w m))) a
  | MXf _ _ | MXfDup _ => ofin (map xo_ptr (g_xfs (w_glob (m_w m)))) a
  | MStack _ => ofin (all_stacks m) a
  | _ => True
  end.
Record covers (m m' : mem) : Prop := {
  co_sheets : incl (map ms_ptr (m_sheets m)) (map ms_ptr (m_sheets m'));
  co_fonts : incl (g_fonts (w_glob (m_w m))) (g_fonts (w_glob (m_w m')));
  co_fmts : incl (g_fmts (w_glob (m_w m))) (g_fmts (w_glob (m_w m')));
  co_xfs : incl (map xo_ptr (g_xfs (w_glob (m_w m)))) (map xo_ptr (g_xfs (w_glob (m_w m'))));
  co_stacks : incl (all_stacks m) (all_stacks m') }.
Lemma handles_snoc : forall h c a m m', handles h m -> covers m m' -> newhandle c a m' -> handles (h ++ [(c, a)]) m'.
Proof.
  intros h c a m m' (H1 & H2 & H3 & H4 & H5) [C1 C2 C3 C4 C5] N. repeat split.
  - intros p I. apply in_app_or in I. destruct I as [I|[E|[]]]; [apply C1, H1, I|]. injection E as -> ->. exact N.
  - intros p [I|[f I]]; apply in_app_or in I; destruct I as [I|[E|[]]].
    + apply C2, H2. left; exact I.
    + injection E as -> ->. exact N.
    + apply C2, H2. right; exists f; exact I.
    + injection E as -> ->. exact N.
  - intros p I. apply in_app_or in I. destruct I as [I|[E|[]]]; [apply C3, H3, I|]. injection E as -> ->. exact N.
  - intros p [[f [g I]]|[f I]]; apply in_app_or in I; destruct I as [I|[E|[]]].
    + apply C4, H4. left; exists f, g; exact I.
    + injection E as -> ->. exact N.
    + apply C4, H4. right; exists f; exact I.
    + injection E as -> ->. exact N.
  - intros p [s I]. apply in_app_or in I. destruct I as [I|[E|[]]]; [apply C5, H5; exists s; exact I|]. injection E as -> ->. exact N.
Qed.

(* ------------------------------------------------------------------ *)
(** * The invariant *)

Definition hok (h : story) (stk : list nat) (c : mcell) : Prop :=
  match mc_held c with HTree p false => lent h p | HStack f => In f stk | _ => True end.
Record sinv (h : story) (g : glob) (nodes : list (nat * list nat)) (tree : nat -> rose) (stk : list nat) (s : msheet) : Prop := {
  si_body : sbody tree g nodes s;
  si_hint : ofin (map mc_ptr (ms_cells s)) (ms_hint s);
  si_nhint : ofin (map mc_ptr (ms_notes s)) (ms_nhint s);
  si_lines : Forall (fun e => forall x, ml_xf e = Some x -> xin g x) (ms_cols s ++ ms_rows s);
  si_held : Forall (hok h stk) (ms_cells s ++ ms_notes s);
  si_dvs : Forall (fun d : nat * list nat => incl (snd d) stk) (ms_dvs s) }.
Definition labok (m : mem) : Prop := forall p, In p (g_labels (w_glob (m_w m))) -> exists c, In c (all_cells m) /\ mc_ptr c = p /\ mc_held c = HLong.
Record minv (h : story) (m : mem) (tree : nat -> rose) (roots : list nat) : Prop := {
  mi_heap : hv (w_heap (m_w m));
  mi_cnt : forall q, cnt q (h_live (w_heap (m_w m))) = cnt q (owned tree m) + cnt q (free tree roots);
  mi_g : ginv (w_glob (m_w m));
  mi_s : Forall (sinv h (w_glob (m_w m)) (w_nodes (m_w m)) tree (all_stacks m)) (m_sheets m);
  mi_lab : labok m;
  mi_hand : handles h m;
  mi_place : forall pl p, stands h pl p <-> In (pl, p) (places m) }.
Record ninv (h : story) (nodes : list (nat * list nat)) (tree : nat -> rose) (roots : list nat) (next : nat) : Prop := {
  ni_made : forall p, made_node h p -> p < next;
  ni_trust : forall p, entrusted h p -> made_node h p;
  ni_gave : forall q k, gave h q k -> made_node h q /\ made_node h k;
  ni_roots : forall p, In p roots <-> made_node h p /\ ~ given h p;
  ni_free : forall p, In p (free tree roots) <-> made_node h p /\ ~ belongs h p;
  ni_agree : forall p, In p roots -> agree nodes (tree p) /\ rootof (tree p) = p /\ agreeG h (tree p);
  ni_lent : forall p, lent h p -> made_node h p /\ ~ given h p }.

Definition calm (c : mcall) : Prop := match c with MNode _ | MArg _ _ | MCell _ _ _ _ (HTree _ true) => False | _ => True end.
Definition quiet (c : mcall) : Prop := match c with MNode _ | MArg _ _ | MCell _ _ _ _ (HTree _ _) => False | _ => True end.

Lemma snoc_in : forall {A} (h : list A) e x, In x (h ++ [e]) <-> In x h \/ e = x.
Proof. intros. rewrite in_app_iff. cbn [In]. tauto. Qed.
Lemma calm_made : forall h c a p, calm c -> made_node (h ++ [(c, a)]) p <-> made_node h p.
Proof.
  intros h c a p Q. split; intros [k I].
  - apply snoc_in in I. destruct I as [I|E]; [exists k; exact I|]. injection E as -> ->. destruct Q.
  - exists k. apply snoc_in. left; exact I.
Qed.
Lemma calm_gave : forall h c a p k, calm c -> gave (h ++ [(c, a)]) p k <-> gave h p k.
Proof.
  intros h c a p k Q. split; (intros [[ks [I J]]|[b I]]).
  - apply snoc_in in I. destruct I as [I|E]; [left; exists ks; auto|]. injection E as -> ->. destruct Q.
  - apply snoc_in in I. destruct I as [I|E]; [right; exists b; exact I|]. injection E as -> ->. destruct Q.
  - left; exists ks. split; [apply snoc_in; left; exact I|exact J].
  - right; exists b. apply snoc_in. left; exact I.
Qed.
Lemma calm_trust : forall h c a p, calm c -> entrusted (h ++ [(c, a)]) p <-> entrusted h p.
Proof.
  intros h c a p Q. split; intros (s & r & co & x & b & I).
  - apply snoc_in in I. destruct I as [I|E]; [exists s, r, co, x, b; exact I|]. injection E as -> ->. destruct Q.
  - exists s, r, co, x, b. apply snoc_in. left; exact I.
Qed.
Lemma quiet_calm : forall c, quiet c -> calm c.
Proof. intros []; try exact (fun H => H). destruct h as [| |p []|f]; exact (fun H => H) || (intros []). Qed.
Lemma quiet_lent : forall h c a p, quiet c -> lent (h ++ [(c, a)]) p <-> lent h p.
Proof.
  intros h c a p Q. split; intros (s & r & co & x & b & I).
  - apply snoc_in in I. destruct I as [I|E]; [exists s, r, co, x, b; exact I|]. injection E as -> ->. destruct Q.
  - exists s, r, co, x, b. apply snoc_in. left; exact I.
Qed.
Lemma calm_given : forall h c a p, calm c -> given (h ++ [(c, a)]) p <-> given h p.
Proof.
  intros h c a p Q. unfold given. rewrite (calm_trust h c a p Q). split; (intros [I|[q I]]; [left; exact I|right; exists q]); apply (calm_gave h c a q p Q); exact I.
Qed.
Lemma calm_belongs : forall h c a p, calm c -> belongs (h ++ [(c, a)]) p <-> belongs h p.
Proof.
  intros h c a p Q. split; intro B; induction B as [p E|q k B IH E].
  - apply belongs_root. apply (calm_trust h c a p Q); exact E.
  - apply (belongs_kid _ q k IH). apply (calm_gave h c a q k Q); exact E.
  - apply belongs_root. apply (calm_trust h c a p Q); exact E.
  - apply (belongs_kid _ q k IH). apply (calm_gave h c a q k Q); exact E.
Qed.
Lemma ninv_calm : forall h c a nodes tree roots n n', calm c -> n <= n' -> (forall p, lent (h ++ [(c, a)]) p -> made_node h p /\ ~ given h p) ->
  ninv h nodes tree roots n -> ninv (h ++ [(c, a)]) nodes tree roots n'.
Proof.
  intros h c a nodes tree roots n n' Q L LL [N1 N2 N3 N4 N5 N6 N7]. constructor.
  - intros p M. apply (calm_made h c a p Q) in M. specialize (N1 p M). lia.
  - intros p E. apply (calm_made h c a p Q). apply N2. apply (calm_trust h c a p Q). exact E.
  - intros q k E. apply (calm_gave h c a q k Q) in E. rewrite (calm_made h c a q Q), (calm_made h c a k Q). exact (N3 q k E).
  - intro p. rewrite (calm_made h c a p Q), (calm_given h c a p Q). apply N4.
  - intro p. rewrite (calm_made h c a p Q), (calm_belongs h c a p Q). apply N5.
  - intros p I. destruct (N6 p I) as (A & B & C). split; [exact A|]. split; [exact B|]. refine (fitting_mono _ _ _ _ C). intros q ks _ H k. rewrite (calm_gave h c a q k Q). apply H.
  - intros p I. rewrite (calm_made h c a p Q), (calm_given h c a p Q). exact (LL p I).
Qed.
Lemma ninv_quiet : forall h c a nodes tree roots n n', quiet c -> n <= n' -> ninv h nodes tree roots n -> ninv (h ++ [(c, a)]) nodes tree roots n'.
Proof.
  intros h c a nodes tree roots n n' Q L N. apply (ninv_calm h c a nodes tree roots n n' (quiet_calm c Q) L); [|exact N].
  intros p I. apply (quiet_lent h c a p Q) in I. exact (ni_lent _ _ _ _ _ N p I).
Qed.

Lemma lent_snoc : forall h e p, lent h p -> lent (h ++ [e]) p.
Proof. intros h e p (s & r & co & x & b & I). exists s, r, co, x, b. apply snoc_in. left; exact I. Qed.
Lemma sinv_mono : forall h e g g' n tree stk stk' s, (forall x, xin g x -> xin g' x) -> incl stk stk' -> sinv h g n tree stk s -> sinv (h ++ [e]) g' n tree stk' s.
Proof.
  intros h e g g' n tree stk stk' s X K [[B1 B2] H1 H2 L H D]. constructor; try assumption.
  - split; [refine (Forall_impl _ _ B1)|refine (Forall_impl _ _ B2)]; intros c [Xc T]; split; auto.
  - refine (Forall_impl _ _ L). intros l Hl x E. apply X, Hl, E.
  - refine (Forall_impl _ _ H). intros c. unfold hok. destruct (mc_held c) as [| |p [|]|f]; auto. apply lent_snoc.
  - refine (Forall_impl _ _ D). intros d Hd. exact (incl_tran Hd K).
Qed.

(* ------------------------------------------------------------------ *)
(** * Counting what is owned *)

Lemma cnt_owned : forall tree m q, cnt q (owned tree m) = one q (m_self m) + cnt q (gowned (w_glob (m_w m))) + cnt q (flat_map (sowned tree) (m_sheets m)) + cnt q (downed (m_sum m)) + cnt q (downed (m_doc m)).
Proof. intros. unfold owned. cbn [cnt]. rewrite !cnt_app. lia. Qed.
Lemma cnt_gowned : forall g q, cnt q (gowned g) = cnt q (g_dfonts g) + cnt q (g_fonts g) + cnt q (g_fmts g) + cnt q (map xo_ptr (g_dxfs g)) + cnt q (map xo_ptr (g_xfs g)) + cnt q (g_styles g) + cnt q (g_bsheets g) + cnt q (opt_list (g_palette g)).
Proof. intros. unfold gowned. rewrite !cnt_app. lia. Qed.
Lemma cnt_sowned : forall tree s q, cnt q (sowned tree s) = one q (ms_ptr s) + cnt q (flat_map (cowned tree) (ms_cells s)) + cnt q (flat_map (cowned tree) (ms_notes s)) + cnt q (ms_merged s) + cnt q (map ml_ptr (ms_cols s))
  + cnt q (map ml_ptr (ms_rows s)) + cnt q (ms_ranges s) + cnt q (flat_map kowned (ms_stacks s)) + cnt q (map fst (ms_dvs s)) + cnt q (ms_links s).
Proof. intros. unfold sowned. cbn [cnt]. rewrite !cnt_app. lia. Qed.
Lemma cnt_mid : forall {A} (f : A -> list nat) l1 t l2 q, cnt q (flat_map f (l1 ++ t :: l2)) = cnt q (flat_map f l1) + cnt q (f t) + cnt q (flat_map f l2).
Proof. intros. rewrite flat_map_app, cnt_app. cbn [flat_map]. rewrite cnt_app. lia. Qed.
Lemma cnt_end : forall {A} (f : A -> list nat) l t q, cnt q (flat_map f (l ++ [t])) = cnt q (flat_map f l) + cnt q (f t).
Proof. intros. rewrite cnt_mid. cbn [flat_map cnt]. lia. Qed.
Lemma cnt_snoc : forall l p q, cnt q (l ++ [p]) = cnt q l + one q p.
Proof. intros. rewrite cnt_app. cbn [cnt]. lia. Qed.

Section Live.
Context {h : story} {m : mem} {tree : nat -> rose} {roots : list nat}.
Hypothesis I : minv h m tree roots.
Lemma owned_live : forall p, In p (owned tree m) -> live (m_w m) p.
Proof. intros p H. apply cnt_In in H. unfold live. rewrite (mi_cnt _ _ _ _ I). lia. Qed.
Lemma self_live : live (m_w m) (m_self m).
Proof. apply owned_live. left; reflexivity. Qed.
Lemma glob_live : glive (m_w m).
Proof. intros p H. apply owned_live. right. apply in_or_app; left; exact H. Qed.
Lemma groom_of : forall q, cnt q (gowned (w_glob (m_w m))) <= cnt q (h_live (w_heap (m_w m))).
Proof. intro q. rewrite (mi_cnt _ _ _ _ I), cnt_owned. lia. Qed.
Lemma sheet_live : forall s p, In s (m_sheets m) -> In p (sowned tree s) -> live (m_w m) p.
Proof. intros s p H1 H2. apply owned_live. right. apply in_or_app; right. apply in_or_app; left. apply in_flat_map. exists s; auto. Qed.
Lemma cells_live : forall s p, In s (m_sheets m) -> In p (map mc_ptr (ms_cells s)) -> live (m_w m) p.
Proof.
  intros s p H1 H2. apply (sheet_live s p H1). right. apply in_or_app; left. apply in_map_iff in H2. destruct H2 as [c [<- Hc]]. apply in_flat_map. exists c. split; [exact Hc|left; reflexivity].
Qed.
Lemma notes_live : forall s p, In s (m_sheets m) -> In p (map mc_ptr (ms_notes s)) -> live (m_w m) p.
Proof.
  intros s p H1 H2. apply (sheet_live s p H1). right. apply in_or_app; right. apply in_or_app; left. apply in_map_iff in H2. destruct H2 as [c [<- Hc]]. apply in_flat_map. exists c. split; [exact Hc|left; reflexivity].
Qed.
Lemma stack_live : forall p, In p (all_stacks m) -> live (m_w m) p.
Proof.
  intros p H. unfold all_stacks in H. apply in_flat_map in H. destruct H as [s [H1 H2]]. apply (sheet_live s p H1). apply cnt_In. rewrite cnt_sowned.
  assert (1 <= cnt p (flat_map kowned (ms_stacks s))); [|lia]. apply cnt_In. apply in_map_iff in H2. destruct H2 as [k [<- Hk]]. apply in_flat_map. exists k. split; [exact Hk|left; reflexivity].
Qed.
Lemma sum_live : forall p, In p (downed (m_sum m)) -> live (m_w m) p.
Proof. intros p H. apply owned_live. apply cnt_In. rewrite cnt_owned. apply cnt_In in H. lia. Qed.
Lemma doc_live : forall p, In p (downed (m_doc m)) -> live (m_w m) p.
Proof. intros p H. apply owned_live. apply cnt_In. rewrite cnt_owned. apply cnt_In in H. lia. Qed.
Lemma free_live : forall p, In p (free tree roots) -> live (m_w m) p.
Proof. intros p H. apply cnt_In in H. unfold live. rewrite (mi_cnt _ _ _ _ I). lia. Qed.
End Live.

(* ------------------------------------------------------------------ *)
(** * One step, in general *)

Lemma mstep : forall h m c a m' tree roots, minv h m tree roots ->
  hv (w_heap (m_w m')) ->
  (forall q, cnt q (h_live (w_heap (m_w m'))) + cnt q (owned tree m) = cnt q (h_live (w_heap (m_w m))) + cnt q (owned tree m')) ->
  ginv (w_glob (m_w m')) ->
  Forall (sinv (h ++ [(c, a)]) (w_glob (m_w m')) (w_nodes (m_w m')) tree (all_stacks m')) (m_sheets m') ->
  labok m' -> covers m m' -> newhandle c a m' -> place c = None -> places m' = places m ->
  minv (h ++ [(c, a)]) m' tree roots.
Proof.
  intros h m c a m' tree roots I V C G S L K N P E. constructor; try assumption.
  - intro q. specialize (C q). rewrite (mi_cnt _ _ _ _ I) in C. lia.
  - exact (handles_snoc h c a m m' (mi_hand _ _ _ _ I) K N).
  - intros pl p. rewrite stands_snoc, P, E, (mi_place _ _ _ _ I). split; [intros [[D _]|[_ H]]; [discriminate|exact H]|intro H; right; split; [discriminate|exact H]].
Qed.

(** A step that changes global lists and documents only. *)
Record gstep (w w' : world) : Prop := {
  gs_nodes : w_nodes w' = w_nodes w;
  gs_next : h_next (w_heap w) <= h_next (w_heap w');
  gs_hv : hv (w_heap w');
  gs_cnt : forall q, cnt q (h_live (w_heap w')) + cnt q (gowned (w_glob w)) = cnt q (h_live (w_heap w)) + cnt q (gowned (w_glob w'));
  gs_ginv : ginv (w_glob w');
  gs_labels : g_labels (w_glob w') = g_labels (w_glob w);
  gs_dxfs : g_dxfs (w_glob w') = g_dxfs (w_glob w);
  gs_fonts : incl (g_dfonts (w_glob w) ++ g_fonts (w_glob w)) (g_dfonts (w_glob w') ++ g_fonts (w_glob w')) /\ incl (g_fonts (w_glob w)) (g_fonts (w_glob w'));
  gs_fmts : incl (g_fmts (w_glob w)) (g_fmts (w_glob w'));
  gs_xfs : incl (map xo_ptr (g_xfs (w_glob w))) (map xo_ptr (g_xfs (w_glob w'))) }.
Lemma gstep_trans : forall a b c, gstep a b -> gstep b c -> gstep a c.
Proof.
  intros a b c [A1 A2 A3 A4 A5 A6 A7 [A8 A8'] A9 A10] [B1 B2 B3 B4 B5 B6 B7 [B8 B8'] B9 B10]. constructor; try assumption; try congruence; try lia.
  - intro q. specialize (A4 q); specialize (B4 q). lia.
  - split; [exact (incl_tran A8 B8)|exact (incl_tran A8' B8')].
  - exact (incl_tran A9 B9).
  - exact (incl_tran A10 B10).
Qed.
Lemma gstep_refl : forall w, hv (w_heap w) -> ginv (w_glob w) -> gstep w w.
Proof. intros w V G. constructor; auto; try apply incl_refl. split; apply incl_refl. Qed.
Lemma gstep_xin : forall w w' x, gstep w w' -> xin (w_glob w) x -> xin (w_glob w') x.
Proof.
  intros w w' x G H. unfold xin in *. rewrite map_app in *. rewrite (gs_dxfs _ _ G). apply in_app_or in H. apply in_or_app. destruct H as [H|H]; [left; exact H|right; exact (gs_xfs _ _ G x H)].
Qed.
Lemma gstep_room : forall w w', gstep w w' -> (forall q, cnt q (gowned (w_glob w)) <= cnt q (h_live (w_heap w))) -> forall q, cnt q (gowned (w_glob w')) <= cnt q (h_live (w_heap w')).
Proof. intros w w' G H q. specialize (H q). assert (X := gs_cnt _ _ G q). lia. Qed.
Lemma room_glive : forall w, (forall q, cnt q (gowned (w_glob w)) <= cnt q (h_live (w_heap w))) -> glive w.
Proof. intros w H p I. apply cnt_In in I. unfold live. specialize (H p). lia. Qed.

Lemma keep_step : forall h m c a w' tree roots, minv h m tree roots -> gstep (m_w m) w' -> newhandle c a (keep m w') -> place c = None -> minv (h ++ [(c, a)]) (keep m w') tree roots.
Proof.
  intros h m c a w' tree roots I G N P. apply (mstep h m); try assumption.
  - exact (gs_hv _ _ G).
  - intro q. rewrite !cnt_owned. cbn [keep m_w m_self m_sheets m_sum m_doc]. assert (X := gs_cnt _ _ G q). lia.
  - exact (gs_ginv _ _ G).
  - cbn [keep m_w m_sheets]. rewrite (gs_nodes _ _ G). refine (Forall_impl _ _ (mi_s _ _ _ _ I)). intros s H. refine (sinv_mono _ _ _ _ _ _ _ _ _ _ _ H); [intro x; apply (gstep_xin _ _ _ G)|apply incl_refl].
  - intros p H. cbn [keep m_w] in H. rewrite (gs_labels _ _ G) in H. exact (mi_lab _ _ _ _ I p H).
  - destruct G as [_ _ _ _ _ _ _ [_ F] M X]. constructor; try assumption; apply incl_refl.
  - reflexivity.
Qed.

Lemma w_new_ok : forall w p w', hv (w_heap w) -> w_new w = (p, w') -> p = h_next (w_heap w) /\ hv (w_heap w') /\ h_next (w_heap w') = S (h_next (w_heap w)) /\ w_nodes w' = w_nodes w /\ w_glob w' = w_glob w
  /\ forall q, cnt q (h_live (w_heap w')) = one q p + cnt q (h_live (w_heap w)).
Proof.
  intros w p w' V E. unfold w_new in E. destruct (h_new (w_heap w)) as [q h] eqn:H. injection E as <- <-. destruct (h_new_ok _ _ _ V H) as (A & B & C & D).
  cbn [up_heap w_heap w_nodes w_glob]. auto 10.
Qed.
Lemma forall_xok_mono : forall g g' l, incl (g_dfonts g ++ g_fonts g) (g_dfonts g' ++ g_fonts g') -> incl (g_fmts g) (g_fmts g') -> Forall (xok g) l -> Forall (xok g') l.
Proof.
  intros g g' l A B F. refine (Forall_impl _ _ F). intros x [X Y]. split; [destruct (xo_font x); cbn [ofin] in *; auto|destruct (xo_fmt x); cbn [ofin] in *; auto].
Qed.

#[local] Arguments gowned : simpl never.
#[local] Arguments one : simpl never.
#[local] Arguments sowned : simpl never.
#[local] Arguments downed : simpl never.

Lemma add_font_ok : forall w p w', hv (w_heap w) -> ginv (w_glob w) -> add_font w = (p, w') -> gstep w w' /\ In p (g_fonts (w_glob w')).
Proof.
  intros w p w' V [G1 G2] E. unfold add_font in E. destruct (w_new w) as [q w1] eqn:H. injection E as <- <-. destruct (w_new_ok _ _ _ V H) as (A & B & C & D & F & K).
  split; [|cbn; apply in_or_app; right; left; reflexivity]. rewrite F. constructor; cbn; try assumption; try lia; try apply incl_refl.
  - intro r. specialize (K r). rewrite !cnt_gowned. cbn. rewrite cnt_snoc. lia.
  - split; [|exact G2]. refine (forall_xok_mono _ _ _ _ _ G1); cbn; [rewrite app_assoc; apply incl_appl|]; apply incl_refl.
  - reflexivity.
  - reflexivity.
  - split; [rewrite app_assoc|]; apply incl_appl, incl_refl.
Qed.
Lemma add_fmt_ok : forall w p w', hv (w_heap w) -> ginv (w_glob w) -> add_fmt w = (p, w') -> gstep w w' /\ In p (g_fmts (w_glob w')).
Proof.
  intros w p w' V [G1 G2] E. unfold add_fmt in E. destruct (w_new w) as [q w1] eqn:H. injection E as <- <-. destruct (w_new_ok _ _ _ V H) as (A & B & C & D & F & K).
  split; [|cbn; apply in_or_app; right; left; reflexivity]. rewrite F. constructor; cbn; try assumption; try lia; try apply incl_refl.
  - intro r. specialize (K r). rewrite !cnt_gowned. cbn. rewrite cnt_snoc. lia.
  - split; [|exact G2]. refine (forall_xok_mono _ _ _ _ _ G1); cbn; [|apply incl_appl]; apply incl_refl.
  - reflexivity.
  - reflexivity.
  - split; apply incl_refl.
  - apply incl_appl, incl_refl.
Qed.
Lemma add_xf_ok : forall w f fm, hv (w_heap w) -> ginv (w_glob w) -> (forall q, cnt q (gowned (w_glob w)) <= cnt q (h_live (w_heap w))) ->
  ofin (g_dfonts (w_glob w) ++ g_fonts (w_glob w)) f -> ofin (g_fmts (w_glob w)) fm ->
  exists p w', add_xf w f fm = Ok (p, w') /\ gstep w w' /\ g_xfs (w_glob w') = g_xfs (w_glob w) ++ [mkXfo p f fm] /\ p = h_next (w_heap w).
Proof.
  intros w f fm V [G1 G2] R F M. unfold add_xf. assert (L := room_glive _ R).
  rewrite (uses_opt w _ f F) by (intros p Hp; apply L, in_gowned_font, Hp). cbn [bind]. rewrite (uses_opt w _ fm M) by (intros p Hp; apply L, in_gowned_fmt, Hp). cbn [bind].
  destruct (w_new w) as [q w1] eqn:H. destruct (w_new_ok _ _ _ V H) as (A & B & C & D & E & K). exists q. eexists. split; [reflexivity|]. unfold put_xfs, up_glob. rewrite E.
  split; [|split; [reflexivity|exact A]]. constructor; cbn; try assumption; try lia; try apply incl_refl.
  - intro r. specialize (K r). rewrite !cnt_gowned. cbn. rewrite map_app. cbn [map xo_ptr]. rewrite cnt_snoc. lia.
  - split; [|exact G2]. cbn. rewrite app_assoc. apply Forall_app. split; [exact G1|]. constructor; [split; assumption|constructor].
  - reflexivity.
  - reflexivity.
  - split; apply incl_refl.
  - rewrite map_app. apply incl_appl, incl_refl.
Qed.
Lemma dup_xf_ok : forall w x, hv (w_heap w) -> ginv (w_glob w) -> (forall q, cnt q (gowned (w_glob w)) <= cnt q (h_live (w_heap w))) -> xin (w_glob w) x ->
  exists p w' f fm, dup_xf w x = Ok (p, w') /\ gstep w w' /\ g_xfs (w_glob w') = g_xfs (w_glob w) ++ [mkXfo p f fm] /\ p = h_next (w_heap w).
Proof.
  intros w x V G R X. unfold dup_xf. assert (L := room_glive _ R). rewrite use_ok by (apply L, in_gowned_xf, X). cbn [bind].
  destruct (find_xf_some _ _ X) as [o [E [I _]]]. rewrite E. destruct G as [G1 G2]. rewrite Forall_forall in G1. destruct (G1 o I) as [F M].
  destruct (add_xf_ok w (xo_font o) (xo_fmt o) V) as (p & w' & A & B & C & D); try assumption; [split; [rewrite Forall_forall; exact G1|exact G2]|].
  exists p, w', (xo_font o), (xo_fmt o). auto.
Qed.
Definition settle (x : nat) (f m : option nat) (o : xfo) : xfo := if Nat.eqb (xo_ptr o) x then mkXfo x (pick f (xo_font o)) (pick m (xo_fmt o)) else o.
Lemma settle_ptr : forall x f m l, map xo_ptr (map (settle x f m) l) = map xo_ptr l.
Proof.
  intros. rewrite map_map. apply map_ext. intro o. unfold settle. destruct (Nat.eqb_spec (xo_ptr o) x); [subst; reflexivity|reflexivity].
Qed.
Lemma ofin_pick : forall l a b, ofin l a -> ofin l b -> ofin l (pick a b).
Proof. intros l [a|] [b|] A B; assumption. Qed.
Lemma set_xf_ok : forall w x f fm, hv (w_heap w) -> ginv (w_glob w) -> (forall q, cnt q (gowned (w_glob w)) <= cnt q (h_live (w_heap w))) -> xin (w_glob w) x ->
  ofin (g_dfonts (w_glob w) ++ g_fonts (w_glob w)) f -> ofin (g_fmts (w_glob w)) fm ->
  exists w', set_xf w x f fm = Ok w' /\ gstep w w' /\ g_xfs (w_glob w') = map (settle x f fm) (g_xfs (w_glob w)).
Proof.
  intros w x f fm V G R X F M. unfold set_xf. assert (L := room_glive _ R). rewrite touch_ok by assumption. cbn [bind].
  rewrite (uses_opt w _ f F) by (intros p Hp; apply L, in_gowned_font, Hp). cbn [bind]. rewrite (uses_opt w _ fm M) by (intros p Hp; apply L, in_gowned_fmt, Hp). cbn [bind].
  eexists. split; [reflexivity|]. split; [|reflexivity]. fold (settle x f fm). destruct G as [G1 G2]. constructor; cbn; try assumption; try apply incl_refl; try reflexivity; try lia.
  - intro r. rewrite !cnt_gowned. cbn. rewrite settle_ptr. reflexivity.
  - split; [|exact G2]. cbn. apply Forall_app in G1. destruct G1 as [Ga Gb]. apply Forall_app. split; [exact Ga|]. apply Forall_map. refine (Forall_impl _ _ Gb). intros o [P Q]. unfold settle.
    destruct (Nat.eqb (xo_ptr o) x); [|split; assumption]. split; cbn; apply ofin_pick; assumption.
  - split; apply incl_refl.
  - rewrite settle_ptr. apply incl_refl.
Qed.
