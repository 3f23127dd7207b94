(** Numbers written together with a built-in number format (C55). *)
From Coq Require Import ZArith List Bool Lia ZifyBool ZifyNat.
From Verif Require Import Bytes UnitModel SpecBuf RecModel SheetModel XfModel WbModel RecProofs RecFrames SpecXf XfProofs SpecXfOps PropsXf XfInv Looks ApiModel ApiInv
  SpecBiff SpecApi SpecSaved SheetProofs ApiEff SaveOk SaveRecs SaveRead SaveMeans DocLimits SavedView XfTrace SpecLook LookInv ViewPay RefTrace LookStep ViewLook CellLook Handles BookRecs
  PropsSheet PropsRows PropsLook PropsFonts DemoDoc RangeModel RangePaint RangeLooks SpecPaint PropsPaint SpecQuery QueryModel PropsQuery NumFmtModel SpecNumFmt.
Import ListNotations.
Local Open Scope Z_scope.
Local Notation few := LookInv.few.
Local Strategy 1000 [wb_new fstate_init api_cell api_cellop].

(* ------------------------------------------------------------------ *)
(** * The call as ordinary calls *)

Definition writes (k : nat) (r c bits : Z) (p : option Z) : call := KCell k r c (UDouble bits) p.
Definition reformats (k : nat) (r c fmt : Z) : call := KCellOp k r c (CFormat (FXf (XFormatNum fmt))).
Lemma number_steps w k r c bits fmt p w2 : api_number w k r c bits fmt p = Ok w2 ->
  fmt <= 35 /\ exists w1, api_call w (writes k r c bits p) = Ok w1
    /\ ((w2 = w1 /\ match p with None => fmt = 0 | Some i => exists x, xf_at (wb_fs w1) i = Some x /\ get_format x = fmt end)
        \/ (api_call w1 (reformats k r c fmt) = Ok w2 /\ match p with None => fmt <> 0 | Some i => exists x, xf_at (wb_fs w1) i = Some x /\ get_format x <> fmt end)).
Proof.
  unfold api_number. intro H. destruct (fmt <=? 35) eqn:B; cbn [xl_assert bind] in H; [|discriminate H]. split; [lia|].
  destruct (api_cell w k r c (UDouble bits) p) as [w1| |] eqn:E; cbn [bind] in H; try discriminate H. exists w1. split; [exact E|]. cbv zeta in H.
  destruct p as [i|].
  - destruct (xf_at (wb_fs w1) i) as [x|]; [|discriminate H]. destruct (get_format x =? fmt) eqn:G.
    + apply ok_inj in H. left. split; [symmetry; exact H|]. exists x. split; [reflexivity|]. lia.
    + right. split; [exact H|]. exists x. split; [reflexivity|]. lia.
  - destruct (fmt =? 0) eqn:G.
    + apply ok_inj in H. left. split; [symmetry; exact H|]. lia.
    + right. split; [exact H|]. lia.
Qed.
Lemma n_snoc xs x w' : ndocument (xs ++ [x]) = Ok w' -> exists w, ndocument xs = Ok w /\ ncall_do w x = Ok w'.
Proof.
  unfold ndocument. intro H. apply bind_ok in H. destruct H as (w0 & E0 & H). rewrite fold_res_app in H. apply bind_ok in H. destruct H as (w1 & H1 & H). exists w1. rewrite E0. cbn [bind].
  split; [exact H1|]. cbn [fold_res] in H. apply bind_ok in H. destruct H as (w2 & H2 & H). apply ok_inj in H. subst. exact H2.
Qed.
Record nstands (xs : list ncall) (calls : list call) (w : wb) : Prop := {
  ns_doc : document calls = Ok w;
  ns_typed : Forall typed calls;
  ns_facts : same_facts calls (map plain_of xs);
  ns_fits : forall R, Forall (call_fits R) (map plain_of xs) -> Forall (call_fits R) calls;
  ns_args : Forall nargs xs -> Forall args calls }.
Lemma sf_op a b k r c o : same_facts a b -> same_facts (a ++ [KCellOp k r c o]) b.
Proof.
  intros [A1 A2 A3 A4 A5 A6 A7 A8 A9 A10]. constructor; intros;
    unfold sheet_names, cells_of, merges_of, width_of, height_of, note_of, links_of, dvs_of, colour_of in *;
    rewrite ?flat_map_app, ?fold_left_app, ?filter_app; cbn [flat_map fold_left names_step cells_step]; cbn; rewrite ?app_nil_r; auto.
Qed.
Lemma stands_call xs calls w x w' : nstands xs calls w -> typed (plain_of x) -> (nargs x -> args (plain_of x)) -> api_call w (plain_of x) = Ok w' -> nstands (xs ++ [x]) (calls ++ [plain_of x]) w'.
Proof.
  intros [D T F Ft A] Tx Ax C. constructor.
  - exact (document_step _ _ _ _ D C).
  - apply Forall_app. auto.
  - rewrite map_app. apply sf_snoc. exact F.
  - intros R HR. rewrite map_app in HR. apply Forall_app in HR. apply Forall_app. destruct HR. auto.
  - intro HA. apply Forall_app in HA. destruct HA as [HA Hq]. apply Forall_inv in Hq. apply Forall_app. auto.
Qed.
Lemma n_stands_step xs calls w x w' : nstands xs calls w -> typed (plain_of x) -> ncall_do w x = Ok w' ->
  nstands (xs ++ [x]) (calls ++ [plain_of x]) w'
  \/ exists k r c bits fmt p w1, x = NNumber k r c bits fmt p /\ api_call w (plain_of x) = Ok w1 /\ nstands (xs ++ [x]) (calls ++ [plain_of x] ++ [reformats k r c fmt]) w'.
Proof.
  intros St Tx H. destruct x as [q|k r c bits fmt p]; cbn [ncall_do] in H.
  - left. apply (stands_call _ _ _ (NCall q) _ St Tx); [intros [A _]; exact A|exact H].
  - destruct (number_steps _ _ _ _ _ _ _ _ H) as (B & w1 & E & [[-> _]|[E2 _]]).
    + left. apply (stands_call _ _ _ _ _ St Tx); [intros [A _]; exact A|exact E].
    + right. exists k, r, c, bits, fmt, p, w1. split; [reflexivity|]. split; [exact E|].
      pose proof (stands_call _ _ _ (NNumber k r c bits fmt p) _ St Tx (fun A => proj1 A) E) as [D T F Ft A]. rewrite app_assoc. constructor.
      * exact (document_step _ _ _ _ D E2).
      * apply Forall_app. split; [exact T|repeat constructor].
      * apply sf_op. exact F.
      * intros R HR. apply Forall_app. split; [exact (Ft R HR)|repeat constructor].
      * intro HA. apply Forall_app. split; [exact (A HA)|]. apply Forall_app in HA. destruct HA as [_ HA]. apply Forall_inv in HA. destruct HA as [_ HA]. constructor; [exact HA|constructor].
Qed.
Lemma n_empty w : ndocument [] = Ok w -> document [] = Ok w.
Proof. unfold ndocument, document, api_run. cbn [fold_res]. intro H. exact H. Qed.
Lemma n_stands xs : forall w, Forall typed (map plain_of xs) -> ndocument xs = Ok w -> exists calls, nstands xs calls w.
Proof.
  induction xs as [|x xs IH] using rev_ind; intros w T H.
  - exists []. apply (Build_nstands [] []); [exact (n_empty w H)|constructor|apply sf_refl|intros; constructor|intros; constructor].
  - rewrite map_app in T. apply Forall_app in T. destruct T as [T Tx]. apply Forall_inv in Tx. apply n_snoc in H. destruct H as (w0 & H0 & H). destruct (IH _ T H0) as (calls & St).
    destruct (n_stands_step _ _ _ _ _ St Tx H) as [S2|(k & r & c & bits & fmt & p & w1 & _ & _ & S2)]; eauto.
Qed.
Lemma nstands_saved R moves xs s calls w : nsaved_ok R moves xs s -> nstands xs calls w -> ndocument xs = Ok w -> saved_ok R moves calls s.
Proof.
  intros [HR T [F1 F2 F3 F4] C (w' & after & D & Sv)] [Dc Tc [A1 A2 A3 A4 A5 A6 A7 A8 A9 A10] Ft A] Dx. rewrite D in Dx. apply ok_inj in Dx. subst w'.
  constructor; auto.
  - constructor; [auto|rewrite A1; exact F2|rewrite A10; exact F3|]. intro k. destruct (F4 k) as (rows & L & Hr). exists rows. split; [exact L|]. intros r H. rewrite A5 in H. destruct (Hr r H) as [J|(c & u & J)]; [auto|right; exists c, u; rewrite A2; exact J].
  - exists w, after. split; [exact Dc|exact Sv].
Qed.
Lemma nstands_view R moves xs s calls w : nsaved_ok R moves xs s -> nstands xs calls w -> ndocument xs = Ok w -> view R calls s w.
Proof.
  intros H S D. pose proof (nstands_saved _ _ _ _ _ _ H S D) as V. apply saved_view in V. destruct V as (w' & V). pose proof (vw_doc _ _ _ _ V) as Q. rewrite (ns_doc _ _ _ S) in Q. apply ok_inj in Q. subst w'. exact V.
Qed.
Lemma nsaved_doc R moves xs s : nsaved_ok R moves xs s -> exists w, ndocument xs = Ok w.
Proof. intros [_ _ _ _ (w & after & D & _)]. eauto. Qed.

(* ------------------------------------------------------------------ *)
(** * The document *)

(** C55 (ordinary): a history with such numbers saves the document that ordinary calls would,
    with the same contents as if the number formats had been left out. *)
Theorem C55_ordinary R moves xs s : nsaved_ok R moves xs s ->
  exists calls, saved_ok R moves calls s /\ same_facts calls (map plain_of xs) /\ (Forall nargs xs -> Forall args calls).
Proof.
  intro H. destruct (nsaved_doc _ _ _ _ H) as (w & D). destruct (n_stands _ _ (no_typed _ _ _ _ H) D) as (calls & S). exists calls.
  split; [exact (nstands_saved _ _ _ _ _ _ H S D)|]. split; [exact (ns_facts _ _ _ S)|exact (ns_args _ _ _ S)].
Qed.
Print Assumptions C55_ordinary.

(** C55 (contents): the cell holds the number, all other cells what they held. *)
Theorem C55_contents R moves xs k r c bits fmt p s : nsaved_ok R moves (xs ++ [NNumber k r c bits fmt p]) s ->
  (exists x, cell_record s k r c = Some x /\ rc_val x = RNum (NDouble bits))
  /\ forall R' moves' s1 k' r' c', nsaved_ok R' moves' xs s1 -> (k', r', c') <> (k, r, c) ->
       option_map rc_val (cell_record s k' r' c') = option_map rc_val (cell_record s1 k' r' c').
Proof.
  intro H. destruct (nsaved_doc _ _ _ _ H) as (w & D). destruct (n_stands _ _ (no_typed _ _ _ _ H) D) as (calls & S). pose proof (nstands_view _ _ _ _ _ _ H S D) as V.
  assert (E : forall k' r' c', option_map rc_val (cell_record s k' r' c') = option_map (fun u => read_as (make_val 0 u)) (if here k' k r' r c' c then Some (UDouble bits) else cells_of k' (map plain_of xs) r' c')).
  { intros k' r' c'. rewrite (view_value _ _ _ _ k' r' c' V), (wv_reads _ _ _ _ _ (vw_means _ _ _ _ V)), (sf_cells _ _ (ns_facts _ _ _ S)). f_equal.
    unfold cells_of. rewrite map_app, fold_left_app. cbn [map plain_of fold_left cells_step]. unfold here. reflexivity. }
  split.
  - specialize (E k r c). rewrite here_refl in E. destruct (cell_record s k r c) as [x|]; [|discriminate E]. exists x. split; [reflexivity|]. cbn [option_map] in E. apply some_inj in E. exact E.
  - intros R' moves' s1 k' r' c' H1 N. destruct (nsaved_doc _ _ _ _ H1) as (w1 & D1). destruct (n_stands _ _ (no_typed _ _ _ _ H1) D1) as (calls1 & S1). pose proof (nstands_view _ _ _ _ _ _ H1 S1 D1) as V1.
    rewrite E, (view_value _ _ _ _ k' r' c' V1), (wv_reads _ _ _ _ _ (vw_means _ _ _ _ V1)), (sf_cells _ _ (ns_facts _ _ _ S1)). f_equal.
    replace (here k' k r' r c' c) with false; [reflexivity|]. symmetry. apply not_here. exact N.
Qed.
Print Assumptions C55_contents.

(* ------------------------------------------------------------------ *)
(** * The look of the cell *)

Lemma stock_fmt calls : forall w, Forall typed calls -> Forall args calls -> document calls = Ok w -> exists x, xf_at (wb_fs w) 15 = Some x /\ x_fmt x = 0.
Proof.
  induction calls as [|q calls IH] using rev_ind; intros w T A D.
  - apply document_nil in D. pose proof (wb_new_fs _ D) as E.
    assert (K : match fstate_init with Ok f => match xf_at f 15 with Some x => x_fmt x =? 0 | None => false end | _ => false end = true) by (vm_compute; reflexivity).
    rewrite E in K. destruct (xf_at (wb_fs w) 15) as [x|]; [|discriminate K]. exists x. split; [reflexivity|lia].
  - apply Forall_app in T. destruct T as [T Tq]. apply Forall_inv in Tq. apply Forall_app in A. destruct A as [A Aq]. apply Forall_inv in Aq.
    destruct (document_snoc _ _ _ D) as (w0 & D0 & C). destruct (IH w0 T A D0) as (x & E & Z0). destruct (call_retains _ _ _ _ T D0 Tq C) as [H _]. destruct (H _ _ E) as (y & Ey & M). exists y. split; [exact Ey|].
    assert (Cy : core y = core x). { destruct q; try exact M. destruct Aq as [Aq _]. replace (p =? 15) with false in M by lia. exact M. }
    rewrite <- Z0. change (x_fmt y) with (x_fmt (core y)). rewrite Cy. reflexivity.
Qed.
Lemma builtin_number R calls s w i : view R calls s w -> few_records s -> Forall args calls -> i < 164 -> number_rec (wb_fs w) i = Some (Builtin i).
Proof.
  intros V Fw A L. destruct (view_few _ _ _ _ V Fw) as [F _]. pose proof (vw_typed _ _ _ _ V) as T. pose proof (vw_doc _ _ _ _ V) as D. pose proof (formats_typed _ _ T A D) as Ft.
  pose proof (li_formats _ _ (vw_limits _ _ _ _ V)) as Lm. unfold number_rec.
  destruct (read_formats (fs_formats (wb_fs w)) 164) as (r & Er & N & _); [lia|destruct F as (_ & F & _); lia| |].
  { apply Forall_forall. intros x J. split; [rewrite Forall_forall in Ft; apply Ft; unfold fstrs; apply in_map; exact J|]. rewrite Forall_forall in Lm. specialize (Lm x J). cbv beta in Lm. lia. }
  rewrite Er, (N i L). reflexivity.
Qed.
Lemma renumber fmt a : spec_set (FXf (XFormatNum fmt)) a = renumbered (format_code fmt) a.
Proof. destruct a as [fo nf lk hd ha wr va ro ind l r t b pat fg bg u]. unfold renumbered. cbn [spec_set xa_font xa_locked xa_hidden xa_halign xa_wrap xa_valign xa_rotation xa_indent xa_left xa_right xa_top xa_bottom xa_pattern xa_fore xa_back xa_used]. unfold on. destruct (format_code fmt =? 0); reflexivity. Qed.
Lemma code_range fmt : 0 <= fmt <= 35 -> 0 <= format_code fmt < 164 /\ (format_code fmt = 0 -> fmt = 0).
Proof. unfold format_code. intro B. destruct (fmt <=? 22) eqn:E1, (fmt <=? 35) eqn:E2; lia. Qed.

(** What the call does to the format objects: they all stay as they are. *)
Lemma write_keeps calls w k r c bits p w1 : Forall typed calls -> document calls = Ok w -> typed (writes k r c bits p) -> api_call w (writes k r c bits p) = Ok w1 ->
  keeps (wb_fs w) (wb_fs w1) /\ forall k' r' c', xfat w1 k' r' c' = if here k' k r' r c' c then Some (base_of p) else xfat w k' r' c'.
Proof.
  intros T D Tq C. pose proof (mn_inv _ _ (run_means _ _ T D)) as I0. split.
  - eapply (rsteps_keeps (writes k r c bits p)); [intros a b []|intros o' []|]. exact (call_rsteps _ _ _ I0 Tq C).
  - intros k' r' c'. cbn [writes typed] in Tq. rewrite (cell_xfat _ _ _ _ _ _ _ I0 (proj1 Tq) (proj1 (proj2 Tq)) C). destruct p; reflexivity.
Qed.
Lemma op_keeps calls w k r c fmt w2 : Forall typed calls -> document calls = Ok w -> api_call w (reformats k r c fmt) = Ok w2 ->
  exists b q, xfat w k r c = Some b /\ cell_format (wb_fs w) b (FXf (XFormatNum fmt)) = Ok (wb_fs w2, q) /\ keeps (wb_fs w) (wb_fs w2) /\ grows (wb_fs w) (wb_fs w2)
    /\ forall k' r' c', xfat w2 k' r' c' = if here k' k r' r c' c then Some q else xfat w k' r' c'.
Proof.
  intros T D C. pose proof (mn_inv _ _ (run_means _ _ T D)) as I0. destruct (cellop_xfat _ _ _ _ _ _ I0 C) as (b & q & X & Ho & A). exists b, q.
  split; [exact X|]. split; [exact Ho|]. split; [eapply cellop_keeps; [|exact Ho]; intros f E; discriminate E|]. split; [|exact A].
  exact (proj1 (cellop_grows _ _ _ _ _ (xfat_valid _ _ _ _ _ I0 X) Ho)).
Qed.
Lemma number_effect calls w k r c bits fmt p w2 : Forall typed calls -> document calls = Ok w -> typed (writes k r c bits p) -> api_number w k r c bits fmt p = Ok w2 ->
  keeps (wb_fs w) (wb_fs w2) /\ forall k' r' c', here k' k r' r c' c = false -> xfat w2 k' r' c' = xfat w k' r' c'.
Proof.
  intros T D Tq H. destruct (number_steps _ _ _ _ _ _ _ _ H) as (B & w1 & E & H2). destruct (write_keeps _ _ _ _ _ _ _ _ T D Tq E) as [K1 X1].
  destruct H2 as [[-> _]|[E2 _]]; [split; [exact K1|]; intros k' r' c' N; rewrite X1, N; reflexivity|].
  destruct (op_keeps _ _ _ _ _ _ _ ltac:(apply Forall_app; split; [exact T|constructor; [exact Tq|constructor]]) (document_step _ _ _ _ D E) E2) as (b & q & _ & _ & K2 & _ & X2).
  split; [eapply keeps_trans; eauto|]. intros k' r' c' N. rewrite X2, N, X1, N. reflexivity.
Qed.

(** C55 (others): no other cell and no format object changes its look. *)
Theorem C55_others R moves R' moves' xs k r c bits fmt p s1 s2 :
  nsaved_ok R moves xs s1 -> nsaved_ok R' moves' (xs ++ [NNumber k r c bits fmt p]) s2 ->
  (forall k' r' c' l, (k', r', c') <> (k, r, c) -> cell_look s1 k' r' c' = Some l -> cell_look s2 k' r' c' = Some l)
  /\ forall g1 g2 i l, globals_of s1 = Some g1 -> globals_of s2 = Some g2 -> read_look g1 i = Some l -> read_look g2 i = Some l.
Proof.
  intros H1 H2. destruct (nsaved_doc _ _ _ _ H2) as (w2 & D2). destruct (n_snoc _ _ _ D2) as (w1 & D1 & C).
  destruct (n_stands _ _ (no_typed _ _ _ _ H1) D1) as (calls & S). pose proof (nstands_view _ _ _ _ _ _ H1 S D1) as V1.
  destruct (n_stands _ _ (no_typed _ _ _ _ H2) D2) as (calls2 & S2). pose proof (nstands_view _ _ _ _ _ _ H2 S2 D2) as V2.
  pose proof (no_typed _ _ _ _ H2) as T. rewrite map_app in T. apply Forall_app in T. destruct T as [_ Tx]. apply Forall_inv in Tx.
  destruct (number_effect _ _ _ _ _ _ _ _ _ (ns_typed _ _ _ S) (ns_doc _ _ _ S) Tx C) as [K X]. split.
  - intros k' r' c' l N L. rewrite (view_cell_look _ _ _ _ V1) in L. rewrite (view_cell_look _ _ _ _ V2), (X _ _ _ (not_here _ _ _ _ _ _ N)).
    destruct (xfat w1 k' r' c') as [i|]; [|discriminate L]. rewrite (view_look _ _ _ _ V1) in L. rewrite (view_look _ _ _ _ V2). eapply xlook_keeps; eauto.
  - intros g1 g2 i l G1 G2 L. rewrite (view_gof _ _ _ _ V1) in G1. rewrite (view_gof _ _ _ _ V2) in G2. apply some_inj in G1, G2. subst g1 g2.
    rewrite (view_look _ _ _ _ V1) in L. rewrite (view_look _ _ _ _ V2). eapply xlook_keeps; eauto.
Qed.
Print Assumptions C55_others.

(** C55 (format): the cell shows the built-in number format asked for; in everything else it
    looks like the format object passed (or like cells without one).  Left out is FMT_GENERAL
    asked for with a format object that has a number format of the user's own. *)
Theorem C55_number_format_partial R moves xs k r c bits fmt p s g base :
  nsaved_ok R moves (xs ++ [NNumber k r c bits fmt p]) s -> Forall nargs (xs ++ [NNumber k r c bits fmt p]) -> few_records s ->
  globals_of s = Some g -> read_look g (base_of p) = Some base ->
  fmt <> 0 \/ (exists v, named v (xa_numfmt (lk_attrs base))) ->
  exists l, cell_look s k r c = Some l /\ lk_number l = Builtin (format_code fmt) /\ lk_font l = lk_font base
    /\ lk_attrs l = if xa_numfmt (lk_attrs base) =? format_code fmt then lk_attrs base else renumbered (format_code fmt) (lk_attrs base).
Proof.
  intros H An Fw G Lb Cond. destruct (nsaved_doc _ _ _ _ H) as (w2 & D2). destruct (n_snoc _ _ _ D2) as (w & D & C). cbn [ncall_do] in C.
  pose proof (no_typed _ _ _ _ H) as T. rewrite map_app in T. apply Forall_app in T. destruct T as [T Tx]. apply Forall_inv in Tx.
  apply Forall_app in An. destruct An as [An Ax]. apply Forall_inv in Ax. destruct Ax as [Ap F0].
  destruct (n_stands _ _ T D) as (calls & S0). destruct (number_steps _ _ _ _ _ _ _ _ C) as (F35 & w1 & E & Hs).
  pose proof (stands_call _ _ _ (NNumber k r c bits fmt p) _ S0 Tx (fun A => proj1 A) E) as S1. cbn [plain_of] in S1. fold (writes k r c bits p) in S1.
  assert (A1 : Forall args (calls ++ [writes k r c bits p])) by (apply (ns_args _ _ _ S1); apply Forall_app; split; [exact An|constructor; [split; assumption|constructor]]).
  destruct (write_keeps _ _ _ _ _ _ _ _ (ns_typed _ _ _ S0) (ns_doc _ _ _ S0) Tx E) as [_ X1].
  pose proof (code_range fmt ltac:(lia)) as [Bc Nc].
  assert (X1h : xfat w1 k r c = Some (base_of p)) by (rewrite X1, here_refl; reflexivity).
  pose proof (xfat_valid _ _ _ _ _ (mn_inv _ _ (run_means _ _ (ns_typed _ _ _ S1) (ns_doc _ _ _ S1))) X1h) as Vb.
  (* the state saved *)
  assert (Z0 : exists more, nstands (xs ++ [NNumber k r c bits fmt p]) ((calls ++ [writes k r c bits p]) ++ more) w2 /\ Forall args ((calls ++ [writes k r c bits p]) ++ more)
            /\ keeps (wb_fs w1) (wb_fs w2) /\ grows (wb_fs w1) (wb_fs w2)
            /\ exists q, xfat w2 k r c = Some q /\ ((q = base_of p /\ w2 = w1 /\ match p with None => fmt = 0 | Some i => exists x, xf_at (wb_fs w1) i = Some x /\ get_format x = fmt end)
                 \/ (cell_format (wb_fs w1) (base_of p) (FXf (XFormatNum fmt)) = Ok (wb_fs w2, q) /\ match p with None => fmt <> 0 | Some i => exists x, xf_at (wb_fs w1) i = Some x /\ get_format x <> fmt end))).
  { destruct Hs as [[-> Hp]|[E2 Hp]].
    - exists []. rewrite app_nil_r. split; [exact S1|]. split; [exact A1|]. split; [apply keeps_refl|]. split; [apply grows_refl|]. exists (base_of p). split; [exact X1h|]. left. auto.
    - exists [reformats k r c fmt]. destruct (op_keeps _ _ _ _ _ _ _ (ns_typed _ _ _ S1) (ns_doc _ _ _ S1) E2) as (b & q & Xb & Hc & K2 & G2 & X2).
      rewrite X1h in Xb. apply some_inj in Xb. subst b. destruct S1 as [D1' T1 F1 Ft1 Ag1]. split.
      + constructor.
        * exact (document_step _ _ _ _ D1' E2).
        * apply Forall_app. split; [exact T1|repeat constructor].
        * apply sf_op. exact F1.
        * intros R0 HR. apply Forall_app. split; [exact (Ft1 R0 HR)|repeat constructor].
        * intros _. apply Forall_app. split; [exact A1|]. constructor; [exact F0|constructor].
      + split; [apply Forall_app; split; [exact A1|constructor; [exact F0|constructor]]|]. split; [exact K2|]. split; [exact G2|]. exists q. split; [rewrite X2, here_refl; reflexivity|]. right. auto. }
  destruct Z0 as (more & S2 & A2 & K2 & G2 & q & Xq & Hq). clear Hs. pose proof (nstands_view _ _ _ _ _ _ H S2 D2) as V2.
  destruct (view_few _ _ _ _ V2 Fw) as [F2 M2]. pose proof (few_back _ _ G2 F2) as F1.
  rewrite (view_gof _ _ _ _ V2) in G. apply some_inj in G. subst g.
  destruct (doc_tidy _ _ (ns_typed _ _ _ S1) A1 (ns_doc _ _ _ S1) F1) as [O1 Td1]. pose proof (xfat_refs _ _ _ _ _ X1h) as J1. rewrite Forall_forall in O1. specialize (O1 _ J1).
  unfold valid in Vb. destruct (xf_at (wb_fs w1) (base_of p)) as [x|] eqn:Ex; [|congruence]. pose proof (Td1 _ _ O1 Ex) as Tx1.
  pose proof (xf_rec_tidy _ _ _ Ex Tx1) as Rx. pose proof (xf_rec_keeps _ _ _ _ K2 Rx) as Rx2. rewrite (view_look _ _ _ _ V2), Rx2 in Lb.
  pose proof (look_at_attrs _ _ _ Lb) as Ea. pose proof (answers_of x (td_fits _ Tx1)) as An1. rewrite Ea in Cond |- *.
  assert (Bn : number_rec (wb_fs w2) (format_code fmt) = Some (Builtin (format_code fmt))) by (apply (builtin_number _ _ _ _ _ V2 Fw A2); lia).
  (* when the format object is left alone it has the number format asked for, and conversely *)
  assert (Dec : get_format x = fmt <-> xa_numfmt (attrs_of x) = format_code fmt).
  { split.
    - intro Gf. assert (Dc : (exists v, named v (xa_numfmt (attrs_of x))) \/ forall v, ~ named v (xa_numfmt (attrs_of x))).
      { destruct (search_spec 36 0 (xa_numfmt (attrs_of x)) ltac:(lia)) as [(v & Bv & Ev & _)|(N & _)].
        - left. exists v. split; [lia|]. rewrite <- code_table by lia. auto.
        - right. intros v [Bv Ev]. apply (N v); [lia|]. rewrite code_table by lia. auto. }
      destruct Dc as [(v & Nv)|N]; [rewrite (an_builtin _ _ An1 v Nv) in Gf; subst v; destruct Nv as [_ Nv]; auto|].
      rewrite (an_other _ _ An1 N) in Gf. exfalso. destruct Cond as [Cd|(v & Nv)]; [congruence|exact (N v Nv)].
    - intro Ev. apply (an_builtin _ _ An1). split; [lia|auto]. }
  assert (Stay : (q = base_of p /\ w2 = w1 /\ xa_numfmt (attrs_of x) = format_code fmt)
              \/ (cell_format (wb_fs w1) (base_of p) (FXf (XFormatNum fmt)) = Ok (wb_fs w2, q) /\ xa_numfmt (attrs_of x) <> format_code fmt)).
  { assert (St : p = None -> xa_numfmt (attrs_of x) = 0).
    { intros ->. cbn [base_of] in Ex. destruct (stock_fmt _ _ (ns_typed _ _ _ S1) A1 (ns_doc _ _ _ S1)) as (y & Ey & Fy). rewrite Ex in Ey. apply some_inj in Ey. subst y. exact Fy. }
    destruct p as [i|]; cbn [base_of] in *.
    - destruct Hq as [(Q1 & Q2 & y & Ey & Gy)|(Q1 & y & Ey & Gy)]; rewrite Ex in Ey; apply some_inj in Ey; subst y; [left; tauto|right; tauto].
    - rewrite (St eq_refl). destruct Hq as [(Q1 & Q2 & ->)|(Q1 & Q2)]; [left; auto|right; split; [exact Q1|]]. intro Z1. apply Q2, Nc. auto. }
  clear Hq. pose proof (xfat_valid _ _ _ _ _ (mn_inv _ _ (vw_means _ _ _ _ V2)) Xq) as Vq.
  rewrite (view_cell_look _ _ _ _ V2), Xq, (M2 _ Vq), (view_look _ _ _ _ V2).
  destruct Stay as [(-> & _ & En)|(Hc & Nn)].
  - rewrite Rx2. exists base. split; [exact Lb|]. rewrite En, Z.eqb_refl. split; [|split; [reflexivity|exact Ea]].
    unfold look_at in Lb. destruct (font_rec (wb_fs w2) (xa_font (attrs_of x))); [|discriminate Lb]. rewrite En, Bn in Lb. apply some_inj in Lb. rewrite <- Lb. reflexivity.
  - assert (Rq : xf_rec (wb_fs w2) q = Some (renumbered (format_code fmt) (attrs_of x))).
    { rewrite <- renumber. exact (format_attrs _ _ (FXf (XFormatNum fmt)) _ _ _ O1 F1 Td1 F0 Hc Rx). }
    rewrite Rq. replace (xa_numfmt (attrs_of x) =? format_code fmt) with false by lia. unfold look_at in Lb |- *. cbn [renumbered xa_font xa_numfmt].
    destruct (font_rec (wb_fs w2) (xa_font (attrs_of x))) as [f|]; [|discriminate Lb]. rewrite Bn. eexists. split; [reflexivity|]. cbn [lk_number lk_font lk_attrs].
    split; [reflexivity|]. split; [|reflexivity]. destruct (number_rec (wb_fs w2) (xa_numfmt (attrs_of x))); [|discriminate Lb]. apply some_inj in Lb. rewrite <- Lb. reflexivity.
Qed.
Print Assumptions C55_number_format_partial.

(* ------------------------------------------------------------------ *)
(** * Cases *)

Definition nstream_of (fuel : nat) (xs : list ncall) : option (list Z) :=
  match ndocument xs with
  | Ok w => match book_units fuel (fun _ _ => false) (wb_book w) with
            | Some (Ok (units, _)) => Some (concat units)
            | _ => None
            end
  | _ => None
  end.
Local Strategy 1000 [ndocument book_units].
Lemma nstream_saved fuel xs stream : nstream_of fuel xs = Some stream -> nsaved (fun _ _ => false) xs stream.
Proof.
  unfold nstream_of. intro E. destruct (ndocument xs) as [w| |] eqn:D; try discriminate E.
  destruct (book_units fuel _ (wb_book w)) as [[[us after]| |]|] eqn:B; try discriminate E. apply some_inj in E.
  exists w, after. split; [exact D|]. exists fuel, us. split; [exact B|symmetry; exact E].
Qed.
Lemma nsmall_saved fuel xs stream : Forall typed (map plain_of xs) -> SpecSaved.fits 40 (map plain_of xs) -> nstream_of fuel xs = Some stream -> nsaved_ok 40 (fun _ _ => false) xs stream.
Proof. intros T F E. constructor; [lia|exact T|exact F|left; lia|exact (nstream_saved _ _ _ E)]. Qed.

(** A format object (21) with wrapped text and the built-in format 4, another (22) with a
    number format of the user's own (164); numbers with and without them. *)
Definition money : list ncall :=
  [NCall (KSheet (TChar [65])); NCall (KFormat (TChar [48; 46; 48; 48; 48]));
   NCall (KXformat None None); NCall (KXfSet 21 (FXf (XWrap true))); NCall (KXfSet 21 (FXf (XFormatNum 4)));
   NCall (KXformat None (Some (Some 164)));
   NNumber 0 1 1 4611686018427387904 0 None; NNumber 0 1 2 4611686018427387904 4 (Some 21); NNumber 0 1 3 4611686018427387904 35 (Some 22)].
Definition money_last : ncall := NNumber 0 2 2 4613937818241073152 23 (Some 21).
Definition general_last : ncall := NNumber 0 2 2 4613937818241073152 0 (Some 22).

Lemma money_typed : Forall typed (map plain_of (money ++ [money_last])) /\ Forall typed (map plain_of (money ++ [general_last])).
Proof. unfold money, money_last, general_last. cbn [map app plain_of]. split; small_typed; cbn [typed val_typed text_typed]; unfold u32; try lia; auto. Qed.
Lemma money_fits : SpecSaved.fits 40 (map plain_of (money ++ [money_last])) /\ SpecSaved.fits 40 (map plain_of (money ++ [general_last])).
Proof.
  unfold money, money_last, general_last. cbn [map app plain_of].
  split; (small_fits; match goal with |- forall k, exists rows, _ /\ forall r, height_of k ?l r <> None -> _ => apply (heightless l); reflexivity end).
Qed.
Lemma money_args : Forall nargs (money ++ [money_last]) /\ Forall nargs (money ++ [general_last]).
Proof.
  unfold money, money_last, general_last. cbn [app]. split; repeat (apply Forall_cons; [split; cbn [plain_of args op_args]; first [exact I|lia|split; [lia|cbn; try exact I; lia]|cbn; repeat constructor; lia]|]); apply Forall_nil.
Qed.
(** Format 23 is a built-in other than the format object's: the cell wraps its text like the
    format object and shows the number format 37. *)
Example C55_case : exists s g base l, nsaved_ok 40 (fun _ _ => false) (money ++ [money_last]) s /\ Forall nargs (money ++ [money_last]) /\ few_records s
  /\ globals_of s = Some g /\ read_look g 21 = Some base /\ 23 <> 0
  /\ cell_look s 0 2 2 = Some l /\ lk_number l = Builtin 37 /\ xa_wrap (lk_attrs l) = true /\ lk_number base = Builtin 4.
Proof.
  assert (E : match nstream_of 400 (money ++ [money_last]) with
     | Some s => match globals_of s with Some g => match read_look g 21, cell_look s 0 2 2 with
         | Some b, Some l => few_now s && match lk_number l, lk_number b with Builtin i, Builtin j => (i =? 37) && (j =? 4) | _, _ => false end && xa_wrap (lk_attrs l) | _, _ => false end | None => false end
     | None => false end%bool = true) by (vm_compute; reflexivity).
  destruct (nstream_of 400 (money ++ [money_last])) as [s|] eqn:Es; [|discriminate E]. destruct (globals_of s) as [g|] eqn:G; [|discriminate E].
  destruct (read_look g 21) as [b|] eqn:B; [|discriminate E]. destruct (cell_look s 0 2 2) as [l|] eqn:L; [|discriminate E].
  apply andb_prop in E. destruct E as [E Ew]. apply andb_prop in E. destruct E as [Ef E]. exists s, g, b, l.
  split; [apply (nsmall_saved 400); [exact (proj1 money_typed)|exact (proj1 money_fits)|exact Es]|]. split; [exact (proj1 money_args)|]. split; [apply few_now_spec; exact Ef|].
  split; [exact G|]. split; [exact B|]. split; [lia|]. split; [exact L|].
  destruct (lk_number l) as [i|]; [|discriminate E]. destruct (lk_number b) as [j|]; [|discriminate E]. apply andb_prop in E. destruct E as [E1 E2]. split; [f_equal; lia|]. split; [exact Ew|f_equal; lia].
Qed.
(** FMT_GENERAL asked for together with a format object that has a number format of the user's
    own: the cell keeps the user's format. *)
Theorem C55_number_format_refuted : exists xs k r c bits fmt p s g l,
  nsaved_ok 40 (fun _ _ => false) (xs ++ [NNumber k r c bits fmt p]) s /\ Forall nargs (xs ++ [NNumber k r c bits fmt p]) /\ few_records s
  /\ globals_of s = Some g /\ cell_look s k r c = Some l /\ lk_number l <> Builtin (format_code fmt).
Proof.
  assert (E : match nstream_of 400 (money ++ [general_last]) with
     | Some s => match globals_of s with Some g => match cell_look s 0 2 2 with
         | Some l => few_now s && match lk_number l with Custom _ => true | _ => false end | _ => false end | None => false end
     | None => false end%bool = true) by (vm_compute; reflexivity).
  destruct (nstream_of 400 (money ++ [general_last])) as [s|] eqn:Es; [|discriminate E]. destruct (globals_of s) as [g|] eqn:G; [|discriminate E].
  destruct (cell_look s 0 2 2) as [l|] eqn:L; [|discriminate E]. apply andb_prop in E. destruct E as [Ef E].
  exists money, 0%nat, 2, 2, 4613937818241073152, 0, (Some 22), s, g, l.
  split; [apply (nsmall_saved 400); [exact (proj2 money_typed)|exact (proj2 money_fits)|exact Es]|]. split; [exact (proj2 money_args)|]. split; [apply few_now_spec; exact Ef|].
  split; [exact G|]. split; [exact L|]. intro X. rewrite X in E. discriminate E.
Qed.
Print Assumptions C55_number_format_refuted.
