(** Writing a cell or a note keeps the invariant; the invariant at the beginning. *)
From Coq Require Import ZArith List Bool Arith Lia Permutation.
From Verif Require Import UnitModel SpecMem MemModel MemProof MemInv MemSteps MemNodes MemCalls MemWrite.
Import ListNotations.
Local Open Scope nat_scope.
#[local] Arguments gowned : simpl never.
#[local] Arguments one : simpl never.
#[local] Arguments sowned : simpl never.
#[local] Arguments downed : simpl never.
#[local] Arguments cowned : simpl never.
#[local] Arguments kowned : simpl never.
#[local] Arguments iowned : simpl never.

Lemma stands_fun : forall h pl p q, stands h pl p -> stands h pl q -> p = q.
Proof.
  induction h as [|[c a] h IH] using rev_ind; intros pl p q A B; [destruct (stands_nil _ _ A)|]. apply stands_snoc in A. apply stands_snoc in B.
  destruct A as [[A1 A2]|[A1 A2]], B as [[B1 B2]|[B1 B2]]; try contradiction; [congruence|exact (IH pl p q A2 B2)].
Qed.

Definition getc (b : bool) (t : msheet) : list mcell := if b then ms_notes t else ms_cells t.
Definition geth (b : bool) (t : msheet) : option nat := if b then ms_nhint t else ms_hint t.
Definition setc (b : bool) (t : msheet) (l : list mcell) (hint : option nat) : msheet :=
  if b then mkMsheet (ms_ptr t) (ms_cells t) (ms_hint t) l hint (ms_merged t) (ms_cols t) (ms_rows t) (ms_ranges t) (ms_stacks t) (ms_dvs t) (ms_links t)
  else mkMsheet (ms_ptr t) l hint (ms_notes t) (ms_nhint t) (ms_merged t) (ms_cols t) (ms_rows t) (ms_ranges t) (ms_stacks t) (ms_dvs t) (ms_links t).
Definition writer (b : bool) (row col : Z) (x : option nat) (w : held) : world -> msheet -> res (world * msheet * option nat) := fun v t =>
  let* (c, w1) := new_cell v row col x w in
  let* (w2, l, hint) := add_at w1 (getc b t) (geth b t) c in
  Ok (w2, setc b t l hint, Some (mc_ptr c)).
Definition wcall (b : bool) (s : nat) (row col : Z) (x : option nat) (w : held) : mcall := if b then MNote s row col x else MCell s row col x w.

Lemma add_at_ok : forall tree w cells hint c, hv (w_heap w) -> ginv (w_glob w) -> Forall (fun c => xin (w_glob w) (mc_xf c) /\ tok (w_nodes w) tree c) cells ->
  ofin (map mc_ptr cells) hint -> roomy w (flat_map (cowned tree) cells) ->
  exists w' rest, add_at w cells hint c = Ok (w', rest ++ [c], Some (mc_ptr c)) /\ hv (w_heap w') /\ h_next (w_heap w') = h_next (w_heap w) /\ w_nodes w' = w_nodes w /\ gsame (w_glob w) (w_glob w')
    /\ (forall q, cnt q (h_live (w_heap w')) + cnt q (flat_map (cowned tree) cells) = cnt q (h_live (w_heap w)) + cnt q (flat_map (cowned tree) rest))
    /\ ((rest = cells /\ (forall d, In d cells -> same_place (mc_row c) (mc_col c) d = false) /\ w_glob w' = w_glob w)
        \/ exists l1 old l2, cells = l1 ++ old :: l2 /\ rest = l1 ++ l2 /\ same_place (mc_row c) (mc_col c) old = true /\ w_glob w' = w_glob (relabel w old)).
Proof.
  intros tree w cells hint c V G F H R. unfold add_at.
  assert (L : forall p, In p (map mc_ptr cells) -> live w p).
  { intros p Hp. apply in_map_iff in Hp. destruct Hp as [d [<- Hd]]. unfold live. specialize (R (mc_ptr d)). assert (X := cnt_flat_in (cowned tree) cells d (mc_ptr d) Hd). unfold cowned at 1 in X. cbn [cnt] in X. rewrite one_same in X. lia. }
  rewrite (uses_opt w _ hint H L). cbn [bind]. rewrite (uses_ok w _ L). cbn [bind]. destruct (take_out _ cells) as [[old rest]|] eqn:T.
  - destruct (take_some _ _ _ _ T) as (l1 & l2 & E & -> & SP). assert (FE := F). rewrite E in FE. apply Forall_app in FE. destruct FE as [F1 F2]. inversion F2 as [|? ? [X TO] F4]; subst.
    destruct (delete_cell_ok tree w old V G X TO) as (w' & E1 & [V1 [X1 C1]] & N1 & G1 & S1).
    + intro q. specialize (R q). rewrite cnt_mid in R. lia.
    + rewrite E1. cbn [bind]. rewrite uses_ok.
      * cbn [bind]. exists w', (l1 ++ l2). split; [reflexivity|]. split; [exact V1|]. split; [exact X1|]. split; [exact N1|]. split; [exact S1|]. split.
        -- intro q. specialize (C1 q). rewrite cnt_mid, flat_map_app, cnt_app. lia.
        -- right. exists l1, old, l2. auto.
      * intros p Hp. unfold live. specialize (C1 p). specialize (R p). rewrite cnt_mid in R. apply in_map_iff in Hp. destruct Hp as [d [<- Hd]].
        assert (Y : 1 <= cnt (mc_ptr d) (cowned tree d)) by (unfold cowned; cbn [cnt]; rewrite one_same; lia).
        apply in_app_or in Hd. destruct Hd as [Hd|Hd]; assert (Z := cnt_flat_in (cowned tree) _ d (mc_ptr d) Hd); lia.
  - exists w, cells. split; [reflexivity|]. split; [exact V|]. split; [reflexivity|]. split; [reflexivity|]. split; [apply gsame_refl|]. split; [intro q; reflexivity|].
    left. split; [reflexivity|]. split; [|reflexivity]. intros d Hd. exact (take_none _ _ d T Hd).
Qed.

Section Put.
Context {h : story} {m : mem} {tree : nat -> rose} {roots : list nat}.
Hypothesis I : minv h m tree roots.
Hypothesis N : ninv h (w_nodes (m_w m)) tree roots (h_next (w_heap (m_w m))).

Let V := mi_heap _ _ _ _ I.
Let G := mi_g _ _ _ _ I.
Let R := groom_of I.

Lemma new_cell_ok : forall row col x w, (forall y, x = Some y -> xin (w_glob (m_w m)) y) -> exists c w1, new_cell (m_w m) row col x w = Ok (c, w1) /\ mc_row c = row /\ mc_col c = col /\ mc_held c = w
  /\ mc_ptr c = h_next (w_heap (m_w m)) /\ xin (w_glob (m_w m)) (mc_xf c) /\ hv (w_heap w1) /\ h_next (w_heap w1) = S (h_next (w_heap (m_w m))) /\ w_nodes w1 = w_nodes (m_w m) /\ gsame (w_glob (m_w m)) (w_glob w1)
  /\ (forall q, cnt q (h_live (w_heap w1)) = one q (mc_ptr c) + cnt q (h_live (w_heap (m_w m))))
  /\ (forall p, In p (g_labels (w_glob w1)) <-> In p (g_labels (w_glob (m_w m))) \/ (w = HLong /\ p = mc_ptr c)).
Proof.
  intros row col x w X. unfold new_cell. destruct (w_new (m_w m)) as [p w1] eqn:W. destruct (w_new_ok _ _ _ V W) as (A & B & C & D & F & K).
  set (pxf := match x with Some q => q | None => g_default (w_glob (m_w m)) end).
  assert (PX : xin (w_glob (m_w m)) pxf). { unfold pxf. destruct x as [y|]; [apply X; reflexivity|]. unfold xin. rewrite map_app. apply in_or_app; left. exact (proj2 G). }
  rewrite touch_ok; [|rewrite F; exact G|intros q Hq; rewrite F in Hq; assert (Y := glob_live I q Hq); unfold live in *; rewrite K; lia|rewrite F; exact PX]. cbn [bind].
  eexists. eexists. split; [reflexivity|]. cbn [mc_row mc_col mc_held mc_ptr mc_xf]. split; [reflexivity|]. split; [reflexivity|]. split; [reflexivity|]. split; [exact A|]. split; [exact PX|].
  destruct w; try (split; [exact B|]; split; [exact C|]; split; [exact D|]; split; [rewrite F; apply gsame_refl|]; split; [exact K|]; intro q; rewrite F; split; [auto|intros [Hq|[E _]]; [exact Hq|discriminate E]]).
  split; [exact B|]. split; [exact C|]. split; [exact D|]. split; [rewrite <- F; apply gsame_put|]. split; [exact K|]. intro q. cbn. rewrite F, in_app_iff. cbn. split; [intros [?|[?|[]]]; auto|intros [?|[_ ?]]; auto].
Qed.

Lemma other_sheet : forall l1 t l2 s, m_sheets m = l1 ++ t :: l2 -> In s (l1 ++ l2) -> ms_ptr s <> ms_ptr t.
Proof.
  intros l1 t l2 s E J D. assert (C := mi_cnt _ _ _ _ I (ms_ptr t)). rewrite cnt_owned, E, cnt_mid in C. destruct V as [V1 _]. specialize (V1 (ms_ptr t)).
  assert (X : 1 <= cnt (ms_ptr t) (sowned tree t)) by (rewrite cnt_sowned, one_same; lia). assert (Y : 1 <= cnt (ms_ptr t) (sowned tree s)) by (rewrite cnt_sowned, D, one_same; lia).
  apply in_app_or in J. destruct J as [J|J]; assert (Z := cnt_flat_in (sowned tree) _ s (ms_ptr t) J); lia.
Qed.

Definition spot (b : bool) (s : nat) (c : mcell) : (bool * nat * Z * Z) * nat := ((b, s, mc_row c, mc_col c), mc_ptr c).
Definition spots (s : msheet) : list ((bool * nat * Z * Z) * nat) := map (spot false (ms_ptr s)) (ms_cells s) ++ map (spot true (ms_ptr s)) (ms_notes s).
Lemma places_mid : forall self w l1 t l2 a b, places (mkMem self w (l1 ++ t :: l2) a b) = flat_map spots l1 ++ spots t ++ flat_map spots l2.
Proof. intros. unfold places. cbn [m_sheets]. rewrite flat_map_app. reflexivity. Qed.
Lemma spots_in : forall b t e, In e (spots t) <-> In e (map (spot b (ms_ptr t)) (getc b t)) \/ In e (map (spot (negb b) (ms_ptr t)) (getc (negb b) t)).
Proof. intros [|] t e; unfold spots; rewrite in_app_iff; cbn [getc negb]; tauto. Qed.

Lemma put_ok : forall b s row col x w roots', made_sheet h s -> maybe (made_xf h) x -> (b = true -> w = HPlain) ->
  (forall q, cnt q (free tree roots) = match w with HTree p true => cnt q (labels (tree p)) | _ => 0 end + cnt q (free tree roots')) ->
  match w with HTree p true => In p roots | HTree p false => True | HStack f => made_stack h f | _ => True end ->
  exists m' a, mrun m (wcall b s row col x w) = Ok (m', a) /\ minv (h ++ [(wcall b s row col x w, a)]) m' tree roots' /\ w_nodes (m_w m') = w_nodes (m_w m) /\ h_next (w_heap (m_w m)) <= h_next (w_heap (m_w m')).
Proof.
  intros b s row col x w roots' M X BW FR WH.
  destruct (at_sheet_split I s M) as (l1 & t & l2 & E1 & E2 & J & H). destruct (sinv_of I t J) as [[B1 B1'] B2 B3 B4 B5 B6].
  destruct (new_cell_ok row col x w) as (c & w1 & EC & Cr & Cc & Ch & Cp & Cx & Vc & Nc & Dc & Sc & Kc & Lc); [intros y ->; exact (xf_in I y X)|].
  assert (GC : Forall (fun c => xin (w_glob w1) (mc_xf c) /\ tok (w_nodes w1) tree c) (getc b t)).
  { rewrite Dc. assert (Z : Forall (fun c => xin (w_glob (m_w m)) (mc_xf c) /\ tok (w_nodes (m_w m)) tree c) (getc b t)) by (destruct b; assumption). refine (Forall_impl _ _ Z). intros d [D1 D2]. split; [exact (gsame_xin _ _ _ Sc D1)|exact D2]. }
  destruct (add_at_ok tree w1 (getc b t) (geth b t) c Vc (gsame_ginv _ _ Sc G) GC) as (w2 & rest & EA & Va & Na & Da & Sa & Ka & OR).
  { destruct b; assumption. }
  { intro q. rewrite (gsame_owned _ _ Sc), Kc. assert (Y := sheet_room I t q J). rewrite cnt_sowned in Y. destruct b; cbn [getc]; lia. }
  set (m' := mkMem (m_self m) w2 (l1 ++ setc b t (rest ++ [c]) (Some (mc_ptr c)) :: l2) (m_sum m) (m_doc m)).
  set (e := wcall b s row col x w). set (plc := (b, s, row, col)).
  assert (PE : place e = Some plc) by (unfold e, plc; destruct b; reflexivity).
  assert (RUN : mrun m e = Ok (m', Some (mc_ptr c))).
  { assert (RW : mrun m e = let* _ := w_use (m_w m) (m_self m) in at_sheet m s (writer b row col x w)) by (unfold e, wcall; destruct b; [rewrite (BW eq_refl)|]; reflexivity).
    rewrite RW, (use_ok _ _ (self_live I)). cbn [bind]. rewrite H. unfold writer. rewrite EC. cbn [bind]. rewrite EA. reflexivity. }
  assert (SS : gsame (w_glob (m_w m)) (w_glob w2)) by exact (gsame_trans _ _ _ Sc Sa).
  assert (ST : all_stacks m' = all_stacks m) by (unfold all_stacks, m'; cbn [m_sheets]; rewrite E1, !flat_map_app; cbn [flat_map]; destruct b; reflexivity).
  assert (ND : w_nodes w2 = w_nodes (m_w m)) by congruence.
  assert (RI : incl rest (getc b t)). { destruct OR as [[-> _]|(a1 & old & a2 & -> & -> & _)]; [apply incl_refl|]. intros d Hd. apply in_app_or in Hd. apply in_or_app. destruct Hd; [left|right; right]; assumption. }
  assert (OUT : forall l, incl l (l1 ++ l2) -> forall p, ~ In (plc, p) (flat_map spots l)).
  { intros l Il p Hp. apply in_flat_map in Hp. destruct Hp as [s' [Hs' Hp]]. apply (other_sheet l1 t l2 s' E1 (Il s' Hs')). unfold spots in Hp. apply in_app_or in Hp.
    destruct Hp as [Hp|Hp]; apply in_map_iff in Hp; destruct Hp as [d [Ed _]]; unfold spot, plc in Ed; injection Ed as _ Es _ _ _; congruence. }
  assert (REST : forall d, In d rest -> (mc_row d, mc_col d) <> (row, col)).
  { intros d Hd Ed. injection Ed as Ed1 Ed2. assert (SP : same_place (mc_row c) (mc_col c) d = true) by (unfold same_place; rewrite Cr, Cc, Ed1, Ed2, !Z.eqb_refl; reflexivity).
    destruct OR as [[-> [NO _]]|(a1 & old & a2 & EO & -> & SO & _)]; [rewrite (NO d Hd) in SP; discriminate|].
    unfold same_place in SO. apply andb_true_iff in SO. destruct SO as [SO1 SO2]. apply Z.eqb_eq in SO1, SO2.
    assert (PP : forall z, In z (getc b t) -> mc_row z = row -> mc_col z = col -> stands h plc (mc_ptr z)).
    { intros z Hz Z1 Z2. apply (mi_place _ _ _ _ I). unfold places. apply in_flat_map. exists t. split; [exact J|]. change (In (plc, mc_ptr z) (spots t)). apply (spots_in b). left. apply in_map_iff. exists z. split; [|exact Hz]. unfold spot, plc. congruence. }
    assert (Q : mc_ptr d = mc_ptr old).
    { apply (stands_fun h plc); apply PP; try congruence; [apply RI; exact Hd|rewrite EO; apply in_or_app; right; left; reflexivity]. }
    assert (Y := sheet_room I t (mc_ptr old) J). rewrite cnt_sowned in Y. destruct V as [V1 _]. specialize (V1 (mc_ptr old)).
    assert (Y2 : 2 <= cnt (mc_ptr old) (flat_map (cowned tree) (getc b t))).
    { rewrite EO, cnt_mid. assert (O1 : 1 <= cnt (mc_ptr old) (cowned tree old)) by (unfold cowned; cbn [cnt]; rewrite one_same; lia). assert (O2 : 1 <= cnt (mc_ptr old) (cowned tree d)) by (unfold cowned; cbn [cnt]; rewrite Q, one_same; lia).
      apply in_app_or in Hd. destruct Hd as [Hd|Hd]; assert (Z := cnt_flat_in (cowned tree) _ d (mc_ptr old) Hd); lia. }
    destruct b; cbn [getc] in Y2; lia. }
  exists m', (Some (mc_ptr c)). split; [exact RUN|]. split; [|split; [exact ND|cbn [m' m_w]; lia]].
  constructor.
  - exact Va.
  - intro q. assert (C := mi_cnt _ _ _ _ I q). specialize (Ka q). rewrite Kc in Ka. specialize (FR q). rewrite cnt_owned in C. rewrite cnt_owned. unfold m'. cbn [m_w m_self m_sheets m_sum m_doc]. rewrite (gsame_owned _ _ SS), cnt_mid. rewrite E1, cnt_mid in C.
    assert (SO : cnt q (sowned tree (setc b t (rest ++ [c]) (Some (mc_ptr c)))) + cnt q (flat_map (cowned tree) (getc b t)) = cnt q (sowned tree t) + cnt q (flat_map (cowned tree) rest) + cnt q (cowned tree c)).
    { rewrite !cnt_sowned. destruct b; cbn [setc getc ms_ptr ms_cells ms_notes ms_merged ms_cols ms_rows ms_ranges ms_stacks ms_dvs ms_links]; rewrite cnt_end; lia. }
    assert (CC : cnt q (cowned tree c) = one q (mc_ptr c) + match w with HTree p true => cnt q (labels (tree p)) | _ => 0 end).
    { unfold cowned. rewrite Ch. cbn [cnt]. destruct w as [| |p [|]|f]; reflexivity. }
    lia.
  - exact (gsame_ginv _ _ SS G).
  - rewrite ST. unfold m'. cbn [m_w m_sheets]. rewrite ND. assert (S := mi_s _ _ _ _ I). rewrite E1 in S. apply Forall_app in S. destruct S as [S1 S2]. apply Forall_cons_iff in S2. destruct S2 as [S3 S4].
    assert (MO : forall s', sinv h (w_glob (m_w m)) (w_nodes (m_w m)) tree (all_stacks m) s' -> sinv (h ++ [(e, Some (mc_ptr c))]) (w_glob w2) (w_nodes (m_w m)) tree (all_stacks m) s').
    { intros s' Hs. refine (sinv_mono _ _ _ _ _ _ _ _ _ _ (incl_refl _) Hs). intros y Hy; exact (gsame_xin _ _ _ SS Hy). }
    apply Forall_app. split; [exact (Forall_impl _ MO S1)|]. constructor; [|exact (Forall_impl _ MO S4)]. destruct (MO t S3) as [[C1 C1'] C2 C3 C4 C5 C6].
    assert (XC : xin (w_glob w2) (mc_xf c) /\ tok (w_nodes (m_w m)) tree c).
    { split; [exact (gsame_xin _ _ _ SS Cx)|]. unfold tok. rewrite Ch. destruct w as [| |p [|]|f]; try exact Logic.I. destruct (ni_agree _ _ _ _ _ N p WH) as (A1 & A2 & _). auto. }
    assert (HC : hok (h ++ [(e, Some (mc_ptr c))]) (all_stacks m) c).
    { unfold hok. rewrite Ch. destruct w as [| |p [|]|f] eqn:EW; try exact Logic.I.
      - unfold e, wcall. destruct b; [discriminate (BW eq_refl)|]. exists s, row, col, x, (Some (mc_ptr c)). apply snoc_in. right. reflexivity.
      - exact (proj2 (proj2 (proj2 (proj2 (mi_hand _ _ _ _ I)))) f WH). }
    assert (RF : forall P : mcell -> Prop, Forall P (getc b t) -> P c -> Forall P (rest ++ [c])).
    { intros P FP PC. apply Forall_app. split; [|constructor; [exact PC|constructor]]. rewrite Forall_forall in FP |- *. intros d Hd. exact (FP d (RI d Hd)). }
    apply Forall_app in C5. destruct C5 as [C5 C5'].
    assert (HI : In (mc_ptr c) (map mc_ptr (rest ++ [c]))) by (rewrite map_app; apply in_or_app; right; left; reflexivity).
    destruct b; cbn [setc getc] in *; constructor; cbn; try assumption.
    + split; [exact C1|]. exact (RF _ C1' XC).
    + apply Forall_app. split; [exact C5|exact (RF _ C5' HC)].
    + split; [exact (RF _ C1 XC)|exact C1'].
    + apply Forall_app. split; [exact (RF _ C5 HC)|exact C5'].
  - intros p Hp. unfold m' in Hp. cbn [m_w] in Hp.
    assert (CI : In c (all_cells m')) by (unfold all_cells, m'; cbn [m_sheets]; rewrite flat_map_app; apply in_or_app; right; apply in_or_app; left; destruct b; cbn [setc ms_cells ms_notes]; rewrite !in_app_iff; cbn [In]; tauto).
    assert (Hp1 : In p (g_labels (w_glob w1))).
    { destruct OR as [(_ & _ & EG)|(a1 & old & a2 & _ & _ & _ & EG)]; rewrite EG in Hp; [exact Hp|]. unfold relabel in Hp. destruct (mc_held old); try exact Hp. cbn in Hp. apply in_remove in Hp. tauto. }
    apply Lc in Hp1. destruct Hp1 as [Hp1|[-> ->]]; [|exists c; auto].
    destruct (mi_lab _ _ _ _ I p Hp1) as (d & Hd & Ep & Eh). exists d. split; [|auto].
    unfold all_cells, m' in *. cbn [m_sheets] in *. rewrite E1 in Hd. rewrite !flat_map_app in *. cbn [flat_map] in *. rewrite !in_app_iff in *.
    destruct Hd as [Hd|[Hd|Hd]]; [left; exact Hd| |right; right; exact Hd]. right; left.
    assert (Hd' : In d (getc b t) \/ In d (getc (negb b) t)) by (destruct b; cbn [getc negb]; tauto).
    assert (GO : In d rest \/ In d (getc (negb b) t)).
    { destruct Hd' as [Hd'|Hd']; [|right; exact Hd']. left. destruct OR as [(-> & _ & _)|(a1 & old & a2 & EO & -> & _ & EG)]; [exact Hd'|]. rewrite EO in Hd'. rewrite in_app_iff in *. destruct Hd' as [Hd'|[<-|Hd']]; auto.
      exfalso. rewrite EG in Hp. unfold relabel in Hp. rewrite Eh in Hp. cbn in Hp. apply in_remove in Hp. destruct Hp as [_ Hp]. congruence. }
    destruct b; cbn [setc getc negb ms_cells ms_notes] in *; rewrite !in_app_iff; tauto.
  - apply (handles_snoc h e (Some (mc_ptr c)) m m' (mi_hand _ _ _ _ I)).
    + destruct SS as [lb SS]. constructor; unfold m'; cbn [m_w m_sheets]; try (rewrite SS; apply incl_refl).
      * rewrite E1, !map_app. cbn [map]. destruct b; apply incl_refl.
      * fold m'. rewrite ST. apply incl_refl.
    + unfold e, wcall. destruct b; exact Logic.I.
  - intros pl p. rewrite stands_snoc, PE, (mi_place _ _ _ _ I). unfold m'. rewrite (places_mid (m_self m) w2 l1 (setc b t (rest ++ [c]) (Some (mc_ptr c))) l2 (m_sum m) (m_doc m)).
    assert (PM : places m = flat_map spots l1 ++ spots t ++ flat_map spots l2) by (unfold places; rewrite E1, flat_map_app; reflexivity). rewrite PM. rewrite !in_app_iff.
    assert (SP : In (pl, p) (spots (setc b t (rest ++ [c]) (Some (mc_ptr c)))) <-> In (pl, p) (map (spot b s) rest) \/ (pl = plc /\ p = mc_ptr c) \/ In (pl, p) (map (spot (negb b) s) (getc (negb b) t))).
    { rewrite (spots_in b). assert (PT : ms_ptr (setc b t (rest ++ [c]) (Some (mc_ptr c))) = s) by (destruct b; exact E2). rewrite PT.
      assert (G1 : getc b (setc b t (rest ++ [c]) (Some (mc_ptr c))) = rest ++ [c]) by (destruct b; reflexivity). assert (G2 : getc (negb b) (setc b t (rest ++ [c]) (Some (mc_ptr c))) = getc (negb b) t) by (destruct b; reflexivity).
      rewrite G1, G2, map_app, in_app_iff. cbn [map In]. assert (SC : spot b s c = (plc, mc_ptr c)) by (unfold spot, plc; rewrite Cr, Cc; reflexivity). rewrite SC. split; [intros [[A|[A|[]]]|A]; auto|intros [A|[[-> ->]|A]]; auto].
      injection A as <- <-. auto. }
    assert (RS : In (pl, p) (map (spot b s) rest) -> pl <> plc).
    { intros Hr ->. apply in_map_iff in Hr. destruct Hr as [d [Ed Hd]]. unfold spot, plc in Ed. injection Ed as D1 D2 _. apply (REST d Hd). congruence. }
    assert (NB : In (pl, p) (map (spot (negb b) s) (getc (negb b) t)) -> pl <> plc).
    { intros Hr ->. apply in_map_iff in Hr. destruct Hr as [d [Ed _]]. unfold spot, plc in Ed. injection Ed as D1 _ _ _. destruct b; discriminate D1. }
    assert (L1o : In (pl, p) (flat_map spots l1) -> pl <> plc) by (intros Hr ->; exact (OUT l1 (incl_appl _ (incl_refl _)) p Hr)).
    assert (L2o : In (pl, p) (flat_map spots l2) -> pl <> plc) by (intros Hr ->; exact (OUT l2 (incl_appr _ (incl_refl _)) p Hr)).
    assert (OLD : pl <> plc -> (In (pl, p) (map (spot b s) (getc b t)) <-> In (pl, p) (map (spot b s) rest))).
    { intro NP. split; intro Hr; apply in_map_iff in Hr; destruct Hr as [d [Ed Hd]]; apply in_map_iff; exists d; (split; [exact Ed|]); [|exact (RI d Hd)].
      destruct OR as [(-> & _ & _)|(a1 & old & a2 & EO & -> & SO & _)]; [exact Hd|]. rewrite EO in Hd. apply in_app_or in Hd. apply in_or_app. destruct Hd as [Hd|[<-|Hd]]; auto.
      exfalso. apply NP. unfold same_place in SO. apply andb_true_iff in SO. destruct SO as [SO1 SO2]. apply Z.eqb_eq in SO1, SO2. unfold spot in Ed. injection Ed as <- _. unfold plc. congruence. }
    assert (ST' := spots_in b t (pl, p)). rewrite E2 in ST'. rewrite ST', SP. split.
    + intros [[EP EA']|[NP [A|[[A|A]|A]]]].
      * injection EP as <-. injection EA' as <-. right; left; right; left; auto.
      * left; exact A.
      * right; left; left. apply OLD; [congruence|exact A].
      * right; left; right; right; exact A.
      * right; right; exact A.
    + intros [A|[[A|[[-> ->]|A]]|A]].
      * right. split; [intro Q; injection Q as Q; exact (L1o A (eq_sym Q))|left; exact A].
      * right. split; [intro Q; injection Q as Q; exact (RS A (eq_sym Q))|right; left; left; apply OLD; [exact (RS A)|exact A]].
      * left. auto.
      * right. split; [intro Q; injection Q as Q; exact (NB A (eq_sym Q))|right; left; right; exact A].
      * right. split; [intro Q; injection Q as Q; exact (L2o A (eq_sym Q))|right; right; exact A].
Qed.

Lemma good_note : forall s row col x, made_sheet h s -> maybe (made_xf h) x -> good h m (MNote s row col x).
Proof.
  intros s row col x M X. destruct (put_ok true s row col x HPlain roots M X (fun _ => eq_refl) (fun q => eq_refl) Logic.I) as (m' & a & E & IN & D & L).
  exact (quiet_good h m (MNote s row col x) m' a tree roots Logic.I N E IN D L).
Qed.
Lemma good_cell : forall s row col x w, made_sheet h s -> maybe (made_xf h) x ->
  match w with HPlain | HLong => True | HTree p true => own h p | HTree p false => made_node h p /\ ~ given h p | HStack f => made_stack h f end -> good h m (MCell s row col x w).
Proof.
  intros s row col x w M X W. assert (F0 := free_once I). destruct w as [| |p [|]|f].
  - destruct (put_ok false s row col x HPlain roots M X) as (m' & a & E & IN & D & L); try (intros; discriminate); try reflexivity; try exact Logic.I. exact (quiet_good h m (MCell s row col x HPlain) m' a tree roots Logic.I N E IN D L).
  - destruct (put_ok false s row col x HLong roots M X) as (m' & a & E & IN & D & L); try (intros; discriminate); try reflexivity; try exact Logic.I. exact (quiet_good h m (MCell s row col x HLong) m' a tree roots Logic.I N E IN D L).
  - assert (NR := roots_nodup _ _ _ _ _ N F0). assert (PR : In p roots) by (apply (ni_roots _ _ _ _ _ N); destruct W; tauto).
    destruct (put_ok false s row col x (HTree p true) (minus roots [p]) M X) as (m' & a & E & IN & D & L).
    + intros; discriminate.
    + intro q. rewrite (cnt_minus tree roots [p] q NR); [|constructor; [intros []|constructor]|intros y [<-|[]]; exact PR]. unfold free at 1. cbn [flat_map]. rewrite app_nil_r. reflexivity.
    + exact PR.
    + exists m', a, tree, (minus roots [p]). split; [exact E|]. split; [exact IN|]. rewrite D. exact (ninv_trust h s row col x a p _ tree roots _ _ N F0 L W).
  - destruct (put_ok false s row col x (HTree p false) roots M X) as (m' & a & E & IN & D & L); try (intros; discriminate); try reflexivity; try exact Logic.I.
    exists m', a, tree, roots. split; [exact E|]. split; [exact IN|]. rewrite D. refine (ninv_calm h _ a _ tree roots _ _ _ L _ N); [exact Logic.I|].
    intros q (s' & r' & c' & x' & b & J). apply snoc_in in J. destruct J as [J|J]; [apply (ni_lent _ _ _ _ _ N); exists s', r', c', x', b; exact J|]. injection J as _ _ _ _ <- _. exact W.
  - destruct (put_ok false s row col x (HStack f) roots M X) as (m' & a & E & IN & D & L); try (intros; discriminate); try reflexivity; try exact W. exact (quiet_good h m (MCell s row col x (HStack f)) m' a tree roots Logic.I N E IN D L).
Qed.
End Put.

(* ------------------------------------------------------------------ *)
(** * All calls, and the beginning *)

Theorem proper_good : forall h m c tree roots, minv h m tree roots -> ninv h (w_nodes (m_w m)) tree roots (h_next (w_heap (m_w m))) -> proper h c -> good h m c.
Proof.
  intros h m c tree roots I N P. destruct c as [| |f|f| |f fm|x|x f fm|fits|doc key|s row col x w|s row col x|c f fm ow sm|c x|s|s|s col x|s row x|s|f c|s conds|s c|s row col|kids|n k|]; cbn [proper] in P.
  - exact (good_sheet I N). - exact (good_font I N). - exact (good_fontdup I N f P). - exact (good_fontset I N f P). - exact (good_format I N).
  - exact (good_xf I N f fm (proj1 P) (proj2 P)). - exact (good_xfdup I N x P). - destruct P as (P1 & P2 & P3). exact (good_xfset I N x f fm P1 P2 P3).
  - exact (good_color I N fits). - exact (good_prop I N doc key).
  - destruct P as (P1 & P2 & P3). exact (good_cell I N s row col x w P1 P2 P3). - exact (good_note I N s row col x (proj1 P) (proj2 P)).
  - destruct P as (P1 & P2 & P3). exact (good_cellset h m tree roots c f fm ow sm I N P1 P2 P3). - exact (good_cellxf I N c x (proj1 P) (proj2 P)).
  - exact (good_merge I N s P). - exact (good_range I N s P). - exact (good_col I N s col x (proj1 P) (proj2 P)). - exact (good_row I N s row x (proj1 P) (proj2 P)).
  - exact (good_stack I N s P). - exact (good_push I N f c (proj1 P) (proj2 P)). - exact (good_valid I N s conds (proj1 P) (proj2 P)). - exact (good_link I N s c (proj1 P) (proj2 P)). - exact (good_find I N s row col P).
  - exact (good_node I N kids (proj1 P) (proj2 P)). - destruct P as (P1 & P2 & P3 & P4). exact (good_arg I N n k P1 P2 P3 P4). - exact (good_save I N).
Qed.

Definition no_tree (p : nat) : rose := Node p [].
Definition inb (p : nat) (l : list nat) : bool := existsb (Nat.eqb p) l.
Fixpoint distinct (l : list nat) : bool := match l with [] => true | p :: t => negb (inb p t) && distinct t end.
Lemma inb_in : forall l p, inb p l = true <-> In p l.
Proof. intros l p. unfold inb. rewrite existsb_exists. split; [intros [x [J E]]; apply Nat.eqb_eq in E; subst; exact J|intro J; exists p; split; [exact J|apply Nat.eqb_refl]]. Qed.
Lemma distinct_nodup : forall l, distinct l = true -> NoDup l.
Proof. induction l as [|p l IH]; intro D; constructor; cbn [distinct] in D; apply andb_true_iff in D; destruct D as [D1 D2]; [|exact (IH D2)]. intro J. apply inb_in in J. rewrite J in D1. discriminate. Qed.
Lemma nodup_cnt : forall l, NoDup l -> forall q, cnt q l <= 1.
Proof.
  induction l as [|p l IH]; intros B q; cbn [cnt]; [lia|]. inversion B as [|? ? B1 B2]; subst. specialize (IH B2 q).
  destruct (Nat.eq_dec q p) as [->|D]; [|rewrite one_ne by exact D; lia]. rewrite one_same. destruct (cnt p l) eqn:E; [lia|]. exfalso. apply B1. apply cnt_In. lia.
Qed.
Lemma forallb_in : forall (f : nat -> bool) l p, forallb f l = true -> In p l -> f p = true.
Proof. intros f l p F J. rewrite forallb_forall in F. exact (F p J). Qed.

Lemma hv_of : forall x, NoDup (h_live x) -> forallb (fun p => Nat.ltb p (h_next x)) (h_live x) = true -> hv x.
Proof.
  intros x ND B. split; [exact (nodup_cnt _ ND)|]. intros q Hq. destruct (cnt q (h_live x)) eqn:E; [reflexivity|]. assert (J : In q (h_live x)) by (apply cnt_In; lia).
  assert (C := forallb_in _ _ q B J). cbv beta in C. apply Nat.ltb_lt in C. lia.
Qed.
Lemma same_cnt : forall l k, NoDup l -> distinct k = true -> forallb (fun p => inb p k) l = true -> forallb (fun p => inb p l) k = true -> forall q, cnt q l = cnt q k.
Proof.
  intros l k L K A B q. apply cnt_perm. apply NoDup_Permutation; [exact L|exact (distinct_nodup _ K)|]. intro x. split; intro J; apply inb_in; [exact (forallb_in _ _ x A J)|exact (forallb_in _ _ x B J)].
Qed.
Definition xokb (g : glob) (y : xfo) : bool :=
  match xo_font y with Some f => inb f (g_dfonts g ++ g_fonts g) | None => true end && match xo_fmt y with Some _ => false | None => true end.
Lemma ginv_of : forall g, forallb (xokb g) (g_dxfs g ++ g_xfs g) = true -> inb (g_default g) (map xo_ptr (g_dxfs g)) = true -> ginv g.
Proof.
  intros g Q A. split; [|exact (proj1 (inb_in _ _) A)]. apply Forall_forall. intros y J. rewrite forallb_forall in Q. specialize (Q y J). unfold xokb in Q. apply andb_true_iff in Q. destruct Q as [Q1 Q2].
  split; [destruct (xo_font y); [apply inb_in; exact Q1|exact Logic.I]|destruct (xo_fmt y); [discriminate Q2|exact Logic.I]].
Qed.
Lemma minv_new : minv [] mem_new no_tree [].
Proof.
  assert (ND : NoDup (h_live (w_heap (m_w mem_new)))) by (apply distinct_nodup; vm_compute; reflexivity).
  constructor.
  - assert (B : forallb (fun p => Nat.ltb p (h_next (w_heap (m_w mem_new)))) (h_live (w_heap (m_w mem_new))) = true) by (vm_compute; reflexivity).
    exact (hv_of _ ND B).
  - assert (A : distinct (owned no_tree mem_new) = true) by (vm_compute; reflexivity).
    assert (B : forallb (fun p => inb p (owned no_tree mem_new)) (h_live (w_heap (m_w mem_new))) = true) by (vm_compute; reflexivity).
    assert (C : forallb (fun p => inb p (h_live (w_heap (m_w mem_new)))) (owned no_tree mem_new) = true) by (vm_compute; reflexivity).
    intro q. change (cnt q (free no_tree [])) with 0. rewrite Nat.add_0_r. exact (same_cnt _ _ ND A B C q).
  - assert (A : inb (g_default (w_glob (m_w mem_new))) (map xo_ptr (g_dxfs (w_glob (m_w mem_new)))) = true) by (vm_compute; reflexivity).
    assert (Q : forallb (xokb (w_glob (m_w mem_new))) (g_dxfs (w_glob (m_w mem_new)) ++ g_xfs (w_glob (m_w mem_new))) = true) by (vm_compute; reflexivity).
    exact (ginv_of _ Q A).
  - assert (A : m_sheets mem_new = []) by (vm_compute; reflexivity). rewrite A. constructor.
  - assert (A : g_labels (w_glob (m_w mem_new)) = []) by (vm_compute; reflexivity). unfold labok. rewrite A. intros p [].
  - assert (A : forall p, ~ made_sheet [] p) by (intros p []). assert (B : forall p, ~ made_font [] p) by (intros p [[]|[? []]]). assert (C : forall p, ~ made_format [] p) by (intros p []).
    assert (D : forall p, ~ made_xf [] p) by (intros p [[? [? []]]|[? []]]). assert (F : forall p, ~ made_stack [] p) by (intros p [? []]).
    unfold handles. split; [intros p M; destruct (A p M)|]. split; [intros p M; destruct (B p M)|]. split; [intros p M; destruct (C p M)|]. split; [intros p M; destruct (D p M)|intros p M; destruct (F p M)].
  - assert (A : places mem_new = []) by (vm_compute; reflexivity). intros pl p. rewrite A. split; [intro S; destruct (stands_nil _ _ S)|intros []].
Qed.
Lemma ninv_new : forall n, ninv [] [] no_tree [] n.
Proof.
  assert (A : forall p, ~ made_node [] p) by (intros p [k []]). assert (B : forall p, ~ entrusted [] p) by (intros p (? & ? & ? & ? & ? & [])). assert (C : forall p k, ~ gave [] p k) by (intros p k [[? [[] _]]|[? []]]).
  intro n. constructor.
  - intros p M. destruct (A p M). - intros p M. destruct (B p M). - intros p k M. destruct (C p k M).
  - intro p. split; [intros []|intros [M _]; destruct (A p M)].
  - intro p. split; [intros []|intros [M _]; destruct (A p M)].
  - intros p []. - intros p (? & ? & ? & ? & ? & []).
Qed.
