(** The invariant of the memory of a workbook, and what deletion does under it. *)
From Coq Require Import ZArith List Bool Arith Lia Permutation.
From Verif Require Import UnitModel SpecMem MemModel MemProof.
Import ListNotations.
Local Open Scope nat_scope.

(* ------------------------------------------------------------------ *)
(** * Who owns what *)

Definition gowned (g : glob) : list nat :=
  g_dfonts g ++ g_fonts g ++ g_fmts g ++ map xo_ptr (g_dxfs g) ++ map xo_ptr (g_xfs g) ++ g_styles g ++ g_bsheets g ++ opt_list (g_palette g).
Definition cowned (tree : nat -> rose) (c : mcell) : list nat :=
  mc_ptr c :: match mc_held c with HTree p true => labels (tree p) | _ => [] end.
Definition kowned (k : mstack) : list nat := st_ptr k :: st_parts k.
Definition sowned (tree : nat -> rose) (s : msheet) : list nat :=
  ms_ptr s :: flat_map (cowned tree) (ms_cells s) ++ flat_map (cowned tree) (ms_notes s) ++ ms_merged s ++ map ml_ptr (ms_cols s)
  ++ map ml_ptr (ms_rows s) ++ ms_ranges s ++ flat_map kowned (ms_stacks s) ++ map fst (ms_dvs s) ++ ms_links s.
Definition iowned (i : hitem) : list nat := hi_ptr i :: opt_list (hi_str i).
Definition downed (d : hdoc) : list nat := hd_ptr d :: flat_map iowned (hd_items d).
Definition free (tree : nat -> rose) (roots : list nat) : list nat := flat_map (fun p => labels (tree p)) roots.
Definition owned (tree : nat -> rose) (m : mem) : list nat :=
  m_self m :: gowned (w_glob (m_w m)) ++ flat_map (sowned tree) (m_sheets m) ++ downed (m_sum m) ++ downed (m_doc m).

Definition xin (g : glob) (x : nat) : Prop := In x (map xo_ptr (g_dxfs g ++ g_xfs g)).
Definition ofin (l : list nat) (o : option nat) : Prop := match o with Some p => In p l | None => True end.
Definition xok (g : glob) (x : xfo) : Prop := ofin (g_dfonts g ++ g_fonts g) (xo_font x) /\ ofin (g_fmts g) (xo_fmt x).
Definition ginv (g : glob) : Prop := Forall (xok g) (g_dxfs g ++ g_xfs g) /\ In (g_default g) (map xo_ptr (g_dxfs g)).

Definition live (w : world) (p : nat) : Prop := 1 <= cnt p (h_live (w_heap w)).
Definition glive (w : world) : Prop := forall p, In p (gowned (w_glob w)) -> live w p.

Lemma use_ok : forall w p, live w p -> w_use w p = Ok tt.
Proof. intros. apply h_use_ok. exact H. Qed.
Lemma uses_ok : forall w l, (forall p, In p l -> live w p) -> w_uses w l = Ok tt.
Proof. intros. apply h_uses_ok. exact H. Qed.
Lemma uses_opt : forall w l o, ofin l o -> (forall p, In p l -> live w p) -> w_uses w (opt_list o) = Ok tt.
Proof. intros w l [p|] O L; [|reflexivity]. apply uses_ok. intros q [<-|[]]. apply L. exact O. Qed.

Lemma in_gowned_font : forall g p, In p (g_dfonts g ++ g_fonts g) -> In p (gowned g).
Proof. intros g p H. unfold gowned. apply in_app_or in H. destruct H; [apply in_or_app; left; assumption|apply in_or_app; right; apply in_or_app; left; assumption]. Qed.
Lemma in_gowned_fmt : forall g p, In p (g_fmts g) -> In p (gowned g).
Proof. intros g p H. unfold gowned. do 2 (apply in_or_app; right). apply in_or_app; left; assumption. Qed.
Lemma in_gowned_xf : forall g p, xin g p -> In p (gowned g).
Proof.
  intros g p H. unfold gowned. unfold xin in H. rewrite map_app in H. do 3 (apply in_or_app; right). apply in_app_or in H. destruct H; [apply in_or_app; left; assumption|].
  apply in_or_app; right; apply in_or_app; left; assumption.
Qed.
Lemma find_xf_some : forall g x, xin g x -> exists o, find_xf g x = Some o /\ In o (g_dxfs g ++ g_xfs g) /\ xo_ptr o = x.
Proof.
  intros g x H. unfold find_xf. destruct (find _ _) as [o|] eqn:E.
  - apply find_some in E. destruct E as [I E]. apply Nat.eqb_eq in E. exists o. auto.
  - exfalso. unfold xin in H. apply in_map_iff in H. destruct H as [o [E1 I]]. apply (find_none _ _ E) in I. rewrite E1, Nat.eqb_refl in I. discriminate.
Qed.
Lemma touch_ok : forall w x, ginv (w_glob w) -> glive w -> xin (w_glob w) x -> touch_xf w x = Ok tt.
Proof.
  intros w x [G1 G2] L X. unfold touch_xf. rewrite use_ok by (apply L, in_gowned_xf, X). cbn [bind].
  destruct (find_xf_some _ _ X) as [o [E [I _]]]. rewrite E. rewrite Forall_forall in G1. destruct (G1 o I) as [F M].
  rewrite (uses_opt w _ _ F) by (intros p Hp; apply L, in_gowned_font, Hp). cbn [bind].
  exact (uses_opt w _ _ M (fun p Hp => L p (in_gowned_fmt _ _ Hp))).
Qed.
Lemma touch_opt_ok : forall w o, ginv (w_glob w) -> glive w -> (forall x, o = Some x -> xin (w_glob w) x) -> touch_opt w o = Ok tt.
Proof. intros w [x|] G L X; [|reflexivity]. apply touch_ok; auto. Qed.

(* ------------------------------------------------------------------ *)
(** * Deleting cells, sheets, documents *)

(** The tree in a cell is as the nodes say. *)
Definition tok (nodes : list (nat * list nat)) (tree : nat -> rose) (c : mcell) : Prop :=
  match mc_held c with HTree p true => agree nodes (tree p) /\ rootof (tree p) = p | _ => True end.
Definition relabel (w : world) (c : mcell) : world :=
  match mc_held c with HLong => put_labels w (remove Nat.eq_dec (mc_ptr c) (g_labels (w_glob w))) | _ => w end.
(** Two global states that differ in the list of long labels only. *)
Definition gsame (g g' : glob) : Prop := exists l, g' = mkGlob (g_dfonts g) (g_fonts g) (g_fmts g) (g_dxfs g) (g_xfs g) (g_styles g) (g_bsheets g) (g_palette g) l (g_default g).
Lemma gsame_refl : forall g, gsame g g. Proof. intros []; eexists; reflexivity. Qed.
Lemma gsame_trans : forall a b c, gsame a b -> gsame b c -> gsame a c.
Proof. intros a b c [l ->] [k ->]. cbn. eexists; reflexivity. Qed.
Lemma gsame_owned : forall g g', gsame g g' -> gowned g' = gowned g.
Proof. intros g g' [l ->]. reflexivity. Qed.
Lemma gsame_ginv : forall g g', gsame g g' -> ginv g -> ginv g'.
Proof. intros g g' [l ->] H. exact H. Qed.
Lemma gsame_xin : forall g g' x, gsame g g' -> xin g x -> xin g' x.
Proof. intros g g' x [l ->] H. exact H. Qed.
Lemma gsame_put : forall w l, gsame (w_glob w) (w_glob (put_labels w l)).
Proof. intros. eexists; reflexivity. Qed.

Definition roomy (w : world) (l : list nat) : Prop := forall q, cnt q l + cnt q (gowned (w_glob w)) <= cnt q (h_live (w_heap w)).
Lemma roomy_glive : forall w l, roomy w l -> glive w.
Proof. intros w l H p I. unfold live. apply cnt_In in I. specialize (H p). lia. Qed.

Lemma delete_cell_ok : forall tree w c, hv (w_heap w) -> ginv (w_glob w) -> xin (w_glob w) (mc_xf c) -> tok (w_nodes w) tree c -> roomy w (cowned tree c) ->
  exists w', delete_cell w c = Ok w' /\ removes (w_heap w) (cowned tree c) (w_heap w') /\ w_nodes w' = w_nodes w /\ w_glob w' = w_glob (relabel w c) /\ gsame (w_glob w) (w_glob w').
Proof.
  intros tree w c V G X T R. unfold delete_cell. fold (relabel w c).
  assert (N : w_nodes (relabel w c) = w_nodes w) by (unfold relabel; destruct (mc_held c); reflexivity).
  assert (H : w_heap (relabel w c) = w_heap w) by (unfold relabel; destruct (mc_held c); reflexivity).
  assert (SS : gsame (w_glob w) (w_glob (relabel w c))) by (unfold relabel; destruct (mc_held c); solve [apply gsame_refl|apply gsame_put]).
  assert (Q : exists w2, (match mc_held c with HTree p true => let* h := destroy_tree (tree_fuel (relabel w c)) (w_nodes (relabel w c)) (w_heap (relabel w c)) p in Ok (up_heap (relabel w c) h) | _ => Ok (relabel w c) end) = Ok w2
              /\ removes (w_heap w) (match mc_held c with HTree p true => labels (tree p) | _ => [] end) (w_heap w2) /\ w_nodes w2 = w_nodes w /\ w_glob w2 = w_glob (relabel w c)).
  { unfold tok in T. unfold roomy, cowned in R. unfold tree_fuel. rewrite H, N. remember (relabel w c) as r eqn:Er. clear Er.
    destruct (mc_held c) as [| |p [|]|f];
    try (exists r; split; [reflexivity|]; rewrite H; split; [apply removes_nil; exact V|]; split; [exact N|reflexivity]).
    destruct T as [A E]. destruct (destroy_ok (w_nodes w) (tree p) (S (length (w_nodes w))) (w_heap w)) as [h1 [E1 R1]].
    - exact V.
    - exact A.
    - intro q. specialize (R q). cbn [cnt] in R. lia.
    - apply agree_fuel; [exact A|]. intro q. destruct V as [V1 _]. specialize (V1 q). specialize (R q). cbn [cnt] in R. lia.
    - rewrite E in E1. rewrite E1. cbn [bind]. eexists. split; [reflexivity|]. split; [exact R1|]. split; [exact N|reflexivity]. }
  destruct Q as [w2 [E2 [R2 [N2 G2]]]]. rewrite E2. cbn [bind].
  assert (R3 := R2). destruct R3 as [V2 [X2 C2]].
  assert (L2 : forall q, cnt q (cowned tree c) + cnt q (gowned (w_glob w)) <= cnt q (h_live (w_heap w2)) + cnt q (match mc_held c with HTree p true => labels (tree p) | _ => [] end)).
  { intro q. rewrite C2. apply R. }
  rewrite touch_ok.
  - cbn [bind]. unfold w_del. destruct (h_del_ok (w_heap w2) (mc_ptr c) V2) as [h3 [E3 R3]].
    + specialize (L2 (mc_ptr c)). unfold cowned in L2. cbn [cnt] in L2. rewrite one_same in L2. lia.
    + rewrite E3. cbn [bind]. eexists. split; [reflexivity|]. cbn [up_heap w_heap w_nodes w_glob]. split.
      * apply (removes_cnt _ (match mc_held c with HTree p true => labels (tree p) | _ => [] end ++ [mc_ptr c])); [|exact (removes_app _ _ _ _ _ R2 R3)].
        intro q. rewrite cnt_app. unfold cowned. cbn [cnt]. lia.
      * split; [exact N2|]. split; [exact G2|]. rewrite G2. exact SS.
  - rewrite G2. apply (gsame_ginv _ _ SS). exact G.
  - intros p I. rewrite G2, (gsame_owned _ _ SS) in I. unfold live. specialize (L2 p). apply cnt_In in I. unfold cowned in L2. cbn [cnt] in L2. lia.
  - rewrite G2. apply (gsame_xin _ _ _ SS). exact X.
Qed.

Lemma delete_cells_ok : forall tree l w, hv (w_heap w) -> ginv (w_glob w) -> Forall (fun c => xin (w_glob w) (mc_xf c) /\ tok (w_nodes w) tree c) l ->
  roomy w (flat_map (cowned tree) l) ->
  exists w', delete_cells w l = Ok w' /\ removes (w_heap w) (flat_map (cowned tree) l) (w_heap w') /\ w_nodes w' = w_nodes w /\ gsame (w_glob w) (w_glob w').
Proof.
  intros tree. induction l as [|c l IH]; intros w V G F R; cbn [delete_cells flat_map].
  - exists w. split; [reflexivity|]. split; [apply removes_nil; exact V|]. split; [reflexivity|apply gsame_refl].
  - inversion F as [|? ? [X T] F2]; subst. cbn [flat_map] in R.
    destruct (delete_cell_ok tree w c V G X T) as [w1 [E1 [R1 [N1 [_ S1]]]]]; [intro q; specialize (R q); rewrite cnt_app in R; lia|].
    rewrite E1. cbn [bind]. destruct (IH w1) as [w2 [E2 [R2 [N2 S2]]]].
    + apply R1.
    + exact (gsame_ginv _ _ S1 G).
    + rewrite N1. apply (Forall_impl _ (P := fun c => xin (w_glob w) (mc_xf c) /\ tok (w_nodes w) tree c)); [|exact F2]. intros d [Xd Td]. split; [exact (gsame_xin _ _ _ S1 Xd)|exact Td].
    + intro q. rewrite (gsame_owned _ _ S1). destruct R1 as [_ [_ C1]]. specialize (C1 q). specialize (R q). rewrite cnt_app in R. lia.
    + exists w2. split; [exact E2|]. split; [exact (removes_app _ _ _ _ _ R1 R2)|]. split; [congruence|exact (gsame_trans _ _ _ S1 S2)].
Qed.

Lemma delete_stacks_ok : forall l h, hv h -> (forall q, cnt q (flat_map kowned l) <= cnt q (h_live h)) ->
  exists h', delete_stacks h l = Ok h' /\ removes h (flat_map kowned l) h'.
Proof.
  induction l as [|k l IH]; intros h V R; cbn [delete_stacks flat_map].
  - exists h. split; [reflexivity|apply removes_nil; exact V].
  - cbn [flat_map] in R. unfold kowned in R at 1. destruct (h_dels_ok (st_parts k) h V) as [h1 [E1 R1]]; [intro q; specialize (R q); rewrite cnt_app in R; cbn [cnt] in R; lia|].
    rewrite E1. cbn [bind]. destruct (h_del_ok h1 (st_ptr k)) as [h2 [E2 R2]]; [apply R1| |].
    + destruct R1 as [_ [_ C1]]. specialize (C1 (st_ptr k)). specialize (R (st_ptr k)). rewrite cnt_app in R. cbn [cnt] in R. rewrite one_same in R. lia.
    + rewrite E2. cbn [bind]. assert (R3 := removes_app _ _ _ _ _ R1 R2). destruct (IH h2) as [h4 [E4 R4]]; [apply R2| |].
      * intro q. destruct R3 as [_ [_ C]]. specialize (C q). specialize (R q). rewrite cnt_app in *. cbn [cnt] in *. lia.
      * exists h4. split; [exact E4|]. apply (removes_cnt _ ((st_parts k ++ [st_ptr k]) ++ flat_map kowned l)); [|exact (removes_app _ _ _ _ _ R3 R4)].
        intro q. unfold kowned. rewrite !cnt_app. cbn [cnt]. lia.
Qed.

Ltac dels h1 E1 R1 := lazymatch goal with |- context [h_dels ?h ?l] =>
  destruct (h_dels_ok l h) as [h1 [E1 R1]]; [ | |rewrite E1; cbn [bind]] end.

Definition sbody (tree : nat -> rose) (g : glob) (nodes : list (nat * list nat)) (s : msheet) : Prop :=
  Forall (fun c => xin g (mc_xf c) /\ tok nodes tree c) (ms_cells s) /\ Forall (fun c => xin g (mc_xf c) /\ tok nodes tree c) (ms_notes s).

Lemma delete_sheet_ok : forall tree w s, hv (w_heap w) -> ginv (w_glob w) -> sbody tree (w_glob w) (w_nodes w) s -> roomy w (sowned tree s) ->
  exists w', delete_sheet w s = Ok w' /\ removes (w_heap w) (sowned tree s) (w_heap w') /\ w_nodes w' = w_nodes w /\ gsame (w_glob w) (w_glob w').
Proof.
  intros tree w s V G [B1 B2] R. unfold delete_sheet. unfold roomy, sowned in R.
  destruct (delete_cells_ok tree (ms_cells s) w V G B1) as [w1 [E1 [R1 [N1 S1]]]].
  { intro q. specialize (R q). cbn [cnt] in R. rewrite !cnt_app in R. lia. }
  rewrite E1. cbn [bind].
  destruct (delete_cells_ok tree (ms_notes s) w1) as [w2 [E2 [R2 [N2 S2]]]].
  { apply R1. } { exact (gsame_ginv _ _ S1 G). }
  { rewrite N1. apply (Forall_impl _ (P := fun c => xin (w_glob w) (mc_xf c) /\ tok (w_nodes w) tree c)); [|exact B2]. intros d [Xd Td]. split; [exact (gsame_xin _ _ _ S1 Xd)|exact Td]. }
  { intro q. rewrite (gsame_owned _ _ S1). destruct R1 as [_ [_ C1]]. specialize (C1 q). specialize (R q). cbn [cnt] in R. rewrite !cnt_app in R. lia. }
  rewrite E2. cbn [bind].
  assert (V2 : hv (w_heap w2)) by apply R2.
  assert (C2 : forall q, cnt q (h_live (w_heap w2)) + cnt q (flat_map (cowned tree) (ms_cells s)) + cnt q (flat_map (cowned tree) (ms_notes s)) = cnt q (h_live (w_heap w))).
  { intro q. destruct R1 as [_ [_ C1]]. destruct R2 as [_ [_ C2]]. specialize (C1 q). specialize (C2 q). lia. }
  assert (X2 : h_next (w_heap w2) = h_next (w_heap w)) by (destruct R1 as [_ [? _]], R2 as [_ [? _]]; congruence).
  assert (R' : forall q, one q (ms_ptr s) + cnt q (ms_merged s) + cnt q (map ml_ptr (ms_cols s)) + cnt q (map ml_ptr (ms_rows s)) + cnt q (ms_ranges s)
             + cnt q (flat_map kowned (ms_stacks s)) + cnt q (map fst (ms_dvs s)) + cnt q (ms_links s) <= cnt q (h_live (w_heap w2))).
  { intro q. specialize (R q). specialize (C2 q). cbn [cnt] in R. rewrite !cnt_app in R. lia. }
  dels h3 E3 R3; [exact V2|intro q; specialize (R' q); lia|]. destruct R3 as [V3 [X3 C3]].
  dels h4 E4 R4; [exact V3|intro q; specialize (R' q); specialize (C3 q); lia|]. destruct R4 as [V4 [X4 C4]].
  dels h5 E5 R5; [exact V4|intro q; specialize (R' q); specialize (C3 q); specialize (C4 q); lia|]. destruct R5 as [V5 [X5 C5]].
  dels h6 E6 R6; [exact V5|intro q; specialize (R' q); specialize (C3 q); specialize (C4 q); specialize (C5 q); lia|]. destruct R6 as [V6 [X6 C6]].
  assert (C6' : forall q, cnt q (h_live h6) + cnt q (ms_merged s) + cnt q (map ml_ptr (ms_cols s)) + cnt q (map ml_ptr (ms_rows s)) + cnt q (ms_ranges s) = cnt q (h_live (w_heap w2))).
  { intro q; specialize (C3 q); specialize (C4 q); specialize (C5 q); specialize (C6 q); lia. }
  clear C3 C4 C5 C6.
  destruct (delete_stacks_ok (ms_stacks s) h6 V6) as [h7 [E7 [V7 [X7 C7]]]]; [intro q; specialize (R' q); specialize (C6' q); lia|]. rewrite E7. cbn [bind].
  dels h8 E8 R8; [exact V7|intro q; specialize (R' q); specialize (C6' q); specialize (C7 q); lia|]. destruct R8 as [V8 [X8 C8]].
  dels h9 E9 R9; [exact V8|intro q; specialize (R' q); specialize (C6' q); specialize (C7 q); specialize (C8 q); lia|]. destruct R9 as [V9 [X9 C9]].
  destruct (h_del_ok h9 (ms_ptr s) V9) as [h10 [E10 [V10 [X10 C10]]]].
  { specialize (R' (ms_ptr s)); specialize (C6' (ms_ptr s)); specialize (C7 (ms_ptr s)); specialize (C8 (ms_ptr s)); specialize (C9 (ms_ptr s)). rewrite one_same in R'. lia. }
  rewrite E10. cbn [bind]. eexists. split; [reflexivity|]. cbn [up_heap w_heap w_nodes w_glob]. split.
  - split; [exact V10|]. split; [congruence|]. intro q.
    specialize (C2 q); specialize (C6' q); specialize (C7 q); specialize (C8 q); specialize (C9 q); specialize (C10 q).
    unfold sowned. cbn [cnt] in *. rewrite !cnt_app. lia.
  - split; [congruence|exact (gsame_trans _ _ _ S1 S2)].
Qed.

Lemma sbody_same : forall tree g g' n s, gsame g g' -> sbody tree g n s -> sbody tree g' n s.
Proof. intros tree g g' n s [l ->] H. exact H. Qed.

Lemma delete_sheets_ok : forall tree l w, hv (w_heap w) -> ginv (w_glob w) -> Forall (sbody tree (w_glob w) (w_nodes w)) l -> roomy w (flat_map (sowned tree) l) ->
  exists w', delete_sheets w l = Ok w' /\ removes (w_heap w) (flat_map (sowned tree) l) (w_heap w') /\ w_nodes w' = w_nodes w /\ gsame (w_glob w) (w_glob w').
Proof.
  intros tree. induction l as [|c l IH]; intros w V G F R; cbn [delete_sheets flat_map].
  - exists w. split; [reflexivity|]. split; [apply removes_nil; exact V|]. split; [reflexivity|apply gsame_refl].
  - inversion F as [|? ? B F2]; subst. cbn [flat_map] in R.
    destruct (delete_sheet_ok tree w c V G B) as [w1 [E1 [R1 [N1 S1]]]]; [intro q; specialize (R q); rewrite cnt_app in R; lia|].
    rewrite E1. cbn [bind]. destruct (IH w1) as [w2 [E2 [R2 [N2 S2]]]].
    + apply R1.
    + exact (gsame_ginv _ _ S1 G).
    + rewrite N1. apply (Forall_impl _ (fun d => sbody_same tree _ _ _ d S1)). exact F2.
    + intro q. rewrite (gsame_owned _ _ S1). destruct R1 as [_ [_ C1]]. specialize (C1 q). specialize (R q). rewrite cnt_app in R. lia.
    + exists w2. split; [exact E2|]. split; [exact (removes_app _ _ _ _ _ R1 R2)|]. split; [congruence|exact (gsame_trans _ _ _ S1 S2)].
Qed.

Lemma delete_item_ok : forall w i, hv (w_heap w) -> (forall q, cnt q (iowned i) <= cnt q (h_live (w_heap w))) ->
  exists h', delete_item w i = Ok (up_heap w h') /\ removes (w_heap w) (iowned i) h'.
Proof.
  intros w i V R. unfold delete_item. unfold iowned in R. dels h1 E1 R1; [exact V|intro q; specialize (R q); cbn [cnt] in R; lia|].
  unfold w_del. cbn [up_heap w_heap]. destruct (h_del_ok h1 (hi_ptr i)) as [h2 [E2 R2]]; [apply R1| |].
  - destruct R1 as [_ [_ C1]]. specialize (C1 (hi_ptr i)). specialize (R (hi_ptr i)). cbn [cnt] in R. rewrite one_same in R. lia.
  - rewrite E2. cbn [bind]. exists h2. split; [reflexivity|]. apply (removes_cnt _ (opt_list (hi_str i) ++ [hi_ptr i])); [|exact (removes_app _ _ _ _ _ R1 R2)].
    intro q. unfold iowned. rewrite cnt_app. cbn [cnt]. lia.
Qed.
Lemma delete_items_ok : forall l w, hv (w_heap w) -> (forall q, cnt q (flat_map iowned l) <= cnt q (h_live (w_heap w))) ->
  exists h', delete_items w l = Ok (up_heap w h') /\ removes (w_heap w) (flat_map iowned l) h'.
Proof.
  induction l as [|i l IH]; intros w V R; cbn [delete_items flat_map].
  - exists (w_heap w). split; [destruct w; reflexivity|apply removes_nil; exact V].
  - cbn [flat_map] in R. destruct (delete_item_ok w i V) as [h1 [E1 R1]]; [intro q; specialize (R q); rewrite cnt_app in R; lia|].
    rewrite E1. cbn [bind]. destruct (IH (up_heap w h1)) as [h2 [E2 R2]]; cbn [up_heap w_heap].
    + apply R1.
    + intro q. destruct R1 as [_ [_ C1]]. specialize (C1 q). specialize (R q). rewrite cnt_app in R. lia.
    + exists h2. split; [exact E2|exact (removes_app _ _ _ _ _ R1 R2)].
Qed.
Lemma delete_doc_ok : forall d w, hv (w_heap w) -> (forall q, cnt q (downed d) <= cnt q (h_live (w_heap w))) ->
  exists h', delete_doc w d = Ok (up_heap w h') /\ removes (w_heap w) (downed d) h'.
Proof.
  intros d w V R. unfold delete_doc. unfold downed in R. destruct (delete_items_ok (hd_items d) w V) as [h1 [E1 R1]]; [intro q; specialize (R q); cbn [cnt] in R; lia|].
  rewrite E1. cbn [bind]. unfold w_del. cbn [up_heap w_heap]. destruct (h_del_ok h1 (hd_ptr d)) as [h2 [E2 R2]]; [apply R1| |].
  - destruct R1 as [_ [_ C1]]. specialize (C1 (hd_ptr d)). specialize (R (hd_ptr d)). cbn [cnt] in R. rewrite one_same in R. lia.
  - rewrite E2. cbn [bind]. exists h2. split; [reflexivity|]. apply (removes_cnt _ (flat_map iowned (hd_items d) ++ [hd_ptr d])); [|exact (removes_app _ _ _ _ _ R1 R2)].
    intro q. unfold downed. rewrite cnt_app. cbn [cnt]. lia.
Qed.
Lemma delete_glob_ok : forall h g, hv h -> (forall q, cnt q (gowned g) <= cnt q (h_live h)) -> exists h', delete_glob h g = Ok h' /\ removes h (gowned g) h'.
Proof.
  intros h g V R. unfold delete_glob. unfold gowned in R.
  assert (R' : forall q, cnt q (g_dfonts g) + cnt q (g_fonts g) + cnt q (g_fmts g) + cnt q (map xo_ptr (g_dxfs g)) + cnt q (map xo_ptr (g_xfs g)) + cnt q (g_styles g) + cnt q (g_bsheets g) + cnt q (opt_list (g_palette g)) <= cnt q (h_live h)).
  { intro q. specialize (R q). rewrite !cnt_app in R. lia. }
  clear R. dels h1 E1 R1; [exact V|intro q; specialize (R' q); lia|]. destruct R1 as [V1 [X1 C1]].
  dels h2 E2 R2; [exact V1|intro q; specialize (R' q); specialize (C1 q); lia|]. destruct R2 as [V2 [X2 C2]].
  dels h3 E3 R3; [exact V2|intro q; specialize (R' q); specialize (C1 q); specialize (C2 q); lia|]. destruct R3 as [V3 [X3 C3]].
  dels h4 E4 R4; [exact V3|intro q; specialize (R' q); specialize (C1 q); specialize (C2 q); specialize (C3 q); lia|]. destruct R4 as [V4 [X4 C4]].
  assert (C4' : forall q, cnt q (h_live h4) + cnt q (g_dfonts g) + cnt q (g_fonts g) + cnt q (g_fmts g) + cnt q (map xo_ptr (g_dxfs g)) = cnt q (h_live h)).
  { intro q; specialize (C1 q); specialize (C2 q); specialize (C3 q); specialize (C4 q); lia. }
  clear C1 C2 C3 C4.
  dels h5 E5 R5; [exact V4|intro q; specialize (R' q); specialize (C4' q); lia|]. destruct R5 as [V5 [X5 C5]].
  dels h6 E6 R6; [exact V5|intro q; specialize (R' q); specialize (C4' q); specialize (C5 q); lia|]. destruct R6 as [V6 [X6 C6]].
  dels h7 E7 R7; [exact V6|intro q; specialize (R' q); specialize (C4' q); specialize (C5 q); specialize (C6 q); lia|]. destruct R7 as [V7 [X7 C7]].
  destruct (h_dels_ok (opt_list (g_palette g)) h7 V7) as [h8 [E8 [V8 [X8 C8]]]]; [intro q; specialize (R' q); specialize (C4' q); specialize (C5 q); specialize (C6 q); specialize (C7 q); lia|].
  exists h8. split; [exact E8|]. split; [exact V8|]. split; [congruence|]. intro q. unfold gowned. rewrite !cnt_app.
  specialize (C4' q); specialize (C5 q); specialize (C6 q); specialize (C7 q); specialize (C8 q). lia.
Qed.

(** Deleting the workbook frees everything it owns and nothing else. *)
Lemma delete_workbook_ok : forall tree m, hv (w_heap (m_w m)) -> ginv (w_glob (m_w m)) -> Forall (sbody tree (w_glob (m_w m)) (w_nodes (m_w m))) (m_sheets m) ->
  (forall q, cnt q (owned tree m) <= cnt q (h_live (w_heap (m_w m)))) ->
  exists h', delete_workbook m = Ok h' /\ removes (w_heap (m_w m)) (owned tree m) h'.
Proof.
  intros tree m V G B R. unfold delete_workbook. unfold owned in R.
  assert (R' : forall q, one q (m_self m) + cnt q (gowned (w_glob (m_w m))) + cnt q (flat_map (sowned tree) (m_sheets m)) + cnt q (downed (m_sum m)) + cnt q (downed (m_doc m)) <= cnt q (h_live (w_heap (m_w m)))).
  { intro q. specialize (R q). cbn [cnt] in R. rewrite !cnt_app in R. lia. }
  clear R. rewrite use_ok by (unfold live; specialize (R' (m_self m)); rewrite one_same in R'; lia). cbn [bind].
  destruct (delete_sheets_ok tree (m_sheets m) (m_w m) V G B) as [w1 [E1 [R1 [N1 S1]]]]; [intro q; specialize (R' q); lia|]. rewrite E1. cbn [bind]. destruct R1 as [V1 [X1 C1]].
  destruct (delete_doc_ok (m_doc m) w1 V1) as [h2 [E2 [V2 [X2 C2]]]]; [intro q; specialize (R' q); specialize (C1 q); lia|]. rewrite E2. cbn [bind].
  destruct (delete_doc_ok (m_sum m) (up_heap w1 h2) V2) as [h3 [E3 [V3 [X3 C3]]]]; [intro q; specialize (R' q); specialize (C1 q); specialize (C2 q); cbn [up_heap w_heap]; lia|]. rewrite E3. cbn [bind]. cbn [up_heap w_heap w_glob] in *.
  destruct (delete_glob_ok h3 (w_glob w1) V3) as [h4 [E4 [V4 [X4 C4]]]]; [intro q; rewrite (gsame_owned _ _ S1); specialize (R' q); specialize (C1 q); specialize (C2 q); specialize (C3 q); lia|]. rewrite E4. cbn [bind].
  rewrite (gsame_owned _ _ S1) in C4.
  destruct (h_del_ok h4 (m_self m) V4) as [h5 [E5 [V5 [X5 C5]]]].
  { specialize (R' (m_self m)); specialize (C1 (m_self m)); specialize (C2 (m_self m)); specialize (C3 (m_self m)); specialize (C4 (m_self m)). rewrite one_same in R'. lia. }
  exists h5. split; [exact E5|]. split; [exact V5|]. split; [congruence|]. intro q.
  specialize (C1 q); specialize (C2 q); specialize (C3 q); specialize (C4 q); specialize (C5 q). unfold owned. cbn [cnt] in *. rewrite !cnt_app. lia.
Qed.
