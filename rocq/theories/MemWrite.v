(** Saving, formula nodes, writing cells and changing their formats keep the invariant. *)
From Coq Require Import ZArith List Bool Arith Lia Permutation.
From Verif Require Import UnitModel SpecMem MemModel MemProof MemInv MemSteps MemNodes MemCalls.
Import ListNotations.
Local Open Scope nat_scope.
#[local] Arguments gowned : simpl never.
#[local] Arguments one : simpl never.
#[local] Arguments sowned : simpl never.
#[local] Arguments downed : simpl never.
#[local] Arguments cowned : simpl never.
#[local] Arguments kowned : simpl never.
#[local] Arguments iowned : simpl never.

Lemma every_ok : forall {A} (f : A -> res unit) l, (forall a, In a l -> f a = Ok tt) -> every f l = Ok tt.
Proof.
  intros A f. induction l as [|a l IH]; intro H; [reflexivity|]. cbn [every]. rewrite H by (left; reflexivity). cbn [bind]. apply IH. intros; apply H; right; assumption.
Qed.

Section Writes.
Context {h : story} {m : mem} {tree : nat -> rose} {roots : list nat}.
Hypothesis I : minv h m tree roots.
Hypothesis N : ninv h (w_nodes (m_w m)) tree roots (h_next (w_heap (m_w m))).

Let V := mi_heap _ _ _ _ I.
Let G := mi_g _ _ _ _ I.
Let R := groom_of I.
Ltac run := unfold mrun; rewrite (use_ok _ _ (self_live I)); cbn [bind].

Lemma free_once : forall q, cnt q (free tree roots) <= 1.
Proof. intro q. destruct V as [V1 _]. specialize (V1 q). rewrite (mi_cnt _ _ _ _ I) in V1. lia. Qed.

(* ------------------------------------------------------------------ *)
(** ** Saving *)

Lemma cowned_le : forall s c q, In s (m_sheets m) -> In c (ms_cells s ++ ms_notes s) -> cnt q (cowned tree c) <= cnt q (h_live (w_heap (m_w m))).
Proof.
  intros s c q Hs Hc. assert (X := sheet_room I s q Hs). rewrite cnt_sowned in X. apply in_app_or in Hc. destruct Hc as [Hc|Hc]; assert (Y := cnt_flat_in (cowned tree) _ c q Hc); lia.
Qed.
Lemma held_ok : forall s c, In s (m_sheets m) -> In c (ms_cells s ++ ms_notes s) -> use_held m (mc_held c) = Ok tt.
Proof.
  intros s c Hs Hc. destruct (sinv_of I s Hs) as [[B1 B1'] B2 B3 B4 B5 B6]. rewrite Forall_forall in B5. assert (K := B5 c Hc). unfold hok in K.
  assert (TC : tok (w_nodes (m_w m)) tree c).
  { rewrite Forall_forall in B1, B1'. apply in_app_or in Hc. destruct Hc as [Hc|Hc]; [exact (proj2 (B1 c Hc))|exact (proj2 (B1' c Hc))]. }
  unfold tok in TC. assert (LE := fun q => cowned_le s c q Hs Hc). unfold cowned in LE. unfold use_held.
  destruct (mc_held c) as [| |p [|]|f]; try reflexivity.
  - destruct TC as [A E]. rewrite <- E at 1. apply visit_ok; [exact A| |].
    + intros q Hq. apply cnt_In in Hq. specialize (LE q). cbn [cnt] in LE. lia.
    + apply agree_fuel; [exact A|]. intro q. specialize (LE q). cbn [cnt] in LE. destruct V as [V1 _]. specialize (V1 q). lia.
  - apply (ni_lent _ _ _ _ _ N), (ni_roots _ _ _ _ _ N) in K. destruct (ni_agree _ _ _ _ _ N p K) as (A & E & _). rewrite <- E at 1. apply visit_ok; [exact A| |].
    + intros q Hq. exact (free_live I q (free_in tree roots p q K Hq)).
    + apply agree_fuel; [exact A|]. intro q. assert (X := cnt_flat_in (fun p => labels (tree p)) roots p q K). cbn beta in X. assert (Y := free_once q). unfold free in Y. lia.
  - apply use_ok. exact (stack_live I f K).
Qed.
Lemma save_cell_ok : forall s c, In s (m_sheets m) -> In c (ms_cells s ++ ms_notes s) -> save_cell m c = Ok tt.
Proof.
  intros s c Hs Hc. unfold save_cell. assert (A : In c (all_cells m)) by (apply in_flat_map; exists s; auto). rewrite (use_ok _ _ (all_cells_live I c A)). cbn [bind].
  destruct (sinv_of I s Hs) as [[B1 B1'] _ _ _ _ _]. rewrite Forall_forall in B1, B1'. rewrite touch_ok; [cbn [bind]; exact (held_ok s c Hs Hc)|exact G|exact (glob_live I)|].
  apply in_app_or in Hc. destruct Hc as [Hc|Hc]; [exact (proj1 (B1 c Hc))|exact (proj1 (B1' c Hc))].
Qed.
Lemma save_sheet_ok : forall s, In s (m_sheets m) -> save_sheet m s = Ok tt.
Proof.
  intros s Hs. unfold save_sheet. assert (O : forall p, 1 <= cnt p (sowned tree s) -> live (m_w m) p) by (intros p Hp; apply (sheet_live I s p Hs), cnt_In, Hp).
  destruct (sinv_of I s Hs) as [_ _ _ B4 _ B6]. rewrite Forall_forall in B4, B6.
  rewrite use_ok by (apply O; rewrite cnt_sowned, one_same; lia). cbn [bind].
  assert (LN : forall e, In e (ms_cols s ++ ms_rows s) -> save_line m e = Ok tt).
  { intros e He. unfold save_line. rewrite use_ok.
    - cbn [bind]. apply touch_opt_ok; [exact G|exact (glob_live I)|exact (B4 e He)].
    - apply O. rewrite cnt_sowned. apply in_app_or in He. destruct He as [He|He]; apply (in_map ml_ptr) in He; apply cnt_In in He; lia. }
  rewrite (every_ok (save_line m) (ms_cols s)) by (intros e He; apply LN, in_or_app; left; exact He). cbn [bind].
  rewrite (every_ok (save_cell m) (ms_cells s)) by (intros e He; apply (save_cell_ok s e Hs), in_or_app; left; exact He). cbn [bind].
  rewrite (every_ok (save_line m) (ms_rows s)) by (intros e He; apply LN, in_or_app; right; exact He). cbn [bind].
  rewrite (every_ok (save_cell m) (ms_notes s)) by (intros e He; apply (save_cell_ok s e Hs), in_or_app; right; exact He). cbn [bind].
  rewrite uses_ok by (intros p Hp; apply O; rewrite cnt_sowned; apply cnt_In in Hp; lia). cbn [bind].
  rewrite uses_ok by (intros p Hp; apply O; rewrite cnt_sowned; apply cnt_In in Hp; lia). cbn [bind].
  apply every_ok. intros d Hd. rewrite use_ok by (apply O; rewrite cnt_sowned; apply (in_map fst) in Hd; apply cnt_In in Hd; lia). cbn [bind].
  apply uses_ok. intros p Hp. apply (stack_live I). exact (B6 d Hd p Hp).
Qed.
Lemma save_doc_ok : forall d, (forall p, In p (downed d) -> live (m_w m) p) -> save_doc m d = Ok tt.
Proof.
  intros d L. unfold save_doc. rewrite use_ok by (apply L; left; reflexivity). cbn [bind]. apply every_ok. intros i Hi.
  rewrite use_ok by (apply L; right; apply in_flat_map; exists i; split; [exact Hi|left; reflexivity]). cbn [bind].
  apply uses_ok. intros p Hp. apply L. right. apply in_flat_map. exists i. split; [exact Hi|right; exact Hp].
Qed.
Lemma save_ok : save m = Ok tt.
Proof.
  unfold save. rewrite (use_ok _ _ (self_live I)). cbn [bind]. assert (O : forall p, 1 <= cnt p (gowned (w_glob (m_w m))) -> live (m_w m) p) by (intros p Hp; apply (glob_live I), cnt_In, Hp).
  rewrite uses_ok by (intros p Hp; apply O; rewrite cnt_gowned; apply cnt_In in Hp; rewrite !cnt_app in Hp; lia). cbn [bind].
  rewrite every_ok by (intros x Hx; apply touch_ok; [exact G|exact (glob_live I)|unfold xin; apply in_map; exact Hx]). cbn [bind].
  rewrite uses_ok.
  2:{ intros p Hp. rewrite !in_app_iff in Hp. destruct Hp as [Hp|[Hp|[Hp|Hp]]]; try (apply O; rewrite cnt_gowned; apply cnt_In in Hp; lia).
      destruct (mi_lab _ _ _ _ I p Hp) as (c & Hc & <- & _). exact (all_cells_live I c Hc). }
  cbn [bind]. rewrite every_ok by (intros s Hs; exact (save_sheet_ok s Hs)). cbn [bind].
  rewrite save_doc_ok by (intros p Hp; exact (sum_live I p Hp)). cbn [bind]. apply save_doc_ok. intros p Hp; exact (doc_live I p Hp).
Qed.
Lemma good_save : good h m MSave.
Proof. apply (same_good I N _ None); [exact Logic.I|reflexivity| |exact Logic.I]. run. rewrite save_ok. reflexivity. Qed.

(* ------------------------------------------------------------------ *)
(** ** Formula nodes *)

Lemma cell_tree_not_free : forall s c p, In s (m_sheets m) -> In c (ms_cells s ++ ms_notes s) -> mc_held c = HTree p true -> In p (labels (tree p)) /\ ~ In p (free tree roots) /\ p < h_next (w_heap (m_w m)).
Proof.
  intros s c p Hs Hc E. destruct (sinv_of I s Hs) as [[B1 B1'] _ _ _ _ _]. rewrite Forall_forall in B1, B1'.
  assert (TC : tok (w_nodes (m_w m)) tree c) by (apply in_app_or in Hc; destruct Hc as [Hc|Hc]; [exact (proj2 (B1 c Hc))|exact (proj2 (B1' c Hc))]).
  unfold tok in TC. rewrite E in TC. destruct TC as [_ RT]. assert (L : In p (labels (tree p))) by (rewrite <- RT at 1; apply root_label). split; [exact L|].
  assert (X : cnt p (cowned tree c) <= cnt p (owned tree m)).
  { rewrite cnt_owned. assert (Y := cnt_flat_in (sowned tree) _ s p Hs). rewrite cnt_sowned in Y. apply in_app_or in Hc. destruct Hc as [Hc|Hc]; assert (Z := cnt_flat_in (cowned tree) _ c p Hc); lia. }
  unfold cowned in X. rewrite E in X. cbn [cnt] in X. apply cnt_In in L. destruct V as [V1 V2]. assert (Y := mi_cnt _ _ _ _ I p). split.
  - intro F. apply cnt_In in F. specialize (V1 p). lia.
  - destruct (le_lt_dec (h_next (w_heap (m_w m))) p) as [D|D]; [|exact D]. specialize (V2 p D). lia.
Qed.
Lemma flat_ext : forall {A} (f g : A -> list nat) l, (forall a, In a l -> f a = g a) -> flat_map f l = flat_map g l.
Proof. intros A f g. induction l as [|a l IH]; intro H; [reflexivity|]. cbn [flat_map]. rewrite H by (left; reflexivity). rewrite IH; [reflexivity|]. intros; apply H; right; assumption. Qed.
Lemma owned_ext : forall tree' w, (forall s c p, In s (m_sheets m) -> In c (ms_cells s ++ ms_notes s) -> mc_held c = HTree p true -> tree' p = tree p) ->
  w_glob w = w_glob (m_w m) -> owned tree' (keep m w) = owned tree m.
Proof.
  intros tree' w H E. unfold owned. cbn [keep m_self m_w m_sheets m_sum m_doc]. rewrite E. do 3 f_equal.
  apply flat_ext. intros s Hs. unfold sowned. f_equal. f_equal; [|f_equal]; apply flat_ext; intros c Hc; unfold cowned; destruct (mc_held c) as [| |p [|]|f] eqn:Eh; try reflexivity; rewrite (H s c p Hs); try reflexivity; try exact Eh; apply in_or_app; auto.
Qed.
Lemma node_step : forall c a w' tree' roots', calm c \/ (exists k, c = MNode k) \/ (exists n k, c = MArg n k) ->
  (forall s d p, In s (m_sheets m) -> In d (ms_cells s ++ ms_notes s) -> mc_held d = HTree p true -> tree' p = tree p /\ (agree (w_nodes (m_w m)) (tree p) -> agree (w_nodes w') (tree p))) ->
  w_glob w' = w_glob (m_w m) -> hv (w_heap w') ->
  (forall q, cnt q (h_live (w_heap w')) + cnt q (free tree roots) = cnt q (h_live (w_heap (m_w m))) + cnt q (free tree' roots')) ->
  newhandle c a (keep m w') -> place c = None -> minv (h ++ [(c, a)]) (keep m w') tree' roots'.
Proof.
  intros c a w' tree' roots' _ T F Vw C NH P. constructor.
  - exact Vw.
  - intro q. rewrite owned_ext; [|intros s d p Hs Hd E; exact (proj1 (T s d p Hs Hd E))|exact F]. specialize (C q). cbn [keep m_w]. rewrite (mi_cnt _ _ _ _ I) in C. lia.
  - cbn [keep m_w]. rewrite F. exact G.
  - cbn [keep m_w m_sheets]. rewrite F. apply Forall_forall. intros s Hs. assert (S := sinv_of I s Hs).
    refine (match sinv_mono h (c, a) (w_glob (m_w m)) (w_glob (m_w m)) (w_nodes (m_w m)) tree (all_stacks m) (all_stacks m) s (fun x H => H) (incl_refl _) S with Build_sinv _ _ _ _ _ _ b1 b2 b3 b4 b5 b6 => _ end).
    constructor; try assumption. destruct b1 as [C1 C2]. rewrite Forall_forall in C1, C2.
    assert (X : forall d, In d (ms_cells s ++ ms_notes s) -> tok (w_nodes (m_w m)) tree d -> tok (w_nodes w') tree' d).
    { intros d Hd. unfold tok. destruct (mc_held d) as [| |p [|]|f] eqn:Eh; auto. destruct (T s d p Hs Hd Eh) as [-> T2]. intros [A B]. split; [exact (T2 A)|exact B]. }
    split; apply Forall_forall; intros d Hd; [destruct (C1 d Hd) as [D1 D2]|destruct (C2 d Hd) as [D1 D2]]; (split; [exact D1|]); (apply X; [|exact D2]); apply in_or_app; auto.
  - intros p Hp. cbn [keep m_w] in Hp. rewrite F in Hp. exact (mi_lab _ _ _ _ I p Hp).
  - apply (handles_snoc h c a m (keep m w') (mi_hand _ _ _ _ I)); [|exact NH]. constructor; cbn [keep m_w m_sheets]; rewrite ?F; apply incl_refl.
  - intros pl p. rewrite stands_snoc, P, (mi_place _ _ _ _ I). split; [intros [[D _]|[_ H]]; [discriminate|exact H]|intro H; right; split; [discriminate|exact H]].
Qed.

Lemma good_node : forall kids, NoDup kids -> Forall (own h) kids -> good h m (MNode kids).
Proof.
  intros kids NK K. destruct (w_new (m_w m)) as [p w1] eqn:W. destruct (w_new_ok _ _ _ V W) as (A & B & C & D & F & L).
  exists (keep m (mkW (w_heap w1) ((p, kids) :: w_nodes w1) (w_glob w1))), (Some p), (node_tree tree p kids), (node_roots roots p kids). rewrite D.
  split; [run; rewrite W, D; reflexivity|]. assert (N' : ninv h (w_nodes (m_w m)) tree roots p) by (rewrite A; exact N). split.
  - apply node_step; try reflexivity; try assumption.
    + right; left; exists kids; reflexivity.
    + intros s d q Hs Hd E. destruct (cell_tree_not_free s d q Hs Hd E) as (X & Y & Z). cbn [w_nodes]. split; [unfold node_tree; apply upd_ne; lia|].
      intro AG. apply agree_other; [|exact AG]. intro J. assert (LE := cowned_le s d p Hs Hd). unfold cowned in LE. rewrite E in LE. cbn [cnt] in LE. apply cnt_In in J. destruct V as [_ V2]. specialize (V2 p ltac:(lia)). lia.
    + intro q. cbn [w_heap]. rewrite L, (node_cnt h (w_nodes (m_w m)) tree roots p kids q N' free_once NK K). lia.
  - cbn [keep m_w w_nodes w_heap]. rewrite C, <- A. exact (ninv_node h kids p (w_nodes (m_w m)) tree roots N' free_once NK K).
Qed.
Lemma good_arg : forall n k, made_node h n -> ~ given h n -> own h k -> n <> k -> good h m (MArg n k).
Proof.
  intros n k Mn Gn K D. assert (In_ : In n roots) by (apply (ni_roots _ _ _ _ _ N); auto). assert (Ik : In k roots) by (apply (ni_roots _ _ _ _ _ N); destruct K; tauto).
  destruct (ni_agree _ _ _ _ _ N n In_) as (A1 & A2 & A3). assert (RL : In n (labels (tree n))) by (rewrite <- A2 at 1; apply root_label).
  assert (KO : exists ks, kids_of (w_nodes (m_w m)) n = Some ks). { clear RL. destruct (tree n) as [n' ts]. cbn [rootof] in A2. subst n'. inversion A1; subst. eexists; eassumption. }
  destruct KO as [ks KO].
  exists (keep m (mkW (w_heap (m_w m)) ((n, ks ++ [k]) :: w_nodes (m_w m)) (w_glob (m_w m)))), None, (arg_tree tree n k), (minus roots [k]).
  split; [run; rewrite (use_ok _ _ (free_live I n (free_in _ _ _ _ In_ RL))); cbn [bind]; rewrite KO; reflexivity|]. split.
  - apply node_step; try reflexivity; try assumption; try exact Logic.I.
    + right; right; exists n, k; reflexivity.
    + intros s d q Hs Hd E. destruct (cell_tree_not_free s d q Hs Hd E) as (X & Y & Z). cbn [w_nodes]. split.
      * unfold arg_tree. apply upd_ne. intros ->. apply Y. exact (free_in _ _ _ _ In_ RL).
      * intro AG. apply agree_other; [|exact AG]. intro J. assert (X2 : cnt n (cowned tree d) <= cnt n (owned tree m)).
        { rewrite cnt_owned. assert (Y2 := cnt_flat_in (sowned tree) _ s n Hs). rewrite cnt_sowned in Y2. apply in_app_or in Hd. destruct Hd as [Hd|Hd]; assert (Z2 := cnt_flat_in (cowned tree) _ d n Hd); lia. }
        unfold cowned in X2. rewrite E in X2. cbn [cnt] in X2. apply cnt_In in J. assert (Y2 := mi_cnt _ _ _ _ I n). assert (F1 := free_in _ _ _ _ In_ RL). apply cnt_In in F1. destruct V as [V1 _]. specialize (V1 n). lia.
    + intro q. cbn [w_heap]. rewrite (arg_cnt h (w_nodes (m_w m)) tree roots _ n k q N free_once In_ Ik D). lia.
  - cbn [keep m_w w_nodes w_heap]. exact (ninv_arg h n k None (w_nodes (m_w m)) tree roots _ ks N free_once Mn Gn K D KO).
Qed.

(* ------------------------------------------------------------------ *)
(** ** The format of a cell *)

Lemma on_cell_ptr : forall l p x, map mc_ptr (on_cell l p x) = map mc_ptr l.
Proof. induction l as [|c l IH]; intros p x; [reflexivity|]. cbn [on_cell map]. rewrite IH. destruct (Nat.eqb (mc_ptr c) p); reflexivity. Qed.
Lemma on_cell_owned : forall t l p x, flat_map (cowned t) (on_cell l p x) = flat_map (cowned t) l.
Proof. intros t. induction l as [|c l IH]; intros p x; [reflexivity|]. cbn [on_cell flat_map]. rewrite IH. f_equal. destruct (Nat.eqb (mc_ptr c) p); reflexivity. Qed.
Lemma on_cell_place : forall (b : bool) (s : nat) l p x, map (fun c => ((b, s, mc_row c, mc_col c), mc_ptr c)) (on_cell l p x) = map (fun c => ((b, s, mc_row c, mc_col c), mc_ptr c)) l.
Proof. intros b s. induction l as [|c l IH]; intros p x; [reflexivity|]. cbn [on_cell map]. rewrite IH. destruct (Nat.eqb (mc_ptr c) p); reflexivity. Qed.
Lemma on_cell_in : forall l p x c, In c l -> exists d, In d (on_cell l p x) /\ mc_ptr d = mc_ptr c /\ mc_held d = mc_held c.
Proof.
  induction l as [|c l IH]; intros p x d J; [destruct J|]. cbn [on_cell]. destruct J as [->|J].
  - eexists. split; [left; reflexivity|]. destruct (Nat.eqb (mc_ptr d) p); auto.
  - destruct (IH p x d J) as (e & A & B). exists e. split; [right; exact A|exact B].
Qed.
Lemma on_cell_all : forall (P Q : mcell -> Prop) l p x, Forall P l -> (forall c, P c -> Q c) -> (forall c, P c -> Q (mkMcell (mc_ptr c) (mc_row c) (mc_col c) x (mc_held c))) -> Forall Q (on_cell l p x).
Proof. intros P Q. induction l as [|c l IH]; intros p x F A B; [constructor|]. inversion F; subst. cbn [on_cell]. constructor; [destruct (Nat.eqb (mc_ptr c) p); auto|]. apply IH; auto. Qed.

Lemma recell_good : forall c p x w', quiet c -> place c = None -> (forall a m', newhandle c a m') -> gstep (m_w m) w' -> xin (w_glob w') x ->
  mrun m c = Ok (set_cell_xf m w' p x, None) -> good h m c.
Proof.
  intros c p x w' Q P NH S X RUN. apply (quiet_good h m c _ None tree roots Q N RUN); [|exact (gs_nodes _ _ S)|exact (gs_next _ _ S)].
  assert (ST : all_stacks (set_cell_xf m w' p x) = all_stacks m).
  { unfold all_stacks, set_cell_xf. cbn [m_sheets]. induction (m_sheets m) as [|s l IH]; [reflexivity|]. cbn [map flat_map ms_stacks]. rewrite IH. reflexivity. }
  apply (mstep h m); try assumption.
  - exact (gs_hv _ _ S).
  - intro q. rewrite !cnt_owned. cbn [set_cell_xf m_w m_self m_sheets m_sum m_doc]. assert (C := gs_cnt _ _ S q).
    assert (E : flat_map (sowned tree) (map (fun s => mkMsheet (ms_ptr s) (on_cell (ms_cells s) p x) (ms_hint s) (on_cell (ms_notes s) p x) (ms_nhint s) (ms_merged s) (ms_cols s) (ms_rows s) (ms_ranges s) (ms_stacks s) (ms_dvs s) (ms_links s)) (m_sheets m)) = flat_map (sowned tree) (m_sheets m)).
    { induction (m_sheets m) as [|s l IH]; [reflexivity|]. cbn [map flat_map]. rewrite IH. f_equal. unfold sowned. cbn. rewrite !on_cell_owned. reflexivity. }
    rewrite E. lia.
  - exact (gs_ginv _ _ S).
  - rewrite ST. cbn [set_cell_xf m_w m_sheets]. apply Forall_map. rewrite (gs_nodes _ _ S). refine (Forall_impl _ _ (mi_s _ _ _ _ I)). intros s Hs.
    apply (sinv_mono h (c, None) _ (w_glob w') _ _ _ (all_stacks m) s (fun y => gstep_xin _ _ y S) (incl_refl _)) in Hs. destruct Hs as [[B1 B1'] B2 B3 B4 B5 B6]. constructor; cbn; try assumption.
    + split; cbn; (refine (on_cell_all _ _ _ _ _ _ _ _); [eassumption|auto|]); intros d [_ T]; split; [exact X|exact T|exact X|exact T].
    + rewrite on_cell_ptr. exact B2.
    + rewrite on_cell_ptr. exact B3.
    + apply Forall_app in B5. destruct B5 as [B5 B5']. apply Forall_app. split; (refine (on_cell_all _ _ _ _ _ _ _ _); [eassumption|auto|auto]).
  - intros q Hq. cbn [set_cell_xf m_w] in Hq. rewrite (gs_labels _ _ S) in Hq. destruct (mi_lab _ _ _ _ I q Hq) as (d & Hd & E1 & E2). unfold all_cells in Hd. apply in_flat_map in Hd. destruct Hd as [s [Hs Hd]].
    assert (Z : exists e, In e (on_cell (ms_cells s) p x ++ on_cell (ms_notes s) p x) /\ mc_ptr e = mc_ptr d /\ mc_held e = mc_held d).
    { apply in_app_or in Hd. destruct Hd as [Hd|Hd]; destruct (on_cell_in _ p x d Hd) as (e & A & B); exists e; (split; [|exact B]); apply in_or_app; auto. }
    destruct Z as (e & A & B1 & B2). exists e. split; [|split; congruence]. unfold all_cells, set_cell_xf. cbn [m_sheets]. apply in_flat_map. eexists. split; [apply in_map; exact Hs|]. exact A.
  - destruct S as [_ _ _ _ _ _ _ [_ Sf] Sm Sx]. constructor; try assumption; [|rewrite ST; apply incl_refl]. cbn [set_cell_xf m_sheets]. rewrite map_map. cbn. apply incl_refl.
  - apply NH.
  - unfold places, set_cell_xf. cbn [m_sheets]. induction (m_sheets m) as [|s l IH]; [reflexivity|]. cbn [map flat_map ms_cells ms_notes ms_ptr]. rewrite IH, !on_cell_place. reflexivity.
Qed.
Lemma cell_at_some : forall p, standing h p -> exists c, cell_at m p = Some c /\ In c (all_cells m) /\ xin (w_glob (m_w m)) (mc_xf c).
Proof.
  intros p S. destruct (standing_cell I p S) as (c & Hc & E). unfold cell_at. destruct (find _ (all_cells m)) as [d|] eqn:F.
  - apply find_some in F. destruct F as [Hd _]. exists d. split; [reflexivity|]. split; [exact Hd|]. unfold all_cells in Hd. apply in_flat_map in Hd. destruct Hd as [s [Hs Hd]].
    destruct (sinv_of I s Hs) as [[B1 B1'] _ _ _ _ _]. rewrite Forall_forall in B1, B1'. apply in_app_or in Hd. destruct Hd as [Hd|Hd]; [exact (proj1 (B1 d Hd))|exact (proj1 (B1' d Hd))].
  - exfalso. assert (X := find_none _ _ F c Hc). cbn beta in X. rewrite E, Nat.eqb_refl in X. discriminate.
Qed.
Lemma good_cellxf : forall p x, standing h p -> made_xf h x -> good h m (MCellXf p x).
Proof.
  intros p x S M. destruct (cell_at_some p S) as (c & E & Hc & X). apply (recell_good _ p x (m_w m)); [exact Logic.I|reflexivity|intros; exact Logic.I|apply gstep_refl; [exact V|exact G]|exact (xf_in I x M)|].
  run. rewrite (use_ok _ _ (standing_live I p S)). cbn [bind]. rewrite E. rewrite touch_ok; [|exact G|exact (glob_live I)|exact (xf_in I x M)]. cbn [bind]. rewrite touch_ok; [|exact G|exact (glob_live I)|exact X]. reflexivity.
Qed.
End Writes.

(** findXF: when another equal format is found, the copy just made is deleted. *)
Lemma find_equal_ok : forall w0 w t f fm same u, hv (w_heap w) -> ginv (w_glob w) -> (forall q, cnt q (gowned (w_glob w0)) <= cnt q (h_live (w_heap w0))) -> gstep w0 w ->
  g_xfs (w_glob w) = map u (g_xfs (w_glob w0)) ++ [mkXfo t f fm] -> map xo_ptr (map u (g_xfs (w_glob w0))) = map xo_ptr (g_xfs (w_glob w0)) ->
  exists x w', find_equal w t same = Ok (x, w') /\ gstep w0 w' /\ xin (w_glob w') x.
Proof.
  intros w0 w t f fm same u V G R S E EP. assert (RW := gstep_room _ _ S R). assert (L := room_glive _ RW). unfold find_equal.
  rewrite uses_ok by (intros p Hp; apply L, in_gowned_xf; unfold xin; rewrite map_app; apply in_or_app; right; exact Hp). cbn [bind].
  assert (TX : xin (w_glob w) t) by (unfold xin; rewrite E, !map_app; apply in_or_app; right; apply in_or_app; right; left; reflexivity).
  destruct (nth_error (g_xfs (w_glob w)) same) as [o|] eqn:NE; [|exists t, w; split; [reflexivity|]; split; [exact S|exact TX]].
  destruct (Nat.eqb_spec (xo_ptr o) t) as [D|D]; [exists t, w; split; [reflexivity|]; split; [exact S|exact TX]|].
  assert (RV : rev (g_xfs (w_glob w)) = mkXfo t f fm :: rev (map u (g_xfs (w_glob w0)))) by (rewrite E, rev_app_distr; reflexivity). cbv zeta. rewrite RV. cbn [xo_ptr].
  assert (Ho : In o (map u (g_xfs (w_glob w0)))). { apply nth_error_In in NE. rewrite E in NE. apply in_app_or in NE. destruct NE as [NE|[<-|[]]]; [exact NE|]. exfalso. apply D. reflexivity. }
  unfold w_del. destruct (h_del_ok (w_heap w) t V) as [h1 [E1 [V1 [X1 C1]]]].
  { specialize (RW t). rewrite cnt_gowned, E, map_app, cnt_app in RW. cbn [map cnt xo_ptr] in RW. rewrite one_same in RW. lia. }
  rewrite E1. cbn [bind]. rewrite E, removelast_last. eexists. eexists. split; [reflexivity|].
  unfold put_xfs, up_glob, up_heap. destruct S as [S1 S2 S3 S4 S5 S6 S7 [S8 S8'] S9 S10]. cbn [w_glob w_heap w_nodes]. split.
  - constructor; cbn [w_glob w_heap w_nodes g_dfonts g_fonts g_fmts g_dxfs g_xfs g_styles g_bsheets g_palette g_labels g_default]; try assumption.
    + lia.
    + intro q. specialize (S4 q). specialize (C1 q). rewrite !cnt_gowned in *. cbn [w_glob w_heap w_nodes g_dfonts g_fonts g_fmts g_dxfs g_xfs g_styles g_bsheets g_palette g_labels g_default]. rewrite E, map_app, cnt_app in S4. cbn [map cnt xo_ptr] in *. lia.
    + destruct G as [G1 G2]. split; [|exact G2]. rewrite E, app_assoc in G1. apply Forall_app in G1. destruct G1 as [G1 _]. exact G1.
    + split; assumption.
    + rewrite EP. apply incl_refl.
  - unfold xin. cbn. rewrite map_app. apply in_or_app; right. apply in_map. exact Ho.
Qed.

Lemma good_cellset : forall h m tree roots p f fm own same, minv h m tree roots -> ninv h (w_nodes (m_w m)) tree roots (h_next (w_heap (m_w m))) ->
  standing h p -> maybe (made_font h) f -> maybe (made_format h) fm -> good h m (MCellSet p f fm own same).
Proof.
  intros h m tree roots p f fm own same I N S F M.
  assert (V := mi_heap _ _ _ _ I). assert (G := mi_g _ _ _ _ I). assert (R := groom_of I).
  destruct (cell_at_some I p S) as (c & E & Hc & X).
  destruct (dup_xf_ok (m_w m) (mc_xf c) V G R X) as (t & w1 & f0 & m0 & E1 & S1 & X1 & T1).
  assert (S2 : exists fd w2, (if own then let (q, w2) := add_font w1 in (Some q, w2) else (f, w1)) = (fd, w2) /\ gstep w1 w2 /\ g_xfs (w_glob w2) = g_xfs (w_glob w1) /\ ofin (g_dfonts (w_glob w2) ++ g_fonts (w_glob w2)) fd).
  { destruct own.
    - destruct (add_font w1) as [q w2] eqn:A. destruct (add_font_ok _ _ _ (gs_hv _ _ S1) (gs_ginv _ _ S1) A) as [SA KA]. exists (Some q), w2. split; [reflexivity|]. split; [exact SA|]. split; [|cbn [ofin]; apply in_or_app; right; exact KA].
      unfold add_font, w_new in A. destruct (h_new (w_heap w1)). injection A as _ <-. reflexivity.
    - exists f, w1. split; [reflexivity|]. split; [exact (gstep_refl _ (gs_hv _ _ S1) (gs_ginv _ _ S1))|]. split; [reflexivity|]. assert (O := maybe_font I f F). destruct f as [f|]; [|exact Logic.I]. exact (proj1 (gs_fonts _ _ S1) f O). }
  destruct S2 as (fd & w2 & E2 & S2 & X2 & O2). assert (S12 := gstep_trans _ _ _ S1 S2).
  assert (TX : xin (w_glob w2) t) by (unfold xin; rewrite X2, X1, !map_app; apply in_or_app; right; apply in_or_app; right; left; reflexivity).
  destruct (set_xf_ok w2 t fd fm (gs_hv _ _ S2) (gs_ginv _ _ S2) (gstep_room _ _ S12 R) TX O2) as (w3 & E3 & S3 & X3).
  { assert (O := maybe_format I fm M). destruct fm as [fm|]; [|exact Logic.I]. exact (gs_fmts _ _ S12 fm O). }
  assert (S13 := gstep_trans _ _ _ S12 S3).
  rewrite X2, X1, map_app in X3. cbn [map] in X3.
  assert (SE : settle t fd fm (mkXfo t f0 m0) = mkXfo t (pick fd f0) (pick fm m0)) by (unfold settle; cbn [xo_ptr xo_font xo_fmt]; rewrite Nat.eqb_refl; reflexivity). rewrite SE in X3.
  destruct (find_equal_ok (m_w m) w3 t _ _ same (settle t fd fm) (gs_hv _ _ S3) (gs_ginv _ _ S3) R S13 X3 (settle_ptr _ _ _ _)) as (x & w4 & E4 & S4 & X4).
  apply (recell_good I N _ p x w4); [exact Logic.I|reflexivity|intros; exact Logic.I|exact S4|exact X4|].
  unfold mrun. rewrite (use_ok _ _ (self_live I)). cbn [bind]. rewrite (use_ok _ _ (standing_live I p S)). cbn [bind]. rewrite E, E1. cbn [bind]. rewrite E2, E3. cbn [bind].
  rewrite touch_ok; [|exact (gs_ginv _ _ S3)|exact (room_glive _ (gstep_room _ _ S13 R))|exact (gstep_xin _ _ _ S13 X)]. cbn [bind]. rewrite E4. cbn [bind].
  rewrite touch_ok; [reflexivity|exact (gs_ginv _ _ S4)|exact (room_glive _ (gstep_room _ _ S4 R))|exact X4].
Qed.
