(** C48: the life of objects.  A program that uses a workbook properly (SpecMem.proper) never
    makes the library follow a pointer to an object that is gone, and deleting the workbook
    deletes every object exactly once, except the formula nodes that still are the program's. *)
From Coq Require Import ZArith List Bool Arith Lia Permutation.
From Verif Require Import UnitModel SpecMem MemModel MemProof MemInv MemSteps MemNodes MemCalls MemWrite MemPut.
Import ListNotations.
Local Open Scope nat_scope.

(** A workbook was made and properly used: [h] is what happened, [m] what there is. *)
Inductive session : story -> mem -> Prop :=
| session_start : session [] mem_new
| session_step h m c m' a : session h m -> proper h c -> mrun m c = Ok (m', a) -> session (h ++ [(c, a)]) m'.

Lemma session_inv : forall h m, session h m -> exists tree roots, minv h m tree roots /\ ninv h (w_nodes (m_w m)) tree roots (h_next (w_heap (m_w m))).
Proof.
  intros h m S. induction S as [|h m c m' a S [tree [roots [I N]]] P E].
  - exists no_tree, []. split; [exact minv_new|]. assert (D : w_nodes (m_w mem_new) = []) by (vm_compute; reflexivity). rewrite D. apply ninv_new.
  - destruct (proper_good h m c tree roots I N P) as (m1 & a1 & t1 & r1 & E1 & I1 & N1). rewrite E in E1. injection E1 as <- <-. exists t1, r1. split; assumption.
Qed.

(* ------------------------------------------------------------------ *)
(** * Proper calls *)

(** No proper call follows a pointer to a deleted object, deletes an object twice or runs
    through a cyclic tree: each of these is [UB] in the model. *)
Theorem C48_proper_calls_are_safe : forall h m c, session h m -> proper h c -> exists m' a, mrun m c = Ok (m', a).
Proof.
  intros h m c S P. destruct (session_inv h m S) as (tree & roots & I & N). destruct (proper_good h m c tree roots I N P) as (m' & a & _ & _ & E & _). exists m', a. exact E.
Qed.

(** What the program got stays usable: sheets, fonts, formats, format objects and formulas until
    the workbook is deleted, cells and notes until their place is written again, formula nodes
    while no cell owns them. *)
Theorem C48_pointers_stay_good : forall h m p, session h m ->
  made_sheet h p \/ made_font h p \/ made_format h p \/ made_xf h p \/ made_stack h p \/ standing h p \/ (made_node h p /\ ~ belongs h p) -> In p (h_live (w_heap (m_w m))).
Proof.
  intros h m p S M. destruct (session_inv h m S) as (tree & roots & I & N). apply cnt_In. destruct (mi_hand _ _ _ _ I) as (H1 & H2 & H3 & H4 & H5).
  assert (GL := glob_live I). unfold live in GL.
  destruct M as [M|[M|[M|[M|[M|[M|M]]]]]].
  - specialize (H1 p M). apply in_map_iff in H1. destruct H1 as [s [<- J]]. exact (sheet_live I s (ms_ptr s) J ltac:(apply cnt_In; rewrite cnt_sowned, one_same; lia)).
  - apply GL. specialize (H2 p M). unfold gowned. rewrite !in_app_iff. tauto.
  - apply GL. specialize (H3 p M). unfold gowned. rewrite !in_app_iff. tauto.
  - apply GL. specialize (H4 p M). unfold gowned. rewrite !in_app_iff. tauto.
  - exact (stack_live I p (H5 p M)).
  - exact (standing_live I p M).
  - rewrite (mi_cnt _ _ _ _ I). assert (F : In p (free tree roots)) by (apply (ni_free _ _ _ _ _ N); exact M). apply cnt_In in F. lia.
Qed.

(* ------------------------------------------------------------------ *)
(** * Deleting the workbook *)

Lemma teardown : forall h m tree roots, minv h m tree roots -> exists g, delete_workbook m = Ok g /\ hv g /\ forall q, cnt q (h_live g) = cnt q (free tree roots).
Proof.
  intros h m tree roots I. destruct (delete_workbook_ok tree m (mi_heap _ _ _ _ I) (mi_g _ _ _ _ I)) as (g & E & V & X & C).
  - refine (Forall_impl _ _ (mi_s _ _ _ _ I)). intros s S. exact (si_body _ _ _ _ _ _ S).
  - intro q. rewrite (mi_cnt _ _ _ _ I). lia.
  - exists g. split; [exact E|]. split; [exact V|]. intro q. specialize (C q). rewrite (mi_cnt _ _ _ _ I) in C. lia.
Qed.

(** At any moment the workbook can be deleted: nothing is deleted twice, no deleted object is
    used, and what is left are exactly the formula nodes no cell was told to delete. *)
Theorem C48_delete_frees_all_but_own_nodes : forall h m, session h m ->
  exists g, delete_workbook m = Ok g /\ NoDup (h_live g) /\ forall p, In p (h_live g) <-> made_node h p /\ ~ belongs h p.
Proof.
  intros h m S. destruct (session_inv h m S) as (tree & roots & I & N). destruct (teardown h m tree roots I) as (g & E & V & C). exists g. split; [exact E|]. split; [exact (cnt_nodup _ (proj1 V))|].
  intro p. rewrite cnt_In, C, <- cnt_In. exact (ni_free _ _ _ _ _ N p).
Qed.

(** A program that made no formula nodes leaves nothing behind. *)
Theorem C48_delete_frees_everything : forall h m, session h m -> (forall p, ~ made_node h p) -> exists g, delete_workbook m = Ok g /\ h_live g = [].
Proof.
  intros h m S X. destruct (C48_delete_frees_all_but_own_nodes h m S) as (g & E & _ & L). exists g. split; [exact E|].
  destruct (h_live g) as [|p l]; [reflexivity|]. exfalso. destruct (proj1 (L p) (or_introl eq_refl)) as [M _]. exact (X p M).
Qed.

(** formula_expr.cpp 70-92: DestroyAST on one root after the other. *)
Fixpoint destroy_roots (fuel : nat) (nodes : list (nat * list nat)) (g : heap) (ps : list nat) : res heap :=
  match ps with [] => Ok g | p :: t => let* g1 := destroy_tree fuel nodes g p in destroy_roots fuel nodes g1 t end.

Lemma destroy_roots_ok : forall nodes tree n ps g, hv g -> (forall p, In p ps -> agree nodes (tree p) /\ rootof (tree p) = p /\ length (labels (tree p)) <= n) ->
  (forall q, cnt q (free tree ps) <= cnt q (h_live g)) -> exists g', destroy_roots n nodes g ps = Ok g' /\ hv g' /\ forall q, cnt q (h_live g') + cnt q (free tree ps) = cnt q (h_live g).
Proof.
  intros nodes tree n ps. induction ps as [|p ps IH]; intros g V A C.
  - exists g. split; [reflexivity|]. split; [exact V|]. intro q. unfold free. cbn [flat_map cnt]. lia.
  - destruct (A p (or_introl eq_refl)) as (A1 & A2 & A3). assert (C' : forall q, cnt q (labels (tree p)) + cnt q (free tree ps) <= cnt q (h_live g)) by (intro q; specialize (C q); unfold free in *; cbn [flat_map] in C; rewrite cnt_app in C; exact C).
    destruct (destroy_ok nodes (tree p) n g V A1) as (g1 & E1 & V1 & _ & K1); [intro q; specialize (C' q); lia|exact A3|].
    destruct (IH g1 V1) as (g2 & E2 & V2 & K2); [intros y Y; apply A; right; exact Y|intro q; specialize (C' q); specialize (K1 q); lia|].
    exists g2. split; [cbn [destroy_roots]; rewrite <- A2, E1; exact E2|]. split; [exact V2|]. intro q. specialize (K1 q). specialize (K2 q). unfold free in *. cbn [flat_map]. rewrite cnt_app. lia.
Qed.

(** After the workbook is deleted the program can delete its own trees: each tree that was not
    given away is still whole, the trees have nothing in common, and deleting them (in any
    order) leaves nothing behind. *)
Theorem C48_own_trees_survive : forall h m g ps, session h m -> delete_workbook m = Ok g -> NoDup ps -> (forall p, In p ps <-> made_node h p /\ ~ given h p) ->
  exists g', destroy_roots (tree_fuel (m_w m)) (w_nodes (m_w m)) g ps = Ok g' /\ h_live g' = [].
Proof.
  intros h m g ps S E ND R. destruct (session_inv h m S) as (tree & roots & I & N). destruct (teardown h m tree roots I) as (g0 & E0 & V & C). rewrite E in E0. injection E0 as <-.
  assert (F1 : forall q, cnt q (free tree roots) <= 1) by (intro q; rewrite <- C; exact (proj1 V q)). assert (NR := roots_nodup _ _ _ _ _ N F1).
  assert (PM : Permutation ps roots) by (apply NoDup_Permutation; [exact ND|exact NR|]; intro x; rewrite R; symmetry; exact (ni_roots _ _ _ _ _ N x)).
  assert (CP : forall q, cnt q (free tree ps) = cnt q (free tree roots)) by (intro q; apply cnt_perm; unfold free; apply Permutation_flat_map; exact PM).
  destruct (destroy_roots_ok (w_nodes (m_w m)) tree (tree_fuel (m_w m)) ps g V) as (g' & E' & V' & K').
  - intros p J. assert (J' : In p roots) by (apply (Permutation_in _ PM); exact J). destruct (ni_agree _ _ _ _ _ N p J') as (A1 & A2 & _). split; [exact A1|]. split; [exact A2|]. apply agree_fuel; [exact A1|].
    intro q. specialize (F1 q). unfold free in F1. assert (Z := cnt_flat_in (fun p => labels (tree p)) roots p q J'). lia.
  - intro q. rewrite CP, C. lia.
  - exists g'. split; [exact E'|]. destruct (h_live g') as [|y l] eqn:EL; [reflexivity|]. exfalso. specialize (K' y). rewrite CP, C in K'. cbn [cnt] in K'. rewrite one_same in K'. lia.
Qed.

(* ------------------------------------------------------------------ *)
(** * Improper use *)

Fixpoint plays (m : mem) (cs : list mcall) : res mem :=
  match cs with [] => Ok m | c :: t => let* (m1, _) := mrun m c in plays m1 t end.
Definition s0 : nat := 42.

(** The same tree given to two cells that both delete it: deleting the workbook uses freed
    nodes.  Without the sharing the same program is fine. *)
Theorem C48_shared_tree_refuted : exists m, plays mem_new [MSheet; MNode []; MCell s0 0 0 None (HTree 44 true); MCell s0 1 0 None (HTree 44 true)] = Ok m /\ delete_workbook m = UB.
Proof. eexists. split; [vm_compute; reflexivity|vm_compute; reflexivity]. Qed.
(** A cell that was overwritten may not be used. *)
Theorem C48_overwritten_cell_refuted : exists m, plays mem_new [MSheet; MCell s0 0 0 None HPlain; MCell s0 0 0 None HPlain] = Ok m /\ mrun m (MCellSet 44 None None false 0) = UB.
Proof. eexists. split; [vm_compute; reflexivity|vm_compute; reflexivity]. Qed.
(** A node that is its own argument: saving and deleting never end. *)
Theorem C48_cyclic_tree_refuted : exists m, plays mem_new [MSheet; MNode []; MArg 44 44; MCell s0 0 0 None (HTree 44 true)] = Ok m /\ mrun m MSave = UB /\ delete_workbook m = UB.
Proof. eexists. split; [vm_compute; reflexivity|split; vm_compute; reflexivity]. Qed.
(** A tree a cell deletes is gone once the cell is overwritten. *)
Theorem C48_tree_after_overwrite_refuted : exists m, plays mem_new [MSheet; MNode []; MCell s0 0 0 None (HTree 44 true); MCell s0 0 0 None HPlain; MCell s0 1 0 None (HTree 44 false)] = Ok m /\ mrun m MSave = UB.
Proof. eexists. split; [vm_compute; reflexivity|vm_compute; reflexivity]. Qed.

(* ------------------------------------------------------------------ *)
(** * A session *)

Fixpoint tell (m : mem) (h : story) (cs : list mcall) : option (story * mem) :=
  match cs with
  | [] => Some (h, m)
  | c :: t => match mrun m c with Ok (m1, a) => tell m1 (h ++ [(c, a)]) t | _ => None end
  end.
Definition a_program : list mcall :=
  [MSheet; MFont; MXf (Some 44) None; MNode []; MNode []; MNode [46; 47]; MNode []; MNode []; MArg 48 49;
   MCell s0 3 2 (Some 45) (HTree 48 true); MCell s0 3 2 None HLong; MCellSet 52 (Some 44) None true 0; MNote s0 3 2 None;
   MCell s0 4 2 None (HTree 50 false); MMerge s0; MCol s0 2 (Some 45); MStack s0; MPush 59 (Some 52); MCell s0 5 0 None (HStack 59); MProp true 2; MColor true; MSave].

Ltac told := cbn; repeat (first [left; reflexivity | right]).
Ltac untold I := cbn in I; repeat match type of I with _ \/ _ => destruct I as [I|I] end; try discriminate I; try (destruct I; fail).
Ltac not_given :=
  let A := fresh "A" in let J := fresh "J" in let K := fresh "K" in
  intros [(?&?&?&?&?&J)|(?&[(?&J&K)|(?&J)])]; [untold J|untold J; injection J as <- <-; cbn in K; intuition discriminate|untold J].
Ltac not_lent := let J := fresh "J" in intros (?&?&?&?&?&J); untold J.
Ltac node k := exists k; told.
Ltac is_own k := split; [node k|split; [not_given|not_lent]].
Ltac stood h1 c h2 pl := exists h1, c, h2, pl; split; [reflexivity|split; [reflexivity|repeat (apply Forall_cons; [cbn; discriminate|]); apply Forall_nil]].

Fixpoint all_proper (past rest : story) : Prop :=
  match rest with [] => True | (c, a) :: t => proper past c /\ all_proper (past ++ [(c, a)]) t end.
Lemma tell_grows : forall cs m h h' m', tell m h cs = Some (h', m') -> exists rest, h' = h ++ rest.
Proof.
  induction cs as [|c cs IH]; intros m h h' m' E; cbn [tell] in E; [injection E as <- <-; exists []; rewrite app_nil_r; reflexivity|].
  destruct (mrun m c) as [[m1 a]| |]; try discriminate E. destruct (IH _ _ _ _ E) as [r ->]. exists ((c, a) :: r). rewrite <- app_assoc. reflexivity.
Qed.
Lemma tell_session : forall cs m h h' m' rest, tell m h cs = Some (h', m') -> h' = h ++ rest -> all_proper h rest -> session h m -> session h' m'.
Proof.
  induction cs as [|c cs IH]; intros m h h' m' rest E R P S; cbn [tell] in E; [injection E as <- <-; exact S|].
  destruct (mrun m c) as [[m1 a]| |] eqn:M; try discriminate E. destruct (tell_grows _ _ _ _ _ E) as [r R2]. assert (Q : rest = (c, a) :: r) by (apply (app_inv_head h); rewrite <- R, R2, <- app_assoc; reflexivity).
  subst rest. cbn [all_proper] in P. destruct P as [P1 P2]. refine (IH m1 (h ++ [(c, a)]) h' m' r E R2 P2 _). exact (session_step h m c m1 a S P1 M).
Qed.

(** What happens in the program above. *)
Definition a_story : story :=
  [(MSheet, Some 42); (MFont, Some 44); (MXf (Some 44) None, Some 45); (MNode [], Some 46); (MNode [], Some 47); (MNode [46; 47], Some 48); (MNode [], Some 49); (MNode [], Some 50); (MArg 48 49, None);
   (MCell 42 3 2 (Some 45) (HTree 48 true), Some 51); (MCell 42 3 2 None HLong, Some 52); (MCellSet 52 (Some 44) None true 0, None); (MNote 42 3 2 None, Some 55); (MCell 42 4 2 None (HTree 50 false), Some 56);
   (MMerge 42, None); (MCol 42 2 (Some 45), None); (MStack 42, Some 59); (MPush 59 (Some 52), None); (MCell 42 5 0 None (HStack 59), Some 63); (MProp true 2, None); (MColor true, None); (MSave, None)].

(** The program is a session, so the theorems apply to it: a tree of four nodes given to a cell
    that is overwritten, one lent, a format object, a note, a formula. *)
Lemma a_story_proper : all_proper [] a_story.
Proof.
  unfold a_story. cbn [all_proper app]. repeat match goal with |- _ /\ all_proper _ _ => idtac | |- proper _ _ /\ _ => split | |- True => exact Logic.I end.
  all: cbn [proper maybe]; try exact Logic.I.
  - split; [left; told|exact Logic.I].
  - split; [constructor|constructor].
  - split; [constructor|constructor].
  - split; [repeat constructor; cbn; intuition discriminate|]. apply Forall_cons; [is_own (@nil nat)|]. apply Forall_cons; [is_own (@nil nat)|apply Forall_nil].
  - split; [constructor|constructor].
  - split; [constructor|constructor].
  - split; [node [46; 47]|]. split; [not_given|]. split; [is_own (@nil nat)|discriminate].
  - split; [told|]. split; [left; exists (Some 44), None; told|]. is_own [46; 47].
  - split; [told|]. split; exact Logic.I.
  - split; [|split; [left; told|exact Logic.I]]. stood [(MSheet, Some 42); (MFont, Some 44); (MXf (Some 44) None, Some 45); (MNode [], Some 46); (MNode [], Some 47); (MNode [46; 47], Some 48); (MNode [], Some 49); (MNode [], Some 50); (MArg 48 49, None); (MCell 42 3 2 (Some 45) (HTree 48 true), Some 51)] (MCell 42 3 2 None HLong) (@nil (mcall * option nat)) (false, 42, 3%Z, 2%Z).
  - split; [told|exact Logic.I].
  - split; [told|]. split; [exact Logic.I|]. split; [node (@nil nat)|not_given].
  - told.
  - split; [told|]. left; exists (Some 44), None; told.
  - told.
  - split; [exists 42; told|]. exists (firstn 10 a_story), (MCell 42 3 2 None HLong). eexists. exists (false, 42, 3%Z, 2%Z). split; [reflexivity|]. split; [reflexivity|]. repeat (apply Forall_cons; [cbn; discriminate|]). apply Forall_nil.
  - split; [told|]. split; [exact Logic.I|]. exists 42; told.
Qed.
Lemma a_session : exists m, tell mem_new [] a_program = Some (a_story, m) /\ session a_story m.
Proof.
  destruct (tell mem_new [] a_program) as [[h m]|] eqn:E; [|vm_compute in E; discriminate E]. exists m. assert (H : h = a_story) by (vm_compute in E; injection E as <- _; reflexivity). subst h. split; [reflexivity|].
  exact (tell_session _ _ _ _ _ a_story E eq_refl a_story_proper session_start).
Qed.
(** Deleting this workbook leaves node 50, which was lent, and nothing else. *)
Example C48_example : exists m g, session a_story m /\ delete_workbook m = Ok g /\ h_live g = [50].
Proof.
  destruct a_session as [m [E S]]. vm_compute in E. injection E as <-. eexists. eexists. split; [exact S|]. split; [vm_compute; reflexivity|reflexivity].
Qed.

Print Assumptions C48_proper_calls_are_safe.
Print Assumptions C48_pointers_stay_good.
Print Assumptions C48_delete_frees_all_but_own_nodes.
Print Assumptions C48_delete_frees_everything.
Print Assumptions C48_own_trees_survive.
Print Assumptions C48_shared_tree_refuted.
Print Assumptions C48_overwritten_cell_refuted.
Print Assumptions C48_cyclic_tree_refuted.
Print Assumptions C48_tree_after_overwrite_refuted.
