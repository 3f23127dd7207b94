(** The palette and the window settings after a history of calls. *)
From Coq Require Import ZArith List Bool Lia ZifyBool ZifyNat.
From Verif Require Import Bytes UnitModel RecModel SheetModel XfModel WbModel XfInv ApiModel ApiInv SpecBiff SpecApi SpecSaved SpecSheet ApiEff.
Import ListNotations.
Local Open Scope Z_scope.

(** What most calls leave alone: palette and window settings. *)
Definition frame_part (w : wb) := (wb_palette w, wb_w1 w).
Lemma sheet_part w k f w' : (forall s w1 s1, f s = Ok (w1, s1) -> frame_part w1 = frame_part w) -> on_sheet w k f = Ok w' -> frame_part w' = frame_part w.
Proof.
  intros F H. apply on_sheet_inv in H. destruct H as (s & w1 & s1 & E & H & ->). exact (F _ _ _ H).
Qed.
Lemma pure_part w k f w' : pure_sheet w k f = Ok w' -> frame_part w' = frame_part w.
Proof. intros H. eapply sheet_part; [|exact H]. cbn. intros s w1 s1 K. apply ok_pair in K. destruct K as [<- _]. reflexivity. Qed.
Lemma cell_part w k r c v p w' : api_cell w k r c v p = Ok w' -> frame_part w' = frame_part w.
Proof.
  intro H. eapply sheet_part; [|exact H]. cbn beta. intros s w1 s1 K. destruct (negb _); [discriminate|].
  apply bind_ok in K. destruct K as ([old s2] & _ & K). apply ok_pair in K. destruct K as [<- _].
  assert (A : forall v w, frame_part (sst_add w v) = frame_part w) by (intros [] ?; cbn [sst_add]; try reflexivity; destruct (in_sst _); reflexivity).
  assert (B : forall x w, frame_part (cell_delete w x) = frame_part w).
  { intros x w0. unfold cell_delete. destruct (c_val x); try reflexivity. destruct (in_sst s0); reflexivity. }
  destruct old as [x|]; [rewrite B|]; rewrite A; reflexivity.
Qed.
Lemma cellop_part w k r c o w' : api_cellop w k r c o = Ok w' -> frame_part w' = frame_part w.
Proof.
  intro H. eapply sheet_part; [|exact H]. cbn beta. intros s w1 s1 K. destruct (find_cell _ _ _); [|discriminate].
  apply bind_ok in K. destruct K as ([fs q] & _ & K). apply ok_pair in K. destruct K as [<- _]. reflexivity.
Qed.
Lemma range_part w k r1 c1 r2 c2 o w' : api_range w k r1 c1 r2 c2 o = Ok w' -> frame_part w' = frame_part w.
Proof.
  intro H. apply range_inv in H. destruct H as (_ & _ & H). revert w H. induction (block_of r1 c1 r2 c2) as [|p l IH]; intros w H; cbn [fold_res] in H.
  - apply ok_inj in H. subst. reflexivity.
  - apply bind_ok in H. destruct H as (w1 & H1 & H2). rewrite (IH _ H2). unfold range_step in H1. apply bind_ok in H1. destruct H1 as (w0 & Hb & Ho).
    rewrite (cellop_part _ _ _ _ _ _ Ho). unfold find_or_blank in Hb. destruct (nth_error _ _); [|discriminate].
    destruct (find_cell _ _ _); [apply ok_inj in Hb; subst; reflexivity|]. eapply cell_part; exact Hb.
Qed.
Definition frame_call (q : call) : bool :=
  match q with KSetColor _ _ _ _ | KActive _ | KWindPos _ _ | KWindSize _ _ | KFirstTab _ | KTabBar _ => true | _ => false end.
Lemma call_part w q w' : frame_call q = false -> api_call w q = Ok w' -> frame_part w' = frame_part w.
Proof.
  intro N. destruct q; try discriminate N; cbn [api_call].
 all: intro H.
 all: try (match type of H with pure_sheet _ _ _ = _ => eapply pure_part; exact H end).
 all: try (match type of H with Ok _ = _ => apply ok_inj in H; rewrite <- H; unfold frame_part; cbn [up_fs up_bs api_sheet up_sheets wb_palette wb_w1]; reflexivity end).
  - eapply cell_part; exact H.
  - unfold api_note in H. apply bind_ok in H. destruct H as (w1 & H1 & H2). apply sheet_part in H1.
    + destruct (nth_error (wb_sheets w) k); [|discriminate]. destruct (nth_error (wb_bs w) _); [|discriminate]. apply ok_inj in H2. rewrite <- H2. exact H1.
    + intros s0 w2 s1 K. apply ok_pair in K. destruct K as [<- _]. reflexivity.
  - eapply cellop_part; exact H.
  - eapply range_part; exact H.
  - eapply sheet_part; [|exact H]. cbn. intros s w1 s1. destruct (negb _); [discriminate|]. intro K. apply ok_pair in K. destruct K as [<- _]. reflexivity.
  - eapply sheet_part; [|exact H]. cbn. intros s w1 s1. destruct (negb _); [discriminate|]. intro K. apply ok_pair in K. destruct K as [<- _]. reflexivity.
  - destruct (nth_error (wb_sheets w) k); [|discriminate]. destruct (find_cell _ _ _); [|discriminate]. eapply pure_part; exact H.
  - apply bind_ok in H. destruct H as ([fs x] & _ & H). apply ok_inj in H. rewrite <- H. reflexivity.
  - apply bind_ok in H. destruct H as ([fs x] & _ & H). apply ok_inj in H. rewrite <- H. reflexivity.
  - apply bind_ok in H. destruct H as (fs & _ & H). apply ok_inj in H. rewrite <- H. reflexivity.
  - apply bind_ok in H. destruct H as (fs & _ & H). apply ok_inj in H. rewrite <- H. reflexivity.
Qed.

Lemma palette_tracked calls : forall w, document calls = Ok w ->
  length (wb_palette w) = 56%nat /\ forall i, 8 <= i <= 63 -> nth_error (wb_palette w) (Z.to_nat (i - 8)) = Some (colour_at calls i).
Proof.
  induction calls as [|q calls IH] using rev_ind; intros w H.
  - apply document_nil in H. destruct (wb_new_sheets _ H) as (_ & _ & ->). split; [reflexivity|]. intros i Hi. unfold colour_at. cbn [colour_of fold_left].
    apply nth_error_nth'. assert (Z.to_nat (i - 8) < 56)%nat by lia. exact H0.
  - destruct (document_snoc _ _ _ H) as (w0 & D & C). destruct (IH w0 D) as [Ln At]. destruct (frame_call q) eqn:Eq.
    + destruct q; try discriminate Eq; cbn [api_call] in C.
      * destruct (nth_error _ _); [|discriminate]. apply ok_inj in C. rewrite <- C. split; [exact Ln|]. intros i Hi. unfold colour_at, colour_of. rewrite fold_left_app. exact (At i Hi).
      * apply ok_inj in C. rewrite <- C. unfold api_setcolor, colors_set. unfold colour_at, colour_of in *. setoid_rewrite fold_left_app. cbn [fold_left colour_step].
        unfold inside. destruct ((idx <? 8) || (64 <=? idx))%bool eqn:E.
        -- split; [exact Ln|]. intros i Hi. replace ((idx =? i) && ((8 <=? idx) && (idx <=? 63)))%bool with false by lia. exact (At i Hi).
        -- cbn [up_pal wb_palette]. split; [rewrite upd_len; exact Ln|]. intros i Hi. rewrite nth_upd.
           destruct (idx =? i) eqn:Ei; cbn [andb].
           ++ replace ((8 <=? idx) && (idx <=? 63))%bool with true by lia. replace (Nat.eqb (Z.to_nat (i - 8)) (Z.to_nat (idx - 8))) with true by lia.
              assert (idx = i) as -> by lia. rewrite (At i Hi). reflexivity.
           ++ replace (Nat.eqb (Z.to_nat (i - 8)) (Z.to_nat (idx - 8))) with false by lia. exact (At i Hi).
      * apply ok_inj in C. rewrite <- C. split; [exact Ln|]. intros i Hi. unfold colour_at, colour_of. rewrite fold_left_app. exact (At i Hi).
      * apply ok_inj in C. rewrite <- C. split; [exact Ln|]. intros i Hi. unfold colour_at, colour_of. rewrite fold_left_app. exact (At i Hi).
      * apply ok_inj in C. rewrite <- C. split; [exact Ln|]. intros i Hi. unfold colour_at, colour_of. rewrite fold_left_app. exact (At i Hi).
      * apply ok_inj in C. rewrite <- C. split; [exact Ln|]. intros i Hi. unfold colour_at, colour_of. rewrite fold_left_app. exact (At i Hi).
    + pose proof (call_part _ _ _ Eq C) as K. apply (f_equal fst) in K. cbn in K. rewrite K. split; [exact Ln|]. intros i Hi.
      unfold colour_at, colour_of. rewrite fold_left_app. cbn [fold_left]. destruct q; try discriminate Eq; exact (At i Hi).
Qed.

