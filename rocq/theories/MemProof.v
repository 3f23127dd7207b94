(** Proofs about the life of objects: counting, trees, deletion. *)
From Coq Require Import ZArith List Bool Arith Lia Permutation.
From Verif Require Import UnitModel SpecMem MemModel.
Import ListNotations.
Local Open Scope nat_scope.

(* ------------------------------------------------------------------ *)
(** * Counting *)

Definition one (q p : nat) : nat := if Nat.eqb q p then 1 else 0.
Fixpoint cnt (q : nat) (l : list nat) : nat := match l with [] => 0 | p :: t => one q p + cnt q t end.
Lemma one_le : forall q p, one q p <= 1. Proof. intros; unfold one; destruct (Nat.eqb q p); lia. Qed.
Lemma one_same : forall p, one p p = 1. Proof. intros; unfold one; rewrite Nat.eqb_refl; reflexivity. Qed.
Lemma one_ne : forall q p, q <> p -> one q p = 0. Proof. intros; unfold one; rewrite (proj2 (Nat.eqb_neq q p)) by assumption; reflexivity. Qed.
Lemma one_inv : forall q p, 1 <= one q p -> q = p. Proof. intros q p; unfold one; destruct (Nat.eqb_spec q p); [auto|lia]. Qed.
Lemma cnt_app : forall q a b, cnt q (a ++ b) = cnt q a + cnt q b.
Proof. induction a as [|p a IH]; intro b; cbn [app cnt]; [reflexivity|rewrite IH; lia]. Qed.
Lemma cnt_In : forall q l, In q l <-> 1 <= cnt q l.
Proof.
  induction l as [|p l IH]; cbn [In cnt].
  - lia.
  - split.
    + intros [->|H]; [rewrite one_same; lia|apply IH in H; lia].
    + intro H. destruct (Nat.eq_dec q p) as [->|N]; [auto|]. rewrite one_ne in H by exact N. right. apply IH. lia.
Qed.
Lemma cnt_perm : forall q a b, Permutation a b -> cnt q a = cnt q b.
Proof. intros q a b P; induction P; cbn [cnt]; lia. Qed.
Lemma cnt_nodup : forall l, (forall q, cnt q l <= 1) -> NoDup l.
Proof.
  induction l as [|p l IH]; intro H; constructor.
  - intro C. apply cnt_In in C. specialize (H p). cbn [cnt] in H. rewrite one_same in H. lia.
  - apply IH. intro q. specialize (H q). cbn [cnt] in H. lia.
Qed.
Lemma cnt_rev_flat : forall {A} (f : A -> list nat) l q, cnt q (flat_map f (rev l)) = cnt q (flat_map f l).
Proof. intros. apply cnt_perm. apply Permutation_flat_map. symmetry. apply Permutation_rev. Qed.
Lemma cnt_flat_in : forall {A} (f : A -> list nat) l a q, In a l -> cnt q (f a) <= cnt q (flat_map f l).
Proof.
  induction l as [|b l IH]; intros a q H; [destruct H|]. cbn [flat_map]. rewrite cnt_app. destruct H as [->|H]; [lia|]. specialize (IH a q H). lia.
Qed.

(* ------------------------------------------------------------------ *)
(** * The heap *)

Definition hv (h : heap) : Prop := (forall q, cnt q (h_live h) <= 1) /\ forall q, h_next h <= q -> cnt q (h_live h) = 0.
Definition removes (h : heap) (l : list nat) (h' : heap) : Prop :=
  hv h' /\ h_next h' = h_next h /\ forall q, cnt q (h_live h') + cnt q l = cnt q (h_live h).

Lemma h_has_cnt : forall h p, h_has h p = true <-> 1 <= cnt p (h_live h).
Proof.
  intros. rewrite <- cnt_In. unfold h_has. rewrite existsb_exists. split.
  - intros [x [I E]]. apply Nat.eqb_eq in E. subst. exact I.
  - intro I. exists p. split; [exact I|apply Nat.eqb_refl].
Qed.
Lemma h_use_ok : forall h p, 1 <= cnt p (h_live h) -> h_use h p = Ok tt.
Proof. intros. unfold h_use. rewrite (proj2 (h_has_cnt h p)) by assumption. reflexivity. Qed.
Lemma h_uses_ok : forall h l, (forall q, In q l -> 1 <= cnt q (h_live h)) -> h_uses h l = Ok tt.
Proof.
  induction l as [|p l IH]; intro H; cbn [h_uses]; [reflexivity|].
  rewrite h_use_ok by (apply H; left; reflexivity). cbn [bind]. apply IH. intros; apply H; right; assumption.
Qed.
Lemma cnt_remove : forall p q l, cnt q (remove Nat.eq_dec p l) = if Nat.eqb q p then 0 else cnt q l.
Proof.
  induction l as [|x l IH]; cbn [remove cnt]; [destruct (Nat.eqb q p); reflexivity|].
  destruct (Nat.eq_dec p x) as [->|N].
  - rewrite IH. destruct (Nat.eqb_spec q x) as [->|M]; [reflexivity|]. rewrite one_ne by exact M. reflexivity.
  - cbn [cnt]. rewrite IH. destruct (Nat.eqb_spec q p) as [->|M]; [rewrite one_ne by congruence; reflexivity|reflexivity].
Qed.
Lemma h_del_ok : forall h p, hv h -> 1 <= cnt p (h_live h) -> exists h', h_del h p = Ok h' /\ removes h [p] h'.
Proof.
  intros h p [V1 V2] L. unfold h_del. rewrite (proj2 (h_has_cnt h p)) by assumption. eexists; split; [reflexivity|].
  unfold removes, hv. cbn [h_live h_next]. repeat split.
  - intro q. rewrite cnt_remove. destruct (Nat.eqb q p); [lia|apply V1].
  - intros q H. rewrite cnt_remove. destruct (Nat.eqb q p); [lia|apply V2; exact H].
  - intro q. rewrite cnt_remove. cbn [cnt]. destruct (Nat.eqb_spec q p) as [->|N].
    + rewrite one_same. specialize (V1 p). lia.
    + rewrite one_ne by exact N. lia.
Qed.
Lemma removes_nil : forall h, hv h -> removes h [] h.
Proof. intros. split; [assumption|]. split; [reflexivity|]. intro; cbn [cnt]; lia. Qed.
Lemma removes_app : forall h a h1 b h2, removes h a h1 -> removes h1 b h2 -> removes h (a ++ b) h2.
Proof.
  intros h a h1 b h2 [V1 [N1 C1]] [V2 [N2 C2]]. split; [exact V2|]. split; [congruence|].
  intro q. rewrite cnt_app. specialize (C1 q); specialize (C2 q). lia.
Qed.
Lemma removes_cnt : forall h a b h1, (forall q, cnt q a = cnt q b) -> removes h a h1 -> removes h b h1.
Proof. intros h a b h1 E [V [N C]]. split; [exact V|]. split; [exact N|]. intro q. rewrite <- E. apply C. Qed.
Lemma h_dels_ok : forall l h, hv h -> (forall q, cnt q l <= cnt q (h_live h)) -> exists h', h_dels h l = Ok h' /\ removes h l h'.
Proof.
  induction l as [|p l IH]; intros h V L; cbn [h_dels].
  - exists h. split; [reflexivity|apply removes_nil; exact V].
  - destruct (h_del_ok h p V) as [h1 [E1 R1]]; [specialize (L p); cbn [cnt] in L; rewrite one_same in L; lia|].
    rewrite E1. cbn [bind]. destruct (IH h1) as [h2 [E2 R2]].
    + apply R1.
    + intro q. destruct R1 as [_ [_ C]]. specialize (C q). specialize (L q). cbn [cnt] in *. lia.
    + exists h2. split; [exact E2|]. exact (removes_app h [p] h1 l h2 R1 R2).
Qed.
Lemma h_new_ok : forall h p h', hv h -> h_new h = (p, h') -> p = h_next h /\ hv h' /\ h_next h' = S (h_next h) /\ forall q, cnt q (h_live h') = one q p + cnt q (h_live h).
Proof.
  intros h p h' [V1 V2] E. unfold h_new in E. injection E as <- <-. cbn [h_next h_live]. repeat split; cbn [cnt h_live h_next].
  - intro q. destruct (Nat.eq_dec q (h_next h)) as [->|N]; [rewrite one_same, V2 by lia; lia|rewrite one_ne by exact N; rewrite Nat.add_0_l; apply V1].
  - intros q H. rewrite one_ne by lia. rewrite V2 by lia. reflexivity.
Qed.
Lemma h_news_ok : forall n h ps h', hv h -> h_news n h = (ps, h') -> hv h' /\ h_next h <= h_next h' /\ (forall q, cnt q (h_live h') = cnt q ps + cnt q (h_live h)).
Proof.
  induction n as [|n IH]; intros h ps h' V E; cbn [h_news] in E.
  - injection E as <- <-. split; [exact V|]. split; [lia|]. intro; reflexivity.
  - destruct (h_new h) as [p h1] eqn:E1. destruct (h_news n h1) as [qs h2] eqn:E2. injection E as <- <-.
    destruct (h_new_ok h p h1 V E1) as [_ [V1 [N1 C1]]]. destruct (IH h1 qs h2 V1 E2) as [V2 [N2 C2]].
    split; [exact V2|]. split; [lia|]. intro q. rewrite C2, C1. cbn [cnt]. lia.
Qed.

(* ------------------------------------------------------------------ *)
(** * Trees *)

Inductive rose := Node (p : nat) (ts : list rose).
Definition rootof (t : rose) : nat := match t with Node p _ => p end.
Fixpoint labels (t : rose) : list nat := match t with Node p ts => p :: flat_map labels ts end.
Lemma rose_ind' : forall P : rose -> Prop, (forall p ts, Forall P ts -> P (Node p ts)) -> forall t, P t.
Proof.
  intros P H. fix IH 1. intros [p ts]. apply H. induction ts as [|t ts IHts]; constructor; [apply IH|exact IHts].
Qed.
Inductive fitting (R : nat -> list nat -> Prop) : rose -> Prop :=
| fitting_node p ts : R p (map rootof ts) -> Forall (fitting R) ts -> fitting R (Node p ts).
Definition agree (nodes : list (nat * list nat)) : rose -> Prop := fitting (fun p ks => kids_of nodes p = Some ks).
Definition agreeG (h : story) : rose -> Prop := fitting (fun p ks => forall k, gave h p k <-> In k ks).

Lemma root_label : forall t, In (rootof t) (labels t).
Proof. intros [p ts]. left; reflexivity. Qed.
Lemma fitting_mono : forall (R R' : nat -> list nat -> Prop) t, (forall p ks, In p (labels t) -> R p ks -> R' p ks) -> fitting R t -> fitting R' t.
Proof.
  intros R R'. induction t as [p ts IH] using rose_ind'. intros H F. inversion F as [? ? F1 F2]; subst. constructor.
  - apply H; [left; reflexivity|exact F1].
  - cbn [labels] in H. clear F F1. induction ts as [|t ts IHts]; constructor; inversion IH as [|? ? J1 J2]; inversion F2 as [|? ? K1 K2]; subst.
    + apply J1; [|assumption]. intros q ks I. apply H. right. cbn [flat_map]. apply in_or_app; left; exact I.
    + apply IHts; try assumption. intros q ks I. apply H. destruct I as [<-|I]; [left; reflexivity|].
      right. cbn [flat_map]. apply in_or_app; right; exact I.
Qed.

Section Destroy.
Variable nodes : list (nat * list nat).

Lemma destroy_list : forall n ts h,
  Forall (fun t => forall h, hv h -> agree nodes t -> (forall q, cnt q (labels t) <= cnt q (h_live h)) -> length (labels t) <= n ->
            exists h', destroy_tree n nodes h (rootof t) = Ok h' /\ removes h (labels t) h') ts ->
  hv h -> Forall (agree nodes) ts -> (forall q, cnt q (flat_map labels ts) <= cnt q (h_live h)) -> length (flat_map labels ts) <= n ->
  exists h', fold_left (fun r k => let* g := r in destroy_tree n nodes g k) (map rootof ts) (Ok h) = Ok h' /\ removes h (flat_map labels ts) h'.
Proof.
  intro n. induction ts as [|t ts IHts]; intros h IH V A C L.
  - exists h. split; [reflexivity|apply removes_nil; exact V].
  - inversion IH as [|? ? I1 I2]; subst. inversion A as [|? ? A1 A2]; subst. cbn [flat_map] in *. rewrite app_length in L.
    destruct (I1 h V A1) as [h1 [E1 R1]]; [intro q; specialize (C q); rewrite cnt_app in C; lia|lia|].
    cbn [map fold_left]. cbn [bind]. rewrite E1.
    destruct (IHts h1 I2) as [h2 [E2 R2]]; [apply R1|exact A2| |lia|].
    + intro q. destruct R1 as [_ [_ C1]]. specialize (C1 q). specialize (C q). rewrite cnt_app in C. lia.
    + exists h2. split; [exact E2|]. exact (removes_app _ _ _ _ _ R1 R2).
Qed.

Lemma destroy_ok : forall t n h, hv h -> agree nodes t -> (forall q, cnt q (labels t) <= cnt q (h_live h)) -> length (labels t) <= n ->
  exists h', destroy_tree n nodes h (rootof t) = Ok h' /\ removes h (labels t) h'.
Proof.
  induction t as [p ts IH] using rose_ind'. intros n h V A C L.
  destruct n as [|n]; [cbn [labels length] in L; lia|]. inversion A as [? ? A1 A2]; subst.
  cbn [destroy_tree rootof]. rewrite h_use_ok by (specialize (C p); cbn [labels cnt] in C; rewrite one_same in C; lia).
  cbn [bind]. rewrite A1. rewrite <- map_rev.
  destruct (destroy_list n (rev ts) h) as [h1 [E1 R1]].
  - apply Forall_rev. rewrite Forall_forall in *. intros t I h0 V0 A0 C0 L0. apply (IH t I n h0 V0 A0 C0 L0).
  - exact V.
  - apply Forall_rev; exact A2.
  - intro q. rewrite cnt_rev_flat. specialize (C q). cbn [labels cnt] in C. lia.
  - cbn [labels length] in L. rewrite (Permutation_length (l' := flat_map labels ts)); [lia|]. apply Permutation_flat_map. symmetry; apply Permutation_rev.
  - rewrite E1. cbn [bind]. assert (R2 := R1). destruct R2 as [V1 [N1 C1]].
    destruct (h_del_ok h1 p V1) as [h2 [E2 R2]].
    + specialize (C p). specialize (C1 p). rewrite cnt_rev_flat in C1. cbn [labels cnt] in C. rewrite one_same in C. lia.
    + exists h2. split; [exact E2|]. apply (removes_cnt _ (flat_map labels (rev ts) ++ [p])); [|exact (removes_app _ _ _ _ _ R1 R2)].
      intro q. rewrite cnt_app, cnt_rev_flat. cbn [labels cnt]. lia.
Qed.

Lemma visit_ok : forall t n h, agree nodes t -> (forall q, In q (labels t) -> 1 <= cnt q (h_live h)) -> length (labels t) <= n ->
  visit_tree n nodes h (rootof t) = Ok tt.
Proof.
  induction t as [p ts IH] using rose_ind'. intros n h A C L.
  destruct n as [|n]; [cbn [labels length] in L; lia|]. inversion A as [? ? A1 A2]; subst.
  cbn [visit_tree rootof]. rewrite h_use_ok by (apply C; left; reflexivity). cbn [bind]. rewrite A1.
  cbn [labels length] in L.
  assert (H : forall us, incl us ts -> length (flat_map labels us) <= n -> fold_left (fun r k => let* _ := r in visit_tree n nodes h k) (map rootof us) (Ok tt) = Ok tt).
  { induction us as [|u us IHus]; intros I Lu; [reflexivity|]. cbn [map fold_left bind flat_map] in *. rewrite app_length in Lu.
    rewrite Forall_forall in IH, A2. rewrite (IH u).
    - apply IHus; [|lia]. intros x Hx; apply I; right; exact Hx.
    - apply I; left; reflexivity.
    - apply A2. apply I; left; reflexivity.
    - intros q Hq. apply C. right. apply in_flat_map. exists u. split; [apply I; left; reflexivity|exact Hq].
    - lia. }
  apply H; [apply incl_refl|lia].
Qed.

Lemma kids_of_in : forall p ks, kids_of nodes p = Some ks -> In p (map fst nodes).
Proof.
  induction nodes as [|[q kq] t IH]; intros p ks H; cbn [kids_of] in H; [discriminate|]. cbn [map fst]. destruct (Nat.eqb_spec q p) as [->|N]; [left; reflexivity|right; apply (IH p ks H)].
Qed.
Lemma agree_labels : forall t, agree nodes t -> incl (labels t) (map fst nodes).
Proof.
  induction t as [p ts IH] using rose_ind'. intros A q H. inversion A as [? ? A1 A2]; subst. destruct H as [<-|H].
  - exact (kids_of_in _ _ A1).
  - apply in_flat_map in H. destruct H as [t [I1 I2]]. rewrite Forall_forall in IH, A2. exact (IH t I1 (A2 t I1) q I2).
Qed.
Lemma agree_fuel : forall t, agree nodes t -> (forall q, cnt q (labels t) <= 1) -> length (labels t) <= S (length nodes).
Proof.
  intros t A C. assert (length (labels t) <= length (map fst nodes)); [|rewrite map_length in *; lia].
  apply NoDup_incl_length; [apply cnt_nodup; exact C|apply agree_labels; exact A].
Qed.
End Destroy.
