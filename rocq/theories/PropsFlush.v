(** C49: the record objects of a save.  For every workbook (any sequence of records with one
    BOUNDSHEET for each sheet in the globals and none in the sheets, any number of continuing
    records) no record object is used after it was deleted, each is deleted exactly once, and
    the objects kept are those that may still be written to. *)
From Coq Require Import ZArith List Bool Arith Lia.
From Verif Require Import UnitModel MemModel MemProof FlushModel.
Import ListNotations.
Local Open Scope nat_scope.
#[local] Arguments one : simpl never.

Definition ptrs (us : list (nat * Z)) : list nat := map fst us.
Definition posok (s : rstore) : Prop := rs_pos s < length (rs_stack s) \/ rs_pos s = 0.
(** [c] counts the objects that are not records of this save. *)
Record rinv (c : nat -> nat) (s : rstore) : Prop := {
  ri_hv : hv (rs_heap s);
  ri_cnt : forall q, cnt q (h_live (rs_heap s)) = c q + cnt q (ptrs (rs_stack s));
  ri_lev : Forall (fun e => 0 <= snd e <= 3)%Z (rs_stack s);
  ri_pos : posok s }.

Lemma ptrs_app : forall a b, ptrs (a ++ b) = ptrs a ++ ptrs b.
Proof. intros. apply map_app. Qed.
Lemma ptrs_in : forall us p k, In (p, k) us -> 1 <= cnt p (ptrs us).
Proof. intros us p k J. apply cnt_In. apply in_map_iff. exists (p, k). auto. Qed.

Lemma sweep_ok : forall l us h, hv h -> Forall (fun e => 0 <= snd e <= 3)%Z us -> (forall q, cnt q (ptrs us) <= cnt q (h_live h)) ->
  exists h' r, sweep l h us = Ok (h', r) /\ hv h' /\ h_next h' = h_next h /\ r = filter (fun e => negb (snd e <=? l)%Z) us
    /\ forall q, cnt q (h_live h') + cnt q (ptrs us) = cnt q (h_live h) + cnt q (ptrs r).
Proof.
  intros l us. induction us as [|[p k] us IH]; intros h V F C; cbn [sweep].
  - exists h, []. split; [reflexivity|]. split; [exact V|]. split; [reflexivity|]. split; [reflexivity|]. intro q; reflexivity.
  - apply Forall_cons_iff in F. destruct F as [F1 F2]. cbn [snd] in F1. assert (LP : 1 <= cnt p (h_live h)) by (specialize (C p); cbn [ptrs map fst cnt] in C; rewrite one_same in C; lia).
    rewrite h_use_ok by exact LP. cbn [bind filter snd]. destruct (Z.leb_spec k l) as [K|K]; cbn [negb].
    + destruct (h_del_ok h p V LP) as (h1 & E1 & V1 & N1 & C1). rewrite E1. cbn [bind]. destruct (IH h1 V1 F2) as (h2 & r & E2 & V2 & N2 & -> & C2).
      { intro q. specialize (C1 q). specialize (C q). cbn [ptrs map fst cnt] in *. unfold ptrs in *. lia. }
      exists h2, (filter (fun e => negb (snd e <=? l)%Z) us). split; [exact E2|]. split; [exact V2|]. split; [congruence|]. split; [reflexivity|]. intro q. specialize (C1 q). specialize (C2 q). cbn [ptrs map fst cnt] in *. unfold ptrs in *. lia.
    + replace (k <=? 4)%Z with true by (symmetry; apply Z.leb_le; lia). cbn [xl_assert bind]. destruct (IH h V F2) as (h2 & r & E2 & V2 & N2 & -> & C2).
      { intro q. specialize (C q). cbn [ptrs map fst cnt] in *. unfold ptrs in *. lia. }
      rewrite E2. cbn [bind]. exists h2, ((p, k) :: filter (fun e => negb (snd e <=? l)%Z) us). split; [reflexivity|]. split; [exact V2|]. split; [exact N2|]. split; [reflexivity|]. intro q. specialize (C2 q). cbn [ptrs map fst cnt] in *. unfold ptrs in *. lia.
Qed.

Definition again (l : Z) (s : rstore) : bool := ((rs_level s =? l)%Z && negb (l =? everyone)%Z && negb (Nat.eqb (rs_pos s) (length (rs_stack s))))%bool.
Definition behind (l : Z) (s : rstore) : nat := if again l s then S (rs_pos s) else 0.
Lemma flush_ok : forall c l s, rinv c s -> exists s', flush l s = Ok s' /\ rinv c s' /\ h_next (rs_heap s') = h_next (rs_heap s)
  /\ rs_stack s' = firstn (behind l s) (rs_stack s) ++ filter (fun e => negb (snd e <=? l)%Z) (skipn (behind l s) (rs_stack s)) /\ rs_level s' = l /\ rs_pos s' = pred (length (rs_stack s')).
Proof.
  intros c l s [V C F P]. unfold flush. change ((rs_level s =? l)%Z && negb (l =? everyone)%Z && negb (Nat.eqb (rs_pos s) (length (rs_stack s))))%bool with (again l s).
  assert (A : (negb (again l s) || (rs_pos s <? length (rs_stack s)))%bool = true).
  { destruct (again l s) eqn:E; [|reflexivity]. cbn [negb orb]. apply Nat.ltb_lt. unfold again in E. apply andb_true_iff in E. destruct E as [_ E]. apply negb_true_iff, Nat.eqb_neq in E. destruct P as [P|P]; lia. }
  rewrite A. cbn [xl_assert bind]. change (if again l s then S (rs_pos s) else 0) with (behind l s).
  set (a := firstn (behind l s) (rs_stack s)). set (b := skipn (behind l s) (rs_stack s)). assert (AB : rs_stack s = a ++ b) by (symmetry; apply firstn_skipn).
  assert (FA := F). rewrite AB in FA. apply Forall_app in FA. destruct FA as [Fa Fb].
  destruct (sweep_ok l b (rs_heap s) V Fb) as (h' & r & E & V' & N' & -> & C').
  { intro q. rewrite C, AB, ptrs_app, cnt_app. lia. }
  rewrite E. cbn [bind]. eexists. split; [reflexivity|]. cbn [rs_heap rs_stack rs_level rs_pos]. split; [|split; [exact N'|split; [reflexivity|split; reflexivity]]].
  constructor; cbn [rs_heap rs_stack rs_level rs_pos].
  - exact V'.
  - intro q. specialize (C' q). specialize (C q). rewrite AB, ptrs_app, cnt_app in C. rewrite ptrs_app, cnt_app. lia.
  - apply Forall_app. split; [exact Fa|]. rewrite Forall_forall in Fb |- *. intros e J. apply filter_In in J. apply Fb, J.
  - unfold posok. cbn [rs_pos rs_stack]. destruct (a ++ filter (fun e => negb (snd e <=? l)%Z) b) as [|x y]; [right; reflexivity|left; cbn [length pred]; lia].
Qed.
Lemma in_skip : forall {A} n (l : list A) e, In e l -> In e (firstn n l) \/ In e (skipn n l).
Proof. intros A n l e J. rewrite <- (firstn_skipn n l) in J. apply in_app_or. exact J. Qed.
Lemma flush_keeps : forall l s s' e, rs_stack s' = firstn (behind l s) (rs_stack s) ++ filter (fun e => negb (snd e <=? l)%Z) (skipn (behind l s) (rs_stack s)) -> In e (rs_stack s) -> (l < snd e)%Z -> In e (rs_stack s').
Proof.
  intros l s s' e E J L. rewrite E. apply in_or_app. destruct (in_skip (behind l s) _ e J) as [K|K]; [left; exact K|right]. apply filter_In. split; [exact K|]. apply negb_true_iff, Z.leb_gt. exact L.
Qed.

Lemma make_ok : forall c l s p s', rinv c s -> (0 <= l <= 3)%Z -> make l s = (p, s') -> rinv c s' /\ p = h_next (rs_heap s) /\ h_next (rs_heap s') = S (h_next (rs_heap s)) /\ rs_stack s' = rs_stack s ++ [(p, l)] /\ rs_level s' = rs_level s /\ rs_pos s' = rs_pos s.
Proof.
  intros c l s p s' [V C F P] L E. unfold make in E. destruct (h_new (rs_heap s)) as [q h] eqn:H. injection E as <- <-. destruct (h_new_ok _ _ _ V H) as (A & B & D & K). cbn [rs_heap rs_stack rs_level rs_pos].
  split; [|auto]. constructor; cbn [rs_heap rs_stack rs_level rs_pos].
  - exact B.
  - intro x. rewrite K, C, ptrs_app, cnt_app. cbn [ptrs map fst cnt]. lia.
  - apply Forall_app. split; [exact F|constructor; [exact L|constructor]].
  - unfold posok in *. cbn [rs_pos rs_stack]. rewrite app_length. cbn [length]. destruct P as [P|P]; [left; lia|right; exact P].
Qed.
Lemma stack_use : forall c s p k, rinv c s -> In (p, k) (rs_stack s) -> h_use (rs_heap s) p = Ok tt.
Proof. intros c s p k I J. apply h_use_ok. rewrite (ri_cnt _ _ I). assert (X := ptrs_in _ _ _ J). lia. Qed.

(** A record settles: everything of at least its level stays. *)
Definition more (s s' : rstore) : Prop := h_next (rs_heap s) <= h_next (rs_heap s') /\ forall e, In e (rs_stack s') -> In e (rs_stack s) \/ h_next (rs_heap s) <= fst e.
Lemma more_refl : forall s, more s s. Proof. intro s. split; [lia|]. intros e J. left; exact J. Qed.
Lemma more_trans : forall a b c, more a b -> more b c -> more a c.
Proof. intros a b c [A1 A2] [B1 B2]. split; [lia|]. intros e J. destruct (B2 e J) as [J'|J']; [exact (A2 e J')|right; lia]. Qed.
Lemma make_more : forall c l s p s', rinv c s -> (0 <= l <= 3)%Z -> make l s = (p, s') -> more s s'.
Proof. intros c l s p s' I L M. destruct (make_ok c l s p s' I L M) as (_ & P & N & S' & _). split; [lia|]. intros e J. rewrite S' in J. apply in_app_or in J. destruct J as [J|[<-|[]]]; [left; exact J|right; cbn [fst]; lia]. Qed.
Lemma settle_ok : forall c p l s, rinv c s -> (0 <= l <= 3)%Z -> In (p, l) (rs_stack s) -> exists s', settle p l s = Ok s' /\ rinv c s' /\ more s s' /\ (forall e, In e (rs_stack s) -> (l <= snd e)%Z -> In e (rs_stack s')).
Proof.
  intros c p l s I L J. unfold settle. rewrite (stack_use c s p l I J). cbn [bind]. destruct (Z.ltb_spec 0 l) as [Z|Z].
  - destruct (flush_ok c (l - 1) s I) as (s' & E & I' & N' & S' & _). exists s'. split; [exact E|]. split; [exact I'|]. split; [|intros e K Le; apply (flush_keeps _ _ _ _ S' K); lia].
    split; [lia|]. intros e K. left. rewrite S' in K. apply in_app_or in K. rewrite <- (firstn_skipn (behind (l - 1) s) (rs_stack s)). apply in_or_app. destruct K as [K|K]; [left; exact K|right]. apply filter_In in K. apply K.
  - exists s. split; [reflexivity|]. split; [exact I|]. split; [apply more_refl|]. intros e K _; exact K.
Qed.
Lemma continues_ok : forall c p l n s, rinv c s -> (0 <= l <= 3)%Z -> In (p, l) (rs_stack s) -> exists s', continues n p l s = Ok s' /\ rinv c s' /\ more s s' /\ (forall e, In e (rs_stack s) -> (l <= snd e)%Z -> In e (rs_stack s')).
Proof.
  intros c p l. induction n as [|n IH]; intros s I L J; cbn [continues].
  - exists s. split; [reflexivity|]. split; [exact I|]. split; [apply more_refl|]. intros e K _; exact K.
  - rewrite (stack_use c s p l I J). cbn [bind]. destruct (make l s) as [q s1] eqn:M. destruct (make_ok c l s q s1 I L M) as (I1 & _ & N1 & S1 & _ & _). assert (MM := make_more c l s q s1 I L M).
    destruct (settle_ok c q l s1 I1 L) as (s2 & E2 & I2 & N2 & K2); [rewrite S1; apply in_or_app; right; left; reflexivity|]. rewrite E2. cbn [bind].
    assert (KK : forall e, In e (rs_stack s) -> (l <= snd e)%Z -> In e (rs_stack s2)) by (intros e K Le; apply K2; [rewrite S1; apply in_or_app; left; exact K|exact Le]).
    destruct (IH s2 I2 L) as (s3 & E3 & I3 & N3 & K3); [apply KK; [exact J|cbn [snd]; lia]|]. exists s3. split; [exact E3|]. split; [exact I3|]. split; [exact (more_trans _ _ _ MM (more_trans _ _ _ N2 N3))|]. intros e K Le. apply K3; [apply KK; assumption|exact Le].
Qed.

(** The saving: BOUNDSHEET records made so far are there. *)
Definition vinv (c : nat -> nat) (v : saving) : Prop := rinv c (sv_store v) /\ forall i, i < sv_next v -> exists p, sv_bound v i = Some p /\ In (p, 3%Z) (rs_stack (sv_store v)).
Lemma level_range : forall k, (0 <= level k <= 3)%Z. Proof. destruct k; cbn [level]; lia. Qed.
Definition bounds_of (k : rkind) : nat := match k with RBound => 1 | _ => 0 end.
Lemma smake_raw : forall c v k n, rinv c (sv_store v) -> exists p s, do_step v (SMake k n) = Ok (match k with RBound => mkSv s (fun i => if Nat.eqb i (sv_next v) then Some p else sv_bound v i) (S (sv_next v)) | _ => mkSv s (sv_bound v) (sv_next v) end)
  /\ rinv c s /\ more (sv_store v) s /\ In (p, level k) (rs_stack s) /\ (forall e, In e (rs_stack (sv_store v)) -> (level k <= snd e)%Z -> In e (rs_stack s)).
Proof.
  intros c v k n I. cbn [do_step]. destruct (make (level k) (sv_store v)) as [p s1] eqn:M. destruct (make_ok c _ _ _ _ I (level_range k) M) as (I1 & _ & N1 & S1 & _ & _). assert (MM := make_more c _ _ _ _ I (level_range k) M).
  assert (CL : match n with O => Ok tt | S _ => match rev (rs_stack s1) with (q, _) :: _ => xl_assert (Nat.eqb q p) | [] => UB end end = Ok tt).
  { destruct n; [reflexivity|]. rewrite S1, rev_app_distr. cbn [rev app]. rewrite Nat.eqb_refl. reflexivity. }
  rewrite CL. cbn [bind]. assert (J1 : In (p, level k) (rs_stack s1)) by (rewrite S1; apply in_or_app; right; left; reflexivity).
  destruct (settle_ok c p _ s1 I1 (level_range k) J1) as (s2 & E2 & I2 & N2 & K2). rewrite E2. cbn [bind].
  assert (J2 : In (p, level k) (rs_stack s2)) by (apply K2; [exact J1|cbn [snd]; lia]).
  destruct (continues_ok c p _ n s2 I2 (level_range k) J2) as (s3 & E3 & I3 & N3 & K3). rewrite E3. cbn [bind].
  exists p, s3. split; [reflexivity|]. split; [exact I3|]. split; [exact (more_trans _ _ _ MM (more_trans _ _ _ N2 N3))|]. split; [apply K3; [exact J2|cbn [snd]; lia]|].
  intros e J Le. apply K3; [apply K2; [rewrite S1; apply in_or_app; left; exact J|exact Le]|exact Le].
Qed.
Lemma smake_ok : forall c v k n, vinv c v -> exists v', do_step v (SMake k n) = Ok v' /\ vinv c v' /\ sv_next v' = bounds_of k + sv_next v.
Proof.
  intros c v k n [I B]. destruct (smake_raw c v k n I) as (p & s & E & I' & _ & J & K). rewrite E. eexists. split; [reflexivity|]. assert (LR := level_range k).
  split; [|destruct k; reflexivity]. split; [destruct k; exact I'|]. intros i Hi.
  assert (OLD : i < sv_next v -> exists q, sv_bound v i = Some q /\ In (q, 3%Z) (rs_stack s)) by (intro L; destruct (B i L) as (q & Q1 & Q2); exists q; split; [exact Q1|apply K; [exact Q2|cbn [snd]; lia]]).
  destruct k; cbn [sv_bound sv_next sv_store] in *; try exact (OLD Hi).
  destruct (Nat.eqb_spec i (sv_next v)) as [->|D]; [exists p; split; [reflexivity|exact J]|apply OLD; lia].
Qed.
Lemma smakes_ok : forall c rs v, vinv c v -> exists v', do_steps v (map (fun r => SMake (fst r) (snd r)) rs) = Ok v' /\ vinv c v' /\ sv_next v' = list_sum (map (fun r => bounds_of (fst r)) rs) + sv_next v.
Proof.
  intros c. induction rs as [|[k n] rs IH]; intros v I; cbn [map do_steps fst snd].
  - exists v. split; [reflexivity|]. split; [exact I|reflexivity].
  - destruct (smake_ok c v k n I) as (v1 & E1 & I1 & N1). rewrite E1. cbn [bind]. destruct (IH v1 I1) as (v2 & E2 & I2 & N2). exists v2. split; [exact E2|]. split; [exact I2|]. rewrite N2, N1. unfold list_sum. cbn [fold_right]. lia.
Qed.
Lemma do_steps_app : forall a b v, do_steps v (a ++ b) = let* w := do_steps v a in do_steps w b.
Proof. induction a as [|e a IH]; intros b v; [reflexivity|]. cbn [app do_steps]. destruct (do_step v e) as [w| |]; cbn [bind]; [apply IH|reflexivity|reflexivity]. Qed.
Lemma spatch_ok : forall c v i, vinv c v -> i < sv_next v -> do_step v (SPatch i) = Ok v.
Proof. intros c v i [I B] Hi. cbn [do_step]. destruct (B i Hi) as (p & -> & J). rewrite (stack_use c _ p _ I J). reflexivity. Qed.
Lemma sheets_ok : forall c ss i v, vinv c v -> i + length ss <= sv_next v -> exists v', do_steps v (plan_sheets i ss) = Ok v' /\ vinv c v'.
Proof.
  intros c. induction ss as [|s ss IH]; intros i v I L; cbn [plan_sheets]; [exists v; split; [reflexivity|exact I]|]. cbn [length] in L.
  rewrite do_steps_app. destruct (smakes_ok c s v I) as (v1 & E1 & I1 & N1). rewrite E1. cbn [bind do_steps]. rewrite (spatch_ok c v1 i I1) by lia. cbn [bind]. apply IH; [exact I1|lia].
Qed.
Lemma close_ok : forall c s, rinv c s -> exists h, close s = Ok h /\ hv h /\ h_next h = h_next (rs_heap s) /\ forall q, cnt q (h_live h) = c q.
Proof.
  intros c s I. unfold close. destruct (flush_ok c everyone s I) as (s' & E & I' & N' & S' & _). rewrite E. cbn [bind]. exists (rs_heap s'). split; [reflexivity|]. split; [exact (ri_hv _ _ I')|]. split; [exact N'|].
  assert (B0 : behind everyone s = 0) by (unfold behind, again; change (everyone =? everyone)%Z with true; cbn [negb]; rewrite andb_false_r; reflexivity).
  rewrite B0 in S'. cbn [firstn skipn app] in S'. intro q. rewrite (ri_cnt _ _ I'), S'. replace (filter _ (rs_stack s)) with (@nil (nat * Z)); [cbn [ptrs map cnt]; lia|].
  assert (F := ri_lev _ _ I). clear -F. induction (rs_stack s) as [|e l IH]; [reflexivity|]. apply Forall_cons_iff in F. destruct F as [F1 F2]. cbn [filter]. replace (snd e <=? everyone)%Z with true by (symmetry; apply Z.leb_le; unfold everyone; lia). cbn [negb]. exact (IH F2).
Qed.
Lemma begin_ok : forall h old, hv h -> vinv (fun q => cnt q (h_live h)) (begin_save h old).
Proof. intros h old V. split; [|intros i Hi; cbn in Hi; lia]. constructor; cbn; [exact V|intro q; lia|constructor|right; reflexivity]. Qed.

(* ------------------------------------------------------------------ *)
(** * A save *)

(** The globals of a workbook with [n] sheets: one BOUNDSHEET for each. *)
Definition one_bound_each (globals : list (rkind * nat)) (n : nat) : Prop := length (filter (fun r => match fst r with RBound => true | _ => false end) globals) = n.
Lemma bound_sum : forall g, list_sum (map (fun r => bounds_of (fst r)) g) = length (filter (fun r : rkind * nat => match fst r with RBound => true | _ => false end) g).
Proof. unfold list_sum. induction g as [|[k n] g IH]; [reflexivity|]. cbn [map fold_right filter fst]. destruct k; cbn [bounds_of length]; rewrite IH; reflexivity. Qed.
(** The objects of the program before the save: [hv] says that each is there once and that
    numbers to come are unused. *)
Theorem C49_save_deletes_each_record_once : forall h old globals sheets, hv h -> one_bound_each globals (length sheets) ->
  exists h', save_records h old globals sheets = Ok h' /\ forall p, In p (h_live h') <-> In p (h_live h).
Proof.
  intros h old g ss V O. unfold save_records, plan. rewrite do_steps_app. destruct (smakes_ok _ g _ (begin_ok h old V)) as (v1 & E1 & I1 & N1). rewrite E1. cbn [bind]. unfold one_bound_each in O. rewrite bound_sum, O in N1. cbn in N1.
  destruct (sheets_ok _ ss 0 v1 I1) as (v2 & E2 & I2); [lia|]. rewrite E2. cbn [bind]. destruct (close_ok _ _ (proj1 I2)) as (h' & E' & _ & _ & C'). exists h'. split; [exact E'|]. intro p. rewrite !cnt_In, C'. reflexivity.
Qed.

(** Whatever happens after any number of steps: if an exception then leaves the save outside a
    record's constructor, no record is left and none is deleted twice. *)
Lemma prefix_ok : forall c es v, vinv c v -> forall e1 e2, es = e1 ++ e2 -> forall v', do_steps v es = Ok v' -> exists v1, do_steps v e1 = Ok v1 /\ vinv c v1.
Proof.
  intros c es v I e1. revert es v I. induction e1 as [|e e1 IH]; intros es v I e2 -> v' E; [exists v; split; [reflexivity|exact I]|]. cbn [app do_steps] in *.
  destruct (do_step v e) as [w| |] eqn:D; cbn [bind] in *; try discriminate E. assert (IW : vinv c w).
  { destruct e as [k n|i]; [destruct (smake_ok c v k n I) as (w' & D' & I' & _); rewrite D in D'; injection D' as <-; exact I'|]. cbn [do_step] in D. destruct (sv_bound v i); [|discriminate D]. destruct (h_use _ _); cbn [bind] in D; [injection D as <-; exact I|discriminate D|discriminate D]. }
  exact (IH (e1 ++ e2) w IW e2 eq_refl v' E).
Qed.
Lemma plan_runs : forall h old g ss, hv h -> one_bound_each g (length ss) -> exists v, do_steps (begin_save h old) (plan g ss) = Ok v.
Proof.
  intros h old g ss V O. destruct (C49_save_deletes_each_record_once h old g ss V O) as (h' & E & _). unfold save_records in E. destruct (do_steps (begin_save h old) (plan g ss)) as [v| |]; [exists v; reflexivity|discriminate E|discriminate E].
Qed.
Theorem C49_exception_between_records : forall h old globals sheets done rest, hv h -> one_bound_each globals (length sheets) -> plan globals sheets = done ++ rest ->
  exists v h', do_steps (begin_save h old) done = Ok v /\ close (sv_store v) = Ok h' /\ forall p, In p (h_live h') <-> In p (h_live h).
Proof.
  intros h old g ss d r V O P. destruct (plan_runs h old g ss V O) as (w & E). destruct (prefix_ok _ _ _ (begin_ok h old V) d r P w E) as (v & Ev & I). destruct (close_ok _ _ (proj1 I)) as (h' & E' & _ & _ & C').
  exists v, h'. split; [exact Ev|]. split; [exact E'|]. intro p. rewrite !cnt_In, C'. reflexivity.
Qed.

(** The same exception inside a constructor always ends with a deleted object being used: the
    storage still has it on its stack. *)
Lemma sweep_dead : forall l us h p k, hv h -> cnt p (h_live h) = 0 -> In (p, k) us -> (forall e, In e us -> 0 <= snd e <= 3)%Z -> (forall q, q <> p -> cnt q (ptrs us) <= cnt q (h_live h)) -> sweep l h us = UB.
Proof.
  intros l us. induction us as [|[q j] us IH]; intros h p k V D J F C; [destruct J|]. cbn [sweep]. destruct (Nat.eq_dec q p) as [->|N].
  - unfold h_use. destruct (h_has h p) eqn:H; [apply h_has_cnt in H; lia|]. reflexivity.
  - assert (J' : In (p, k) us) by (destruct J as [J|J]; [injection J as J _; contradiction|exact J]). assert (F' : forall e, In e us -> (0 <= snd e <= 3)%Z) by (intros e Je; apply F; right; exact Je).
    assert (LQ : 1 <= cnt q (h_live h)) by (specialize (C q N); cbn [ptrs map fst cnt] in C; rewrite one_same in C; lia). rewrite h_use_ok by exact LQ. cbn [bind]. destruct (j <=? l)%Z.
    + destruct (h_del_ok h q V LQ) as (h1 & E1 & V1 & N1 & C1). rewrite E1. cbn [bind]. apply (IH h1 p k V1); [specialize (C1 p); cbn [cnt] in C1; lia|exact J'|exact F'|]. intros x Nx. specialize (C x Nx). specialize (C1 x). cbn [ptrs map fst cnt] in *. unfold ptrs in *. lia.
    + assert (FJ := F (q, j) (or_introl eq_refl)). cbn [snd] in FJ. replace (j <=? 4)%Z with true by (symmetry; apply Z.leb_le; lia). cbn [xl_assert bind]. rewrite (IH h p k V D J' F'); [reflexivity|]. intros x Nx. specialize (C x Nx). cbn [ptrs map fst cnt] in *. unfold ptrs in *. lia.
Qed.
Theorem C49_exception_in_constructor_refuted : forall h old globals sheets done rest k, hv h -> one_bound_each globals (length sheets) -> plan globals sheets = done ++ rest ->
  exists v s, do_steps (begin_save h old) done = Ok v /\ broken (level k) (sv_store v) = Ok s /\ close s = UB.
Proof.
  intros h old g ss d r k V O P. destruct (plan_runs h old g ss V O) as (w & E). destruct (prefix_ok _ _ _ (begin_ok h old V) d r P w E) as (v & Ev & [I B]). exists v.
  unfold broken. destruct (make (level k) (sv_store v)) as [p s1] eqn:M. destruct (make_ok _ _ _ _ _ I (level_range k) M) as (I1 & PN & N1 & S1 & _ & _). assert (J : In (p, level k) (rs_stack s1)) by (rewrite S1; apply in_or_app; right; left; reflexivity).
  assert (LP : 1 <= cnt p (h_live (rs_heap s1))) by (rewrite (ri_cnt _ _ I1); assert (X := ptrs_in _ _ _ J); lia). destruct (h_del_ok _ p (ri_hv _ _ I1) LP) as (h1 & E1 & V1 & X1 & C1). rewrite E1. cbn [bind]. eexists. split; [exact Ev|]. split; [reflexivity|].
  unfold close, flush. cbn [rs_heap rs_stack rs_level rs_pos]. change (everyone =? everyone)%Z with true. cbn [negb]. rewrite andb_false_r. cbn [andb negb orb xl_assert bind skipn].
  assert (D : sweep everyone h1 (rs_stack s1) = UB).
  { apply (sweep_dead _ _ _ p (level k) V1).
    - assert (W := proj1 (ri_hv _ _ I1) p). specialize (C1 p). cbn [cnt] in C1. rewrite one_same in C1. lia.
    - exact J.
    - assert (F := ri_lev _ _ I1). rewrite Forall_forall in F. exact F.
    - intros q Nq. specialize (C1 q). cbn [cnt] in C1. rewrite one_ne in C1 by exact Nq. assert (ZZ := ri_cnt _ _ I1 q). cbn beta in ZZ. cbn [rs_heap] in *. lia. }
  rewrite D. reflexivity.
Qed.

(** An exception while the sheets are written leaves the workbook in the middle of its plan;
    the next save goes on from there, with a new storage, and writes the position of a sheet
    into a BOUNDSHEET record that is gone. *)
Definition no_bounds (sheets : list (list (rkind * nat))) : Prop := forall s r, In s sheets -> In r s -> fst r <> RBound.
Lemma plan_sheets_in : forall ss i e, no_bounds ss -> In e (plan_sheets i ss) -> match e with SMake k _ => k <> RBound | SPatch j => i <= j < i + length ss end.
Proof.
  induction ss as [|s ss IH]; intros i e N J; [destruct J|]. cbn [plan_sheets] in J. apply in_app_or in J. cbn [length]. destruct J as [J|[<-|J]].
  - apply in_map_iff in J. destruct J as (r & <- & J). exact (N s r (or_introl eq_refl) J).
  - lia.
  - assert (Z := IH (S i) e (fun s' r a b => N s' r (or_intror a) b) J). destruct e; [exact Z|lia].
Qed.
Lemma stale : forall c (n : nat) bnd es v, sv_bound v = bnd -> sv_next v = n -> rinv c (sv_store v) ->
  (forall i, i < n -> exists p, bnd i = Some p /\ p < h_next (rs_heap (sv_store v)) /\ c p = 0 /\ ~ In p (ptrs (rs_stack (sv_store v)))) ->
  Forall (fun e => match e with SMake k _ => k <> RBound | SPatch j => j < n end) es -> (exists i, In (SPatch i) es) -> do_steps v es = UB.
Proof.
  intros c n bnd. induction es as [|e es IH]; intros v Ev En I D F [i J]; [destruct J|]. apply Forall_cons_iff in F. destruct F as [F1 F2]. cbn [do_steps]. destruct e as [k m|j].
  - destruct (smake_raw c v k m I) as (p & s & E & I' & (M1 & M2) & _ & _). rewrite E. cbn [bind].
    assert (G : do_steps (mkSv s (sv_bound v) (sv_next v)) es = UB).
    { apply IH; cbn [sv_bound sv_next sv_store]; auto.
      - intros x Hx. destruct (D x Hx) as (q & Q1 & Q2 & Q3 & Q4). exists q. split; [exact Q1|]. split; [lia|]. split; [exact Q3|]. intro K. apply in_map_iff in K. destruct K as (ee & K1 & K2). destruct (M2 ee K2) as [K|K]; [apply Q4; apply in_map_iff; exists ee; auto|lia].
      - exists i. destruct J as [J|J]; [discriminate J|exact J]. }
    destruct k; try exact G. contradiction F1; reflexivity.
  - cbn [do_step]. destruct (D j F1) as (q & Q1 & Q2 & Q3 & Q4). rewrite Ev, Q1. unfold h_use. destruct (h_has (rs_heap (sv_store v)) q) eqn:H; [|reflexivity].
    apply h_has_cnt in H. rewrite (ri_cnt _ _ I), Q3 in H. exfalso. apply Q4. apply cnt_In. lia.
Qed.
Theorem C49_next_save_refuted : forall h old globals sheets done rest i, hv h -> one_bound_each globals (length sheets) -> no_bounds sheets -> plan_sheets 0 sheets = done ++ rest -> In (SPatch i) rest ->
  exists v h', do_steps (begin_save h old) (map (fun r => SMake (fst r) (snd r)) globals ++ done) = Ok v /\ close (sv_store v) = Ok h'
    /\ do_steps (mkSv (rs_new h') (sv_bound v) (sv_next v)) rest = UB.
Proof.
  intros h old g ss d r i V O NB P J. destruct (plan_runs h old g ss V O) as (w & E).
  assert (PP : plan g ss = (map (fun r => SMake (fst r) (snd r)) g ++ d) ++ r) by (unfold plan; rewrite P, app_assoc; reflexivity).
  destruct (prefix_ok _ _ _ (begin_ok h old V) _ r PP w E) as (v & Ev & I). destruct (close_ok _ _ (proj1 I)) as (h' & E' & V' & N' & C'). exists v, h'. split; [exact Ev|]. split; [exact E'|].
  assert (NX : sv_next v = length ss).
  { rewrite do_steps_app in Ev. destruct (smakes_ok _ g _ (begin_ok h old V)) as (v1 & E1 & I1 & N1). rewrite E1 in Ev. cbn [bind] in Ev. unfold one_bound_each in O. rewrite bound_sum, O in N1. cbn [begin_save sv_next] in N1. rewrite Nat.add_0_r in N1. rewrite <- N1.
    assert (Fd : Forall (fun e => match e with SMake k _ => k <> RBound | SPatch _ => True end) d).
    { apply Forall_forall. intros e Je. assert (Z := plan_sheets_in ss 0 e NB). rewrite P in Z. specialize (Z (in_or_app _ _ _ (or_introl Je))). destruct e; [exact Z|exact Logic.I]. }
    clear - Ev Fd I1. revert v1 I1 Ev. induction d as [|e d IH]; intros v1 I1 Ev; cbn [do_steps] in Ev; [injection Ev as <-; reflexivity|]. apply Forall_cons_iff in Fd. destruct Fd as [F1 F2]. destruct e as [k m|j].
    - destruct (smake_ok _ v1 k m I1) as (v2 & E2 & I2 & N2). rewrite E2 in Ev. cbn [bind] in Ev. rewrite (IH F2 v2 I2 Ev), N2. destruct k; try reflexivity. contradiction F1; reflexivity.
    - cbn [do_step] in Ev. destruct (sv_bound v1 j); [|discriminate Ev]. destruct (h_use _ _); cbn [bind] in Ev; try discriminate Ev. exact (IH F2 v1 I1 Ev). }
  destruct I as [I B]. apply (stale (fun q => cnt q (h_live h')) (length ss) (sv_bound v)); cbn [sv_bound sv_next sv_store rs_new rs_heap rs_stack].
  - reflexivity.
  - exact NX.
  - constructor; cbn [rs_new rs_heap rs_stack]; [exact V'|intro q; cbn [ptrs map cnt]; lia|constructor|right; reflexivity].
  - intros x Hx. rewrite NX in B. destruct (B x Hx) as (p & Q1 & Q2). exists p. split; [exact Q1|].
    assert (A1 := ri_cnt _ _ I p). assert (A2 := ptrs_in _ _ _ Q2). destruct (ri_hv _ _ I) as [W1 W2]. assert (A3 := W1 p). cbn beta in A1.
    split; [destruct (le_lt_dec (h_next (rs_heap (sv_store v))) p) as [L|L]; [rewrite (W2 p L) in A1; lia|lia]|]. split; [rewrite C'; lia|]. intro K; exact K.
  - apply Forall_forall. intros e Je. assert (Z := plan_sheets_in ss 0 e NB). rewrite P in Z. specialize (Z (in_or_app _ _ _ (or_intror Je))). destruct e; [exact Z|lia].
  - exists i. exact J.
Qed.

(* ------------------------------------------------------------------ *)
(** * What is kept *)
Definition clean (s : rstore) : Prop := rs_pos s < length (rs_stack s) /\ Forall (fun e => rs_level s < snd e)%Z (firstn (S (rs_pos s)) (rs_stack s)).
Lemma make_clean : forall c l s p s', rinv c s -> (0 <= l <= 3)%Z -> make l s = (p, s') -> clean s -> clean s'.
Proof.
  intros c l s p s' I L M [A B]. destruct (make_ok c l s p s' I L M) as (_ & _ & _ & S' & L' & P'). unfold clean. rewrite S', L', P', app_length, firstn_app. cbn [length]. split; [lia|].
  replace (S (rs_pos s) - length (rs_stack s)) with 0 by lia. rewrite firstn_O, app_nil_r. exact B.
Qed.
Lemma flush_clean : forall c l s s', rinv c s -> (clean s \/ rs_level s <> l) -> flush l s = Ok s' -> (exists e, In e (rs_stack s) /\ l < snd e)%Z -> clean s' /\ Forall (fun e => l < snd e)%Z (rs_stack s').
Proof.
  intros c l s s' I C E (e & J & Le). destruct (flush_ok c l s I) as (s2 & E2 & _ & _ & S2 & L2 & P2). rewrite E in E2. injection E2 as <-.
  assert (F : Forall (fun e => l < snd e)%Z (rs_stack s')).
  { rewrite S2. apply Forall_app. split.
    - unfold behind. destruct (again l s) eqn:A; [|constructor]. unfold again in A. apply andb_true_iff in A. destruct A as [A _]. apply andb_true_iff in A. destruct A as [A _]. apply Z.eqb_eq in A. destruct C as [[_ C]|C]; [rewrite <- A; exact C|contradiction].
    - apply Forall_forall. intros x Jx. apply filter_In in Jx. destruct Jx as [_ Jx]. apply negb_true_iff, Z.leb_gt in Jx. exact Jx. }
  split; [|exact F]. assert (K := flush_keeps l s s' e S2 J Le). unfold clean. rewrite L2, P2. destruct (rs_stack s') as [|x y] eqn:R; [destruct K|]. cbn [length pred]. split; [lia|].
  change (S (length y)) with (length (x :: y)). rewrite firstn_all. exact F.
Qed.
Definition level_above (l : Z) (s : rstore) : Prop := Forall (fun e => l <= snd e)%Z (rs_stack s).
Lemma settle_clean : forall c p l s s', rinv c s -> (1 <= l <= 3)%Z -> In (p, l) (rs_stack s) -> settle p l s = Ok s' -> (clean s \/ rs_level s <> (l - 1)%Z) -> clean s' /\ level_above l s'.
Proof.
  intros c p l s s' I L J E C. unfold settle in E. rewrite (stack_use c s p l I J) in E. cbn [bind] in E. replace (0 <? l)%Z with true in E by (symmetry; apply Z.ltb_lt; lia).
  destruct (flush_clean c (l - 1) s s' I C E) as [A B]; [exists (p, l); split; [exact J|cbn [snd]; lia]|]. split; [exact A|]. unfold level_above. rewrite Forall_forall in B |- *. intros e Je. specialize (B e Je). lia.
Qed.
Lemma settle_zero : forall c p s, rinv c s -> In (p, 0%Z) (rs_stack s) -> settle p 0 s = Ok s.
Proof. intros c p s I J. unfold settle. rewrite (stack_use c s p _ I J). reflexivity. Qed.
Lemma continues_clean : forall c p l n s s', rinv c s -> (0 <= l <= 3)%Z -> In (p, l) (rs_stack s) -> continues n p l s = Ok s' -> clean s -> level_above l s -> clean s' /\ level_above l s'.
Proof.
  intros c p l. induction n as [|n IH]; intros s s' I L J E C A; cbn [continues] in E; [injection E as <-; auto|]. rewrite (stack_use c s p l I J) in E. cbn [bind] in E. destruct (make l s) as [q s1] eqn:M.
  destruct (make_ok c l s q s1 I L M) as (I1 & _ & _ & S1 & _ & _). assert (C1 := make_clean c l s q s1 I L M C). assert (J1 : In (q, l) (rs_stack s1)) by (rewrite S1; apply in_or_app; right; left; reflexivity).
  assert (A1 : level_above l s1) by (unfold level_above; rewrite S1; apply Forall_app; split; [exact A|constructor; [cbn [snd]; lia|constructor]]).
  destruct (settle_ok c q l s1 I1 L J1) as (s2 & E2 & I2 & _ & K2). rewrite E2 in E. cbn [bind] in E. assert (C2 : clean s2 /\ level_above l s2).
  { destruct (Z.eq_dec l 0) as [->|N]; [rewrite (settle_zero c q s1 I1 J1) in E2; injection E2 as <-; auto|]. apply (settle_clean c q l s1 s2 I1); [lia|exact J1|exact E2|left; exact C1]. }
  apply (IH s2 s' I2 L); [apply K2; [rewrite S1; apply in_or_app; left; exact J|cbn [snd]; lia]|exact E|apply C2|apply C2].
Qed.
Lemma continues_level0 : forall c p n s s', rinv c s -> In (p, 0%Z) (rs_stack s) -> continues n p 0 s = Ok s' -> rs_level s' = rs_level s.
Proof.
  intros c p. induction n as [|n IH]; intros s s' I J E; cbn [continues] in E; [injection E as <-; reflexivity|]. rewrite (stack_use c s p _ I J) in E. cbn [bind] in E. destruct (make 0 s) as [q s1] eqn:M.
  destruct (make_ok c 0 s q s1 I) as (I1 & _ & _ & S1 & L1 & _); [lia|exact M|]. rewrite (settle_zero c q s1 I1) in E by (rewrite S1; apply in_or_app; right; left; reflexivity). cbn [bind] in E.
  rewrite (IH s1 s' I1) by (first [exact E|rewrite S1; apply in_or_app; left; exact J]). exact L1.
Qed.
Lemma all_above_0 : forall c s, rinv c s -> level_above 0 s.
Proof. intros c s I. assert (F := ri_lev _ _ I). unfold level_above. rewrite Forall_forall in F |- *. intros e J. apply F in J. lia. Qed.
(** One record, from a clean state or the beginning. *)
Lemma smake_clean : forall c v k n v', vinv c v -> do_step v (SMake k n) = Ok v' -> (clean (sv_store v) \/ rs_level (sv_store v) = 0%Z /\ (k = RPlain \/ k = RBound)) ->
  (clean (sv_store v') \/ k = RPlain /\ rs_level (sv_store v') = 0%Z) /\ level_above (level k) (sv_store v').
Proof.
  intros c v k n v' [I B] E C. cbn [do_step] in E. destruct (make (level k) (sv_store v)) as [p s1] eqn:M. destruct (make_ok c _ _ _ _ I (level_range k) M) as (I1 & _ & N1 & S1 & L1 & _).
  assert (CL : match n with O => Ok tt | S _ => match rev (rs_stack s1) with (q, _) :: _ => xl_assert (Nat.eqb q p) | [] => UB end end = Ok tt).
  { destruct n; [reflexivity|]. rewrite S1, rev_app_distr. cbn [rev app]. rewrite Nat.eqb_refl. reflexivity. }
  rewrite CL in E. cbn [bind] in E. assert (J1 : In (p, level k) (rs_stack s1)) by (rewrite S1; apply in_or_app; right; left; reflexivity).
  destruct (settle_ok c p _ s1 I1 (level_range k) J1) as (s2 & E2 & I2 & _ & K2). rewrite E2 in E. cbn [bind] in E. assert (J2 : In (p, level k) (rs_stack s2)) by (apply K2; [exact J1|cbn [snd]; lia]).
  destruct (continues_ok c p _ n s2 I2 (level_range k) J2) as (s3 & E3 & I3 & _ & _). rewrite E3 in E. cbn [bind] in E.
  assert (ST : sv_store v' = s3) by (destruct k; injection E as <-; reflexivity). rewrite ST.
  assert (G : k <> RPlain -> clean s3 /\ level_above (level k) s3).
  { intro NP. assert (C1 : clean s1 \/ rs_level s1 <> (level k - 1)%Z).
    { destruct C as [C|[C1 [C2|C2]]]; [left; exact (make_clean c _ _ _ _ I (level_range k) M C)|contradiction|right; rewrite L1, C1; subst k; cbn; lia]. }
    destruct (settle_clean c p (level k) s1 s2 I1) as [A2 B2]; [destruct k; cbn [level]; [contradiction|lia|lia|lia]|exact J1|exact E2|exact C1|]. exact (continues_clean c p _ n s2 s3 I2 (level_range k) J2 E3 A2 B2). }
  destruct k; try (destruct G as [G1 G2]; [discriminate|split; [left; exact G1|exact G2]]). cbn [level] in *. rewrite (settle_zero c p s1 I1 J1) in E2. injection E2 as <-. split; [|exact (all_above_0 c s3 I3)].
  destruct C as [C|[C _]].
  - left. apply (continues_clean c p 0 n s1 s3 I1); [lia|exact J1|exact E3|exact (make_clean c 0 _ _ _ I ltac:(lia) M C)|exact (all_above_0 c s1 I1)].
  - right. split; [reflexivity|]. rewrite (continues_level0 c p n s1 s3 I1 J1 E3), L1. exact C.
Qed.
(** The first record that is not a plain one is a BOUNDSHEET. *)
Fixpoint bound_first (es : list step) : Prop :=
  match es with
  | SMake RPlain _ :: t | SPatch _ :: t => bound_first t
  | SMake RBound _ :: _ | [] => True
  | _ => False
  end.
Lemma walk : forall c d r k n v, vinv c v -> (clean (sv_store v) \/ rs_level (sv_store v) = 0%Z /\ bound_first (d ++ SMake k n :: r)) -> (exists w, do_steps v (d ++ SMake k n :: r) = Ok w) ->
  exists w, do_steps v (d ++ [SMake k n]) = Ok w /\ vinv c w /\ level_above (level k) (sv_store w).
Proof.
  intros c d r k n. induction d as [|e d IH]; intros v I C (w & E); cbn [app do_steps] in *.
  - destruct (smake_ok c v k n I) as (v1 & E1 & I1 & _). rewrite E1. cbn [bind do_steps]. exists v1. split; [reflexivity|]. split; [exact I1|]. apply (smake_clean c v k n v1 I E1). destruct C as [C|[C1 C2]]; [left; exact C|right; split; [exact C1|]]. cbn [bound_first] in C2. destruct k; auto; contradiction.
  - destruct e as [k' n'|j].
    + destruct (smake_ok c v k' n' I) as (v1 & E1 & I1 & _). rewrite E1 in *. cbn [bind] in *. apply IH; [exact I1| |exists w; exact E].
      destruct (smake_clean c v k' n' v1 I E1) as [Z _].
      { destruct C as [C|[C1 C2]]; [left; exact C|right; split; [exact C1|]]. cbn [bound_first] in C2. destruct k'; auto; contradiction. }
      destruct Z as [Z|[-> Z]]; [left; exact Z|]. destruct C as [C|[C1 C2]]; [|right; split; [exact Z|exact C2]].
      left. assert (Q := smake_clean c v RPlain n' v1 I E1 (or_introl C)). destruct (do_step v (SMake RPlain n')) eqn:D; [|discriminate E1|discriminate E1]. clear Q.
      (* from a clean state a plain record leaves a clean state *)
      cbn [do_step] in D. destruct I as [I B]. destruct (make (level RPlain) (sv_store v)) as [p s1] eqn:M. destruct (make_ok c _ _ _ _ I (level_range RPlain) M) as (J1 & _ & _ & S1 & _ & _). assert (P1 : In (p, 0%Z) (rs_stack s1)) by (rewrite S1; apply in_or_app; right; left; reflexivity).
      destruct (match n' with O => Ok tt | S _ => match rev (rs_stack s1) with (q, _) :: _ => xl_assert (Nat.eqb q p) | [] => UB end end) as [u| |]; cbn [bind] in D; [|discriminate D|discriminate D]. cbn [level] in D. rewrite (settle_zero c p s1 J1 P1) in D. cbn [bind] in D.
      destruct (continues n' p 0 s1) as [s3| |] eqn:E3; cbn [bind] in D; [|discriminate D|discriminate D]. injection D as <-. injection E1 as <-. cbn [sv_store]. apply (continues_clean c p 0 n' s1 s3 J1 ltac:(lia) P1 E3); [exact (make_clean c 0 _ _ _ I ltac:(lia) M C)|exact (all_above_0 c s1 J1)].
    + assert (D : do_step v (SPatch j) = Ok v) by (cbn [do_step] in *; destruct (sv_bound v j); [|discriminate E]; destruct (h_use _ _) as [[]| |]; cbn [bind] in *; [reflexivity|discriminate E|discriminate E]). rewrite D in *. cbn [bind] in *. apply IH; [exact I| |exists w; exact E]. destruct C as [C|[C1 C2]]; [left; exact C|right; split; [exact C1|exact C2]].
Qed.
Definition plain_globals (globals : list (rkind * nat)) : Prop := forall r, In r globals -> fst r = RPlain \/ fst r = RBound.
Lemma plan_bound_first : forall g ss, plain_globals g -> one_bound_each g (length ss) -> bound_first (plan g ss).
Proof.
  unfold plan, one_bound_each. induction g as [|[k n] g IH]; intros ss P O; cbn [filter fst length map app snd] in *.
  - destruct ss; [exact Logic.I|discriminate O].
  - destruct (P (k, n) (or_introl eq_refl)) as [X|X]; cbn [fst] in X; subst k; [|exact Logic.I]. cbn [bound_first]. apply IH; [intros r J; apply P; right; exact J|exact O].
Qed.
(** The kinds of the record objects in the order in which they are made: a continued record
    makes several. *)
Definition kinds_of (e : step) : list rkind := match e with SMake k n => repeat k (S n) | SPatch _ => [] end.
Definition kinds_made (es : list step) : list rkind := flat_map kinds_of es.
(** Objects are numbered as they are made, those of the save from [base] on. *)
Record named (base : nat) (ks : list rkind) (s : rstore) : Prop := {
  na_next : h_next (rs_heap s) = base + length ks;
  na_kind : forall p l, In (p, l) (rs_stack s) -> base <= p /\ exists k, nth_error ks (p - base) = Some k /\ l = level k }.
Lemma make_named : forall c base ks k s p s', rinv c s -> make (level k) s = (p, s') -> named base ks s -> named base (ks ++ [k]) s'.
Proof.
  intros c base ks k s p s' I M [A B]. destruct (make_ok c _ s p s' I (level_range k) M) as (_ & P & N & S' & _). constructor.
  - rewrite app_length. cbn [length]. lia.
  - intros q l J. rewrite S' in J. apply in_app_or in J. destruct J as [J|[J|[]]].
    + destruct (B q l J) as (B1 & k' & B2 & B3). split; [exact B1|]. exists k'. split; [|exact B3]. rewrite nth_error_app1; [exact B2|]. apply nth_error_Some. congruence.
    + injection J as <- <-. split; [lia|]. exists k. split; [|reflexivity]. replace (p - base) with (length ks) by lia. rewrite nth_error_app2, Nat.sub_diag by lia. reflexivity.
Qed.
Lemma settle_named : forall c base ks p l s s', rinv c s -> In (p, l) (rs_stack s) -> settle p l s = Ok s' -> named base ks s -> named base ks s'.
Proof.
  intros c base ks p l s s' I J E [A B]. unfold settle in E. rewrite (stack_use c s p l I J) in E. cbn [bind] in E. destruct (0 <? l)%Z; [|injection E as <-; constructor; assumption].
  destruct (flush_ok c (l - 1) s I) as (s2 & E2 & _ & N2 & S2 & _). rewrite E in E2. injection E2 as <-. constructor; [congruence|]. intros q m K. apply B. rewrite S2 in K. apply in_app_or in K. rewrite <- (firstn_skipn (behind (l - 1) s) (rs_stack s)). apply in_or_app. destruct K as [K|K]; [left; exact K|right]. apply filter_In in K. apply K.
Qed.
Lemma continues_named : forall c base p k n ks s s', rinv c s -> In (p, level k) (rs_stack s) -> continues n p (level k) s = Ok s' -> named base ks s -> named base (ks ++ repeat k n) s'.
Proof.
  intros c base p k. induction n as [|n IH]; intros ks s s' I J E A; cbn [continues] in E; [injection E as <-; cbn [repeat]; rewrite app_nil_r; exact A|]. rewrite (stack_use c s p _ I J) in E. cbn [bind] in E. destruct (make (level k) s) as [q s1] eqn:M.
  destruct (make_ok c _ s q s1 I (level_range k) M) as (I1 & _ & _ & S1 & _). assert (J1 : In (q, level k) (rs_stack s1)) by (rewrite S1; apply in_or_app; right; left; reflexivity). assert (A1 := make_named c base ks k s q s1 I M A).
  destruct (settle_ok c q _ s1 I1 (level_range k) J1) as (s2 & E2 & I2 & _ & K2). rewrite E2 in E. cbn [bind] in E. cbn [repeat]. replace (ks ++ k :: repeat k n) with ((ks ++ [k]) ++ repeat k n) by (rewrite <- app_assoc; reflexivity).
  apply (IH _ s2 s' I2); [apply K2; [rewrite S1; apply in_or_app; left; exact J|cbn [snd]; lia]|exact E|exact (settle_named c base _ q _ s1 s2 I1 J1 E2 A1)].
Qed.
Lemma step_named : forall c base ks v e v', vinv c v -> do_step v e = Ok v' -> named base ks (sv_store v) -> named base (ks ++ kinds_of e) (sv_store v').
Proof.
  intros c base ks v [k n|i] v' [I B] E A; cbn [do_step] in E.
  - destruct (make (level k) (sv_store v)) as [p s1] eqn:M. destruct (make_ok c _ _ _ _ I (level_range k) M) as (I1 & _ & _ & S1 & _). assert (J1 : In (p, level k) (rs_stack s1)) by (rewrite S1; apply in_or_app; right; left; reflexivity).
    destruct (match n with O => Ok tt | S _ => match rev (rs_stack s1) with (q, _) :: _ => xl_assert (Nat.eqb q p) | [] => UB end end) as [u| |]; cbn [bind] in E; [|discriminate E|discriminate E].
    destruct (settle_ok c p _ s1 I1 (level_range k) J1) as (s2 & E2 & I2 & _ & K2). rewrite E2 in E. cbn [bind] in E. destruct (continues n p (level k) s2) as [s3| |] eqn:E3; cbn [bind] in E; [|discriminate E|discriminate E].
    assert (ST : sv_store v' = s3) by (destruct k; injection E as <-; reflexivity). rewrite ST. cbn [kinds_of repeat]. replace (ks ++ k :: repeat k n) with ((ks ++ [k]) ++ repeat k n) by (rewrite <- app_assoc; reflexivity).
    apply (continues_named c base p k n _ s2 s3 I2); [apply K2; [exact J1|cbn [snd]; lia]|exact E3|]. exact (settle_named c base _ p _ s1 s2 I1 J1 E2 (make_named c base ks k _ _ _ I M A)).
  - cbn [kinds_of]. rewrite app_nil_r. destruct (sv_bound v i); [|discriminate E]. destruct (h_use _ _); cbn [bind] in E; [injection E as <-; exact A|discriminate E|discriminate E].
Qed.
Lemma steps_named : forall c base es ks v v', vinv c v -> do_steps v es = Ok v' -> named base ks (sv_store v) -> named base (ks ++ kinds_made es) (sv_store v').
Proof.
  intros c base. induction es as [|e es IH]; intros ks v v' I E A; cbn [do_steps] in E; [injection E as <-; cbn [kinds_made flat_map]; rewrite app_nil_r; exact A|]. destruct (do_step v e) as [w| |] eqn:D; cbn [bind] in E; try discriminate E.
  unfold kinds_made. cbn [flat_map]. rewrite app_assoc. apply (IH _ w); [|exact E|exact (step_named c base ks v e w I D A)].
  destruct e as [k n|i]; [destruct (smake_ok c v k n I) as (w' & D' & I' & _); rewrite D in D'; injection D' as <-; exact I'|]. cbn [do_step] in D. destruct (sv_bound v i); [|discriminate D]. destruct (h_use _ _); cbn [bind] in D; [injection D as <-; exact I|discriminate D|discriminate D].
Qed.
(** Which records may be left when a record of kind [k] has been written: after a row block
    (DBCELL) no cells and rows; after an INDEX neither these nor row blocks; after a directory
    entry only directory entries. *)
Definition may_stay (k k' : rkind) : Prop :=
  match k with
  | RPlain => True
  | RDbcell => k' = RDbcell \/ k' = RIndex \/ k' = RBound
  | RIndex => k' = RIndex \/ k' = RBound
  | RBound => k' = RBound
  end.
Theorem C49_only_records_still_needed_are_kept : forall h old globals sheets done k n rest, hv h -> plain_globals globals -> one_bound_each globals (length sheets) -> plan globals sheets = done ++ SMake k n :: rest ->
  exists v, do_steps (begin_save h old) (done ++ [SMake k n]) = Ok v /\
    forall p, In p (h_live (rs_heap (sv_store v))) ->
      In p (h_live h) \/ h_next h <= p /\ exists k', nth_error (kinds_made (done ++ [SMake k n])) (p - h_next h) = Some k' /\ may_stay k k'.
Proof.
  intros h old g ss d k n r V PG O P. destruct (plan_runs h old g ss V O) as (w & E). rewrite P in E.
  destruct (walk _ d r k n _ (begin_ok h old V)) as (v & Ev & [I _] & A); [right; split; [reflexivity|rewrite <- P; exact (plan_bound_first g ss PG O)]|exists w; exact E|].
  exists v. split; [exact Ev|]. intros p J. apply cnt_In in J. rewrite (ri_cnt _ _ I) in J. cbn beta in J. destruct (Nat.eq_dec (cnt p (h_live h)) 0) as [Z|Z]; [right|left; apply cnt_In; lia].
  assert (K : In p (ptrs (rs_stack (sv_store v)))) by (apply cnt_In; lia). apply in_map_iff in K. destruct K as ([q l] & <- & K). cbn [fst].
  assert (NM : named (h_next h) ([] ++ kinds_made (d ++ [SMake k n])) (sv_store v)) by (apply (steps_named _ _ _ _ _ _ (begin_ok h old V) Ev); constructor; [cbn; lia|intros x y []]).
  destruct (na_kind _ _ _ NM q l K) as (Q1 & k' & Q2 & Q3). split; [exact Q1|]. exists k'. split; [exact Q2|].
  unfold level_above in A. rewrite Forall_forall in A. specialize (A _ K). cbn [snd] in A. subst l. clear - A. destruct k, k'; cbn [level may_stay] in *; auto; lia.
Qed.

(* ------------------------------------------------------------------ *)
(** * Examples *)
Definition demo_globals : list (rkind * nat) := [(RPlain, 0); (RPlain, 2); (RBound, 0); (RBound, 0); (RPlain, 0)].
Definition demo_sheets : list (list (rkind * nat)) :=
  [ [(RPlain, 0); (RIndex, 0); (RPlain, 0); (RPlain, 3); (RDbcell, 0); (RPlain, 0); (RDbcell, 0); (RPlain, 0)]; [(RPlain, 0); (RIndex, 1); (RDbcell, 0)] ].
Definition demo_heap : heap := mkHeap 3 [2; 0].
Example C49_example :
  hv demo_heap /\ one_bound_each demo_globals (length demo_sheets) /\ plain_globals demo_globals /\ no_bounds demo_sheets
  /\ save_records demo_heap (fun _ => Some 1) demo_globals demo_sheets = Ok (mkHeap 25 [2; 0])
  /\ (exists a b, plan demo_globals demo_sheets = a ++ SMake RDbcell 0 :: b) /\ (exists a b, plan_sheets 0 demo_sheets = a ++ b /\ In (SPatch 1) b /\ a <> []).
Proof.
  split; [split|].
  - intro q. cbn [demo_heap h_live cnt]. unfold one. destruct q as [|[|[|q]]]; cbn; lia.
  - intros q L. cbn [demo_heap h_live cnt h_next] in *. unfold one. destruct q as [|[|[|q]]]; cbn; lia.
  - split; [reflexivity|]. split; [intros r J; cbn in J; repeat (destruct J as [<-|J]; [cbn; auto|]); destruct J|]. split; [intros s r J K; cbn in J; repeat (destruct J as [<-|J]; [cbn in K; repeat (destruct K as [<-|K]; [discriminate|]); destruct K|]); destruct J|].
    split; [vm_compute; reflexivity|]. split.
    + exists (firstn 9 (plan demo_globals demo_sheets)), (skipn 10 (plan demo_globals demo_sheets)). vm_compute. reflexivity.
    + exists (firstn 3 (plan_sheets 0 demo_sheets)), (skipn 3 (plan_sheets 0 demo_sheets)). split; [vm_compute; reflexivity|]. split; [vm_compute; tauto|vm_compute; discriminate].
Qed.

Print Assumptions C49_save_deletes_each_record_once.
Print Assumptions C49_exception_between_records.
Print Assumptions C49_exception_in_constructor_refuted.
Print Assumptions C49_next_save_refuted.
Print Assumptions C49_only_records_still_needed_are_kept.
