(** Proofs about the storage of records: records made side by side are byte lists of their own. *)
From Coq Require Import ZArith List Lia Bool Arith.
From Coq Require Import ZifyBool ZifyNat.
From Verif Require Import Bytes UnitModel UnitProofs SpecBuf BufProofs PoolModel SpecPool.
Import ListNotations.
Local Open Scope Z_scope.
Ltac Zify.zify_post_hook ::= Z.div_mod_to_equations.

(** ** A heap block is never of length zero *)
Definition pos (s : ustore) : Prop := us_vary s = true -> us_null s = false -> us_buf s <> [].
Definition K (u : cunit) : Prop := exists s, cu_store u = Some s /\ pos s.

Lemma bind_ok {A B} (r : res A) (f : A -> res B) b : bind r f = Ok b -> exists a, r = Ok a /\ f a = Ok b.
Proof. destruct r; cbn [bind]; intro H; try discriminate. eauto. Qed.
Lemma assert_ok b x : xl_assert b = Ok x -> b = true.
Proof. unfold xl_assert. destruct b; [reflexivity|discriminate]. Qed.
Lemma long_not_nil (l : list Z) n : zlen l = n -> 0 < n -> l <> [].
Proof. intros H1 H2 ->. rewrite zlen_nil in H1. lia. Qed.

Ltac inv H := apply bind_ok in H; let a := fresh "a" in let E := fresh "E" in destruct H as (a & E & H).

Section P.
Variable orc : nat -> option (nat -> Z).

Lemma resize_K s c n e s' c' : resize orc s c n = Ok (e, s', c') -> pos s -> pos s'.
Proof.
  unfold resize. intros H P. inv H. inv H. apply assert_ok in E. clear E0.
  destruct (us_vary s) eqn:V; cbn [negb] in H.
  - destruct (n =? zlen (us_buf s)) eqn:En; [injection H as <- <- <-; exact P|].
    inv H. destruct a1 as [q|].
    + injection H as <- <- <-. intros _ _. cbn [us_buf].
      apply (long_not_nil _ n); [|lia].
      destruct (us_null s).
      * inv E0. injection E0 as E0. apply (malloc_len orc c); [exact E0|lia].
      * injection E0 as E0. apply (proj1 (realloc_spec orc c _ _ _ E0 ltac:(lia))).
    + injection H as <- <- <-. intros _ N. discriminate N.
  - destruct (FIXED_SIZE <? n) eqn:En; [|injection H as <- <- <-; exact P].
    destruct (malloc orc c n) as [q|] eqn:M.
    + inv H. injection H as <- <- <-. intros _ _. cbn [us_buf].
      apply malloc_len in M; [|lia]. unfold memcpy_prefix in E0.
      destruct (Nat.leb _ (length q)) eqn:L1; cbn [andb] in E0; [|discriminate].
      destruct (Nat.leb _ (length (us_buf s))) eqn:L2; [|discriminate].
      injection E0 as <-. apply (long_not_nil _ n); [|lia].
      unfold zlen in *. rewrite app_length, firstn_length, skipn_length. lia.
    + injection H as <- <- <-. intros _ N. discriminate N.
Qed.
Lemma raw_write_K s i v s' : raw_write s i v = Ok s' -> pos s -> pos s'.
Proof.
  unfold raw_write. destruct (_ || _)%bool; intro H; [discriminate|]. injection H as <-.
  unfold pos. cbn [us_vary us_null us_buf]. intros P V N C. apply (P V N).
  apply length_zero_iff_nil. rewrite <- (upd_length _ (Z.to_nat i) v), C. reflexivity.
Qed.
Lemma set_data_size_K s n s' : set_data_size s n = Ok s' -> pos s -> pos s'.
Proof. unfold set_data_size. intro H. inv H. injection H as <-. exact (fun x => x). Qed.
Lemma write_loop_K l : forall s d s' d', write_loop s d l = Ok (s', d') -> pos s -> pos s'.
Proof.
  induction l as [|b t IH]; intros s d s' d' H P; cbn [write_loop] in H; [injection H as <- <-; exact P|].
  inv H. inv H. eapply IH; [exact H|]. eapply raw_write_K; eauto.
Qed.
Lemma the_store_K u s : the_store u = Ok s -> K u -> pos s.
Proof. unfold the_store. intros H (s' & E & P). rewrite E in H. injection H as <-. exact P. Qed.
Lemma the_store_some u s : the_store u = Ok s -> cu_store u = Some s.
Proof. unfold the_store. destruct (cu_store u); intro H; [injection H as ->; reflexivity|discriminate]. Qed.
Lemma K_of s c : pos s -> K (mkUnit (Some s) c).
Proof. intro P. exists s. auto. Qed.
Lemma request_K u n e u' : request_index orc u n = (e, u') -> cu_store u' = None \/ K u'.
Proof.
  unfold request_index, prepare. destruct (n <=? FIXED_SIZE) eqn:En; unfold FIXED_SIZE in En.
  - cbn. intro H. injection H as <- <-. right. apply K_of. intros V. discriminate V.
  - destruct (malloc orc (cu_cnt u) n) as [q|] eqn:M; cbn; intro H; injection H as <- <-; auto.
    right. apply K_of. intros _ _. cbn [us_buf]. apply malloc_len in M; [|lia]. apply (long_not_nil _ n); lia.
Qed.
Lemma request_ok u n u' : request_index orc u n = (NO_ERRORS, u') -> cu_store u' <> None.
Proof.
  unfold request_index. destruct (prepare orc (cu_cnt u) n) as [[e s] c]. destruct (e =? NO_ERRORS); intro H; injection H as H.
  - subst. discriminate.
  - discriminate H.
Qed.
Lemma inflate_K u n e u' : inflate orc u n = Ok (e, u') -> K u -> K u'.
Proof.
  unfold inflate. intros H (s & E & P). rewrite E in H. inv H. inv H. destruct a0 as [[e1 s1] c1].
  injection H as <- <-. apply K_of. eapply resize_K; eauto.
Qed.
Lemma ensure_K u n e u' : ensure orc u n = Ok (e, u') -> K u -> K u'.
Proof.
  unfold ensure. intros H P. inv H. inv H. destruct (_ <? _); [eapply inflate_K; eauto|].
  injection H as <- <-. exact P.
Qed.
Lemma append_raw_K u l e u' : append_raw u l = Ok (e, u') -> K u -> K u'.
Proof.
  unfold append_raw. intros H P. inv H. inv H. destruct a0 as [s1 d1]. inv H. injection H as <- <-.
  apply K_of. eapply set_data_size_K; [eassumption|]. eapply write_loop_K; [eassumption|]. eapply the_store_K; eauto.
Qed.
Lemma add8_K u v e u' : add8 orc u v = Ok (e, u') -> K u -> K u'.
Proof.
  unfold add8. intros H P. inv H. inv H. inv H. destruct a1 as [e1 u1].
  assert (P1 : K u1). { destruct (_ <=? _) in E1; [eapply inflate_K; eauto|injection E1 as <- <-; exact P]. }
  destruct (negb _); [injection H as <- <-; exact P1|].
  inv H. inv H. inv H. injection H as <- <-. apply K_of.
  eapply set_data_size_K; [eassumption|]. eapply raw_write_K; [eassumption|]. eapply the_store_K; eauto.
Qed.
Lemma add_bytes_K l : forall u e0 e u', add_bytes orc u e0 l = Ok (e, u') -> K u -> K u'.
Proof.
  induction l as [|b t IH]; intros u e0 e u' H P; cbn [add_bytes] in H; [injection H as <- <-; exact P|].
  inv H. destruct a as [e1 u1]. eapply IH; [exact H|]. eapply add8_K; eauto.
Qed.
Lemma set8_K u v i e u' : set8 u v i = Ok (e, u') -> K u -> K u'.
Proof.
  unfold set8. intros H P. inv H. destruct (us_null a); [injection H as <- <-; exact P|].
  inv H. destruct (_ <? _); [|injection H as <- <-; exact P]. inv H. injection H as <- <-.
  apply K_of. eapply raw_write_K; [eassumption|]. eapply the_store_K; eauto.
Qed.
Lemma set_bytes_K l : forall u e0 i e u', set_bytes u e0 l i = Ok (e, u') -> K u -> K u'.
Proof.
  induction l as [|b t IH]; intros u e0 i e u' H P; cbn [set_bytes] in H; [injection H as <- <-; exact P|].
  inv H. destruct a as [e1 u1]. eapply IH; [exact H|]. eapply set8_K; eauto.
Qed.
Lemma add_array_K u l e u' : add_array orc u l = Ok (e, u') -> K u -> K u'.
Proof.
  unfold add_array. intros H P. pose proof P as (s & E & _). rewrite E in H. cbn [negb NO_ERRORS Z.eqb] in H.
  inv H. destruct a as [e1 u1]. pose proof (ensure_K _ _ _ _ E0 P) as P1.
  destruct (negb _); [injection H as <- <-; exact P1|]. eapply append_raw_K; eauto.
Qed.
Lemma run_op_K u o e u' : run_op orc u o = Ok (e, u') -> K u -> K u'.
Proof.
  destruct o; cbn [run_op]; intros H P.
  - eapply add8_K; eauto.
  - eapply add_bytes_K; eauto.
  - eapply add_bytes_K; eauto.
  - eapply add_bytes_K; eauto.
  - eapply set8_K; eauto.
  - eapply set_bytes_K; eauto.
  - eapply set_bytes_K; eauto.
  - eapply add_array_K; eauto.
  - eapply add_array_K; eauto.
  - unfold append_unit in H. inv H. destruct a as [e1 u1]. pose proof (ensure_K _ _ _ _ E P) as P1.
    destruct (negb _); [injection H as <- <-; exact P1|]. eapply add_array_K; eauto.
  - unfold add_str in H. inv H. destruct a as [e1 u1]. pose proof (ensure_K _ _ _ _ E P) as P1.
    destruct (negb _); [injection H as <- <-; exact P1|]. inv H. inv H. eapply append_raw_K; eauto.
  - eapply inflate_K; eauto.
  - inv H. eapply set_bytes_K; eauto.
Qed.
Lemma add_array_none u l e u' : cu_store u = None -> add_array orc u l = Ok (e, u') -> cu_store u' = None \/ K u'.
Proof.
  intros N H. unfold add_array in H. rewrite N in H. destruct (request_index orc u (zlen l)) as [e0 u0] eqn:Q.
  destruct (request_K _ _ _ _ Q) as [C|C].
  - destruct (e0 =? NO_ERRORS) eqn:E0; cbn [negb] in H.
    + assert (e0 = NO_ERRORS) by (unfold NO_ERRORS in *; lia). subst e0. destruct (request_ok _ _ _ Q C).
    + injection H as <- <-. auto.
  - destruct (negb _); [injection H as <- <-; auto|]. right.
    inv H. destruct a as [e1 u1]. pose proof (ensure_K _ _ _ _ E C) as P1.
    destruct (negb _); [injection H as <- <-; exact P1|]. eapply append_raw_K; eauto.
Qed.
(** A unit without a slot: operations that do not ask for one fail. *)
Lemma run_op_none u o e u' : cu_store u = None -> run_op orc u o = Ok (e, u') ->
  requests o = true /\ (cu_store u' = None \/ K u').
Proof.
  intros N H. destruct o; cbn [run_op] in H;
    try (unfold add8, the_store in H; rewrite N in H; discriminate H);
    try (unfold le16, le32, le64 in H; cbn [add_bytes] in H; rewrite add8_none in H by exact N; discriminate H);
    try (unfold set8, the_store in H; rewrite N in H; discriminate H);
    try (unfold le16, le32 in H; cbn [set_bytes] in H; unfold set8, the_store in H; rewrite N in H; discriminate H);
    try (unfold append_unit, add_str, ensure, the_store in H; rewrite N in H; discriminate H).
  - split; [reflexivity|]. eapply add_array_none; eauto.
  - split; [reflexivity|]. eapply add_array_none; eauto.
  - split; [reflexivity|]. unfold inflate in H. rewrite N in H. inv H. injection H as H.
    eapply request_K; eauto.
Qed.

(** ** What a slot holds *)
Definition good (s : ustore) (l : list Z) : Prop := sinv s /\ us_null s = false /\ cont s = l /\ pos s.
(** A slot stands for a record: it has its bytes, or lost them when the vector moved. *)
Definition slot_rep (x : slot) (r : srec) : Prop :=
  sl_live x = true /\ sl_sticky x = r_kept r
  /\ exists l, r_bytes r = Some l /\ zlen l < LIM
     /\ (good (sl_store x) l \/ (r_kept r = true /\ sinv (sl_store x) /\ us_null (sl_store x) = true /\ ~ orc_total orc)).

Lemma copy_slot_rep c x r : slot_rep x r -> orc_total orc \/ r_kept r = true ->
  match copy_slot orc c x with
  | UB => False
  | Throw => ~ orc_total orc
  | Ok (y, _) => slot_rep y r
  end.
Proof.
  intros (L & S & l & B & Z & G) T. unfold copy_slot.
  destruct (us_vary (sl_store x)) eqn:V; cbn [negb].
  - unfold xl_assert. rewrite L. cbn [bind].
    destruct G as [(I & N & C & P)|(Kp & I & N & NT)].
    + specialize (P V N). pose proof I as (Hd & _ & _ & Hl). specialize (Hl N).
      assert (0 < zlen (us_buf (sl_store x))).
      { destruct (us_buf (sl_store x)); [congruence|]. rewrite zlen_cons. pose proof (zlen_nonneg _ l0). lia. }
      replace (0 <? zlen (us_buf (sl_store x))) with true by lia. cbn [bind].
      destruct (malloc orc c (zlen (us_buf (sl_store x)))) as [q|] eqn:M.
      * apply malloc_len in M; [|lia]. unfold memcpy_prefix.
        destruct (Nat.leb _ (length q)) eqn:L1; cbn [andb]; [|unfold zlen in *; lia].
        destruct (Nat.leb _ (length (us_buf (sl_store x)))) eqn:L2; [|unfold zlen in *; lia].
        cbn [bind].
        assert (F : length (firstn (Z.to_nat (us_dsize (sl_store x))) (us_buf (sl_store x))) = Z.to_nat (us_dsize (sl_store x))).
        { rewrite firstn_length. unfold zlen in *. lia. }
        assert (Q : zlen (firstn (Z.to_nat (us_dsize (sl_store x))) (us_buf (sl_store x)) ++ skipn (Z.to_nat (us_dsize (sl_store x))) q) = zlen (us_buf (sl_store x))).
        { unfold zlen in *. rewrite app_length, skipn_length. lia. }
        split; [reflexivity|]. split; [exact S|]. exists l. split; [exact B|]. split; [exact Z|]. left.
        cbn [sl_store]. split; [|split; [reflexivity|split]].
        -- unfold sinv. cbn [us_dsize us_vary us_null us_buf]. rewrite Q. repeat split; try lia; try discriminate.
        -- unfold cont. cbn [us_dsize us_buf].
           rewrite firstn_app, F, Nat.sub_diag, firstn_firstn, Nat.min_id. cbn [firstn]. rewrite app_nil_r. exact C.
        -- intros _ _. cbn [us_buf]. apply (long_not_nil _ _ Q). lia.
      * assert (NT : ~ orc_total orc) by (intro Ht; exact (malloc_total orc Ht _ _ M)).
        destruct T as [T|T]; [destruct (NT T)|].
        split; [reflexivity|]. split; [exact S|]. exists l. split; [exact B|]. split; [exact Z|]. right.
        cbn [sl_store us_null]. split; [exact T|]. split; [|auto].
        unfold sinv. cbn [us_dsize us_vary us_null us_buf]. rewrite LIM_val. repeat split; try lia; try discriminate.
    + pose proof I as (_ & _ & Hb & _). rewrite (Hb N). cbn [bind]. exact NT.
  - unfold xl_assert.
    destruct G as [(I & N & C & P)|(Kp & I & N & NT)].
    + pose proof I as (Hd & Hv & _ & Hl). destruct (Hv V) as (_ & Hz). specialize (Hl N). unfold FIXED_SIZE.
      replace (us_dsize (sl_store x) <=? 18) with true by lia. cbn [bind].
      split; [exact L|]. split; [exact S|]. exists l. split; [exact B|]. split; [exact Z|]. left.
      split; [exact I|]. auto.
    + pose proof I as (_ & Hv & _). destruct (Hv V) as (C & _). congruence.
Qed.

Lemma copy_slots_rep (l : list slot) : forall c (rs : list srec), Forall2 slot_rep l rs ->
  orc_total orc \/ Forall (fun r => r_kept r = true) rs ->
  match copy_slots orc c l with
  | UB => False
  | Throw => ~ orc_total orc
  | Ok (l', _) => Forall2 slot_rep l' rs
  end.
Proof.
  induction l as [|x t IH]; intros c rs H T; inversion H; subst; cbn [copy_slots]; [constructor|].
  assert (T1 : orc_total orc \/ r_kept y = true) by (destruct T as [T|T]; [auto|inversion T; auto]).
  assert (T2 : orc_total orc \/ Forall (fun r => r_kept r = true) l') by (destruct T as [T|T]; [auto|inversion T; auto]).
  pose proof (copy_slot_rep c x y H2 T1) as A. destruct (copy_slot orc c x) as [[y1 c1]| |]; cbn [bind]; auto.
  specialize (IH c1 l' H4 T2). destruct (copy_slots orc c1 t) as [[r c2]| |]; cbn [bind]; auto.
Qed.

(** ** One operation of a unit that has a slot *)
Lemma put_ok p i x u : K u -> exists s, cu_store u = Some s /\ pos s
  /\ put p i x u = Ok (mkPool (upd i (mkSlot (sl_live x) (sl_sticky x) s) (p_slots p)) (p_total p) (p_units p) (cu_cnt u)).
Proof. intros (s & E & P). exists s. split; [exact E|]. split; [exact P|]. unfold put. rewrite E. reflexivity. Qed.

(** The code of the operation when memory is never refused. *)
Definition op_code (b : option (list Z)) (o : uop) : Z :=
  match arun_op b o with Ok (e, _) => e | _ => 0 end.

Lemma good_op s l c o : good s l -> op_typed l o -> zlen (spec_op l o) < LIM ->
  match run_op orc (mkUnit (Some s) c) o with
  | UB => False
  | Throw => ~ orc_total orc
  | Ok (e, u) => K u /\ (e = op_code (Some l) o \/ ~ orc_total orc)
      /\ (e = op_code (Some l) o -> exists s', cu_store u = Some s' /\ good s' (spec_op l o))
  end.
Proof.
  intros (I & N & C & P) T Z.
  pose proof (op_sim orc (mkUnit (Some s) c) (Some l) o (conj I (conj N C))) as A. unfold sim_post in A.
  destruct (op_agrees l o T) as (e0 & E0). unfold op_code. rewrite E0 in *. specialize (A Z).
  destruct (run_op orc (mkUnit (Some s) c) o) as [[e u]| |] eqn:Q; auto.
  destruct A as (A1 & A2). pose proof (run_op_K _ _ _ _ Q (K_of s c P)) as Ku.
  split; [exact Ku|]. split; [exact A1|]. intro H. specialize (A2 H). destruct Ku as (s' & Es & Ps).
  exists s'. split; [exact Es|]. unfold R in A2. rewrite Es in A2. destruct A2 as (B1 & B2 & B3).
  split; [exact B1|]. auto.
Qed.

(** A patch of a slot that lost its bytes does nothing. *)
Lemma set8_null s c v i : us_null s = true -> set8 (mkUnit (Some s) c) v i = Ok (ERR_DATASTORAGE_EMPTY, mkUnit (Some s) c).
Proof. intro N. unfold set8, the_store. cbn [cu_store bind]. rewrite N. reflexivity. Qed.
Lemma set_bytes_null s c l : us_null s = true -> forall e i, exists e', set_bytes (mkUnit (Some s) c) e l i = Ok (e', mkUnit (Some s) c).
Proof.
  intro N. induction l as [|b t IH]; intros e i; cbn [set_bytes]; [eauto|].
  rewrite set8_null by exact N. cbn [bind]. apply IH.
Qed.
Lemma patch_null s c o : us_null s = true -> patches o = true ->
  exists e, run_op orc (mkUnit (Some s) c) o = Ok (e, mkUnit (Some s) c).
Proof.
  intros N H. destruct o; cbn [patches] in H; try discriminate; cbn [run_op].
  - rewrite set8_null by exact N. eauto.
  - apply set_bytes_null. exact N.
  - apply set_bytes_null. exact N.
  - unfold the_store. cbn [cu_store bind]. apply set_bytes_null. exact N.
Qed.
End P.

(** ** The storage and the records *)
Section Rel.
Variable orc : nat -> option (nat -> Z).
Variable moves : nat -> option bool.
Notation total_moves := (forall n, moves n <> None).

Definition unit_rep (order : list nat) (h : nat) (q : option (option (option (nat * bool)))) (r : srec) : Prop :=
  if r_alive r then
    match q with
    | Some (Some None) => r_bytes r = None /\ r_kept r = false
    | Some (Some (Some (i, k))) => nth_error order i = Some h /\ k = r_kept r
    | _ => False
    end
  else True.
Definition kept_len (r : srec) : Z := if r_kept r then zlen (bytes_of r) else 0.
Fixpoint sumz (l : list Z) : Z := match l with [] => 0 | x :: t => x + sumz t end.
Definition Rel (p : pool) (st : sst) : Prop :=
  length (p_units p) = length (s_recs st)
  /\ NoDup (s_order st)
  /\ (forall h, In h (s_order st) -> (h < length (s_recs st))%nat)
  /\ (forall h, unit_rep (s_order st) h (nth_error (p_units p) h) (the_rec st h))
  /\ Forall2 (slot_rep orc) (p_slots p) (map (the_rec st) (s_order st))
  /\ p_total p = sumz (map (fun h => kept_len (the_rec st h)) (s_order st)).

Lemma the_rec_set st h r k : (h < length (s_recs st))%nat ->
  the_rec (set_rec st h r) k = if Nat.eqb k h then r else the_rec st k.
Proof.
  intro H. unfold the_rec, set_rec. cbn [s_recs]. rewrite <- upd_split by exact H.
  destruct (Nat.eqb_spec k h) as [->|N]; [apply upd_nth_same; exact H|apply upd_nth_other; auto].
Qed.
Lemma set_rec_length st h r : (h < length (s_recs st))%nat -> length (s_recs (set_rec st h r)) = length (s_recs st).
Proof. intro H. unfold set_rec. cbn [s_recs]. rewrite <- upd_split by exact H. apply upd_length. Qed.
Lemma alive_lt st h : r_alive (the_rec st h) = true -> (h < length (s_recs st))%nat.
Proof.
  unfold the_rec. intro H. destruct (Nat.lt_ge_cases h (length (s_recs st))) as [L|L]; [exact L|].
  rewrite nth_overflow in H by exact L. discriminate H.
Qed.
Lemma nth_error_upd {A} (l : list A) : forall i j v,
  nth_error (upd i v l) j = if (Nat.eqb j i && Nat.ltb i (length l))%bool then Some v else nth_error l j.
Proof.
  induction l as [|x t IH]; intros [|i] [|j] v; cbn [upd nth_error length Nat.eqb andb]; auto.
  - destruct (Nat.eqb j i); reflexivity.
  - rewrite IH. reflexivity.
Qed.

Lemma Forall2_nth {A B} (P : A -> B -> Prop) l m : Forall2 P l m -> forall i y, nth_error m i = Some y ->
  exists x, nth_error l i = Some x /\ P x y.
Proof.
  induction 1; intros [|i] z E; cbn [nth_error] in *; try discriminate.
  - injection E as <-. eauto.
  - eauto.
Qed.
(** One record and its slot change; [NoDup] keeps the others. *)
Lemma Forall2_set (P : slot -> srec -> Prop) st h r x : forall order slots i,
  NoDup order -> (h < length (s_recs st))%nat ->
  Forall2 P slots (map (the_rec st) order) -> nth_error order i = Some h -> P x r ->
  Forall2 P (upd i x slots) (map (the_rec (set_rec st h r)) order).
Proof.
  induction order as [|k order IH]; intros slots i N L F E Q; cbn [map] in *.
  - destruct i; discriminate.
  - inversion F as [|y z t m F1 F2]; subst. inversion N as [|? ? N1 N2]; subst. destruct i as [|i]; cbn [upd nth_error] in *.
    + injection E as ->. constructor.
      * rewrite the_rec_set, Nat.eqb_refl by exact L. exact Q.
      * replace (map (the_rec (set_rec st h r)) order) with (map (the_rec st) order); [exact F2|].
        apply map_ext_in. intros k Hk. rewrite the_rec_set by exact L.
        destruct (Nat.eqb_spec k h) as [->|]; [contradiction|reflexivity].
    + constructor; [|apply IH; auto].
      rewrite the_rec_set by exact L. destruct (Nat.eqb_spec k h) as [->|]; [|exact F1].
      apply nth_error_In in E. contradiction.
Qed.
Lemma sum_same st h r order : (h < length (s_recs st))%nat -> kept_len r = kept_len (the_rec st h) ->
  map (fun k => kept_len (the_rec (set_rec st h r) k)) order = map (fun k => kept_len (the_rec st k)) order.
Proof.
  intros L E. apply map_ext. intro k. rewrite the_rec_set by exact L.
  destruct (Nat.eqb_spec k h) as [->|]; auto.
Qed.

(** The code of a step when memory is never refused. *)
Definition pop_code (st : sst) (a : pop) : Z :=
  match a with PDo h o => op_code (r_bytes (the_rec st h)) o | _ => 0 end.
(** When memory may be refused: records are made one by one, and only records that are still
    being made are appended. *)
Definition orderly (st : sst) (a : pop) : Prop :=
  match a with
  | PDo h _ => r_bytes (the_rec st h) = None -> finished st
  | PAppend _ j => r_kept (the_rec st j) = false
  | _ => True
  end.
Definition step_post (st : sst) (a : pop) (r : res (Z * pool)) : Prop :=
  match r with
  | UB => False
  | Throw => ~ (orc_total orc /\ total_moves)
  | Ok (e, p') => (e = pop_code st a \/ ~ orc_total orc) /\ (e = pop_code st a -> Rel p' (spec_pop st a))
  end.

Lemma grow_rel p st : Rel p st -> orc_total orc \/ finished st ->
  match grow orc moves p with
  | UB => False
  | Throw => ~ (orc_total orc /\ total_moves)
  | Ok q => Rel q st /\ p_units q = p_units p
  end.
Proof.
  intros (A & B & C & D & E & F) T. unfold grow.
  destruct (moves (length (p_slots p))) as [[]|] eqn:M.
  - assert (T' : orc_total orc \/ Forall (fun r => r_kept r = true) (map (the_rec st) (s_order st))).
    { destruct T as [T|T]; [auto|]. right. apply Forall_forall. intros r Hr. apply in_map_iff in Hr.
      destruct Hr as (h & <- & Hh). apply T. exact Hh. }
    pose proof (copy_slots_rep orc (p_slots p) (p_cnt p) _ E T') as G.
    destruct (copy_slots orc (p_cnt p) (p_slots p)) as [[l c]| |]; cbn [bind]; [|tauto|exact G].
    split; [|reflexivity]. repeat (split; [assumption|]). assumption.
  - split; [|reflexivity]. repeat (split; [assumption|]). assumption.
  - intros (_ & H). exact (H _ M).
Qed.

Lemma order_slot p st i h : Rel p st -> nth_error (s_order st) i = Some h ->
  exists x, nth_error (p_slots p) i = Some x /\ slot_rep orc x (the_rec st h).
Proof.
  intros (A & B & C & D & E & F) H. apply (Forall2_nth _ _ _ E).
  apply map_nth_error. exact H.
Qed.
Lemma slot_at_ok p i x r : nth_error (p_slots p) i = Some x -> slot_rep orc x r -> slot_at p i = Ok x.
Proof. intros H (L & _). unfold slot_at. rewrite H, L. reflexivity. Qed.
Lemma order_len p st : Rel p st -> length (p_slots p) = length (s_order st).
Proof.
  intros (A & B & C & D & E & F). transitivity (length (map (the_rec st) (s_order st))); [|apply map_length].
  induction E; cbn [length]; congruence.
Qed.

(** A record that has a slot changes. *)
Lemma rel_set p st h i k x r c : Rel p st -> (h < length (s_recs st))%nat ->
  nth_error (p_units p) h = Some (Some (Some (i, k))) -> nth_error (s_order st) i = Some h ->
  slot_rep orc x r -> r_kept r = k -> kept_len r = kept_len (the_rec st h) ->
  Rel (mkPool (upd i x (p_slots p)) (p_total p) (p_units p) c) (set_rec st h r).
Proof.
  intros (A & B & C & D & E & F) L U O S Kp Z.
  split; [cbn [p_units]; rewrite set_rec_length by exact L; exact A|]. split; [exact B|].
  split; [intros g Hg; rewrite set_rec_length by exact L; apply C; exact Hg|].
  split.
  { intro g. cbn [p_units]. rewrite the_rec_set by exact L. destruct (Nat.eqb_spec g h) as [->|N]; [|apply D].
    unfold unit_rep. destruct (r_alive r); [|exact I]. rewrite U. cbn [set_rec s_order]. auto. }
  split; [cbn [p_slots set_rec s_order]; apply Forall2_set; auto|].
  cbn [p_total set_rec s_order]. rewrite F. f_equal. symmetry. apply sum_same; auto.
Qed.

Lemma patch_len l o : patches o = true -> zlen (spec_op l o) = zlen l.
Proof.
  assert (Q : forall bs l i, zlen (overwrite l i bs) = zlen l).
  { induction bs as [|b t IH]; intros m i; cbn [overwrite]; [reflexivity|]. rewrite IH.
    destruct (Nat.ltb_spec i (length m)); [|reflexivity]. unfold zlen.
    rewrite app_length, firstn_length. cbn [length]. rewrite skipn_length. lia. }
  destruct o; cbn [patches]; intro H; try discriminate; cbn [spec_op]; apply Q.
Qed.

Lemma step_do p st h o : Rel p st -> pop_typed st (PDo h o) -> orc_total orc \/ orderly st (PDo h o) ->
  step_post st (PDo h o) (do_op orc moves p h o).
Proof.
  intros RL (Ha & Ht & Ho & Hk & Hz) T. pose proof RL as (A & B & C & D & E & F).
  pose proof (alive_lt _ _ Ha) as L. pose proof (D h) as Dh. unfold unit_rep in Dh. rewrite Ha in Dh.
  unfold do_op, fetch. destruct (nth_error (p_units p) h) as [[[[i k]|]|]|] eqn:U; try contradiction; cbn [bind].
  - (* it has a slot *)
    destruct Dh as (O & ->). destruct (order_slot _ _ _ _ RL O) as (x & X & S).
    rewrite (slot_at_ok _ _ _ _ X S). cbn [bind]. pose proof S as (S1 & S2 & l & S3 & S4 & S5).
    unfold bytes_of in Ht, Hz. rewrite S3 in Ht, Hz.
    destruct S5 as [G|(Kp & I & N & NT)].
    + pose proof (good_op orc _ _ (p_cnt p) o G Ht ltac:(rewrite LIM_val; exact Hz)) as Q.
      destruct (run_op orc _ o) as [[e u]| |]; cbn [bind]; [|unfold step_post; tauto|contradiction].
      destruct Q as (Q1 & Q2 & Q3). destruct (put_ok p i x u Q1) as (s' & P1 & P2 & ->). cbn [bind].
      unfold step_post, pop_code. rewrite S3. split; [exact Q2|]. intro Q. destruct (Q3 Q) as (s2 & Q4 & Q5).
      rewrite P1 in Q4. injection Q4 as <-.
      unfold spec_pop. rewrite S3. unfold bytes_of. rewrite S3.
      eapply rel_set; eauto.
      * split; [exact S1|]. split; [exact S2|]. exists (spec_op l o). cbn [r_bytes]. split; [reflexivity|].
        split; [rewrite LIM_val; exact Hz|]. left. exact Q5.
      * unfold kept_len, bytes_of. cbn [r_kept r_bytes]. rewrite S3. destruct (r_kept (the_rec st h)) eqn:Kh; [|reflexivity].
        apply patch_len. auto.
    + destruct (patch_null orc (sl_store x) (p_cnt p) o N (Hk Kp)) as (e & ->). cbn [bind].
      unfold put. cbn [cu_store bind cu_cnt].
      unfold step_post. split; [right; exact NT|]. intros _. unfold spec_pop. rewrite S3. unfold bytes_of. rewrite S3.
      eapply rel_set; eauto.
      * split; [exact S1|]. split; [exact S2|]. exists (spec_op l o). cbn [r_bytes]. split; [reflexivity|].
        split; [rewrite LIM_val; exact Hz|]. right. cbn [r_kept sl_store]. auto.
      * unfold kept_len, bytes_of. cbn [r_kept r_bytes]. rewrite S3, Kp. apply patch_len. auto.
  - (* it has none *)
    destruct Dh as (Bn & Kn). specialize (Ho Bn).
    assert (Hr : requests o = true) by (destruct o; cbn in *; congruence). rewrite Hr.
    assert (T' : orc_total orc \/ finished st) by (destruct T as [T|T]; [auto|right; apply T; exact Bn]).
    pose proof (grow_rel p st RL T') as G. destruct (grow orc moves p) as [q| |]; cbn [bind]; [|exact G|contradiction].
    destruct G as (RQ & UQ). unfold bytes_of in Ht, Hz. rewrite Bn in Ht, Hz.
    pose proof (op_sim orc (mkUnit None (p_cnt q)) None o I) as Q. unfold sim_post in Q.
    assert (Q0 : exists e, arun_op None o = Ok (e, Some (spec_op [] o))).
    { destruct (ops_agree_new o [] Ho (conj Ht I)) as (es & Es). cbn [arun_ops] in Es.
      destruct (arun_op None o) as [[e [b|]]| |]; cbn [bind] in Es; try discriminate.
      injection Es as _ Eb. rewrite Eb. exists e. reflexivity. }
    destruct Q0 as (e0 & Q0). unfold step_post, pop_code, op_code. rewrite Bn, Q0 in *.
    specialize (Q ltac:(rewrite LIM_val; exact Hz)).
    destruct (run_op orc (mkUnit None (p_cnt q)) o) as [[e u]| |] eqn:Ru; cbn [bind]; [|tauto|contradiction].
    destruct Q as (Q1 & Q2). pose proof (run_op_none orc (mkUnit None (p_cnt q)) _ _ _ eq_refl Ru) as (_ & Kc).
    unfold R in Q2. destruct (cu_store u) as [s|] eqn:Cs.
    2:{ split; [exact Q1|]. intro H. destruct (Q2 H). }
    split; [exact Q1|]. intro H. specialize (Q2 H). destruct Q2 as (Q3 & Q4 & Q5).
    destruct Kc as [Kc|(s' & Es & Ps)]; [discriminate|]. rewrite Cs in Es. injection Es as <-.
    pose proof RQ as (A' & B' & C' & D' & E' & F').
    assert (NI : ~ In h (s_order st)).
    { intro Hi. apply In_nth_error in Hi. destruct Hi as (i & Hi).
      destruct (order_slot _ _ _ _ RL Hi) as (x & _ & _ & _ & l & Hl & _). congruence. }
    unfold spec_pop. rewrite Bn. unfold bytes_of. rewrite Bn. set (r' := mkSr _ _ _).
    assert (Same : forall g, In g (s_order st) -> the_rec (set_rec st h r') g = the_rec st g).
    { intros g Hg. rewrite the_rec_set by exact L. destruct (Nat.eqb_spec g h) as [->|]; [contradiction|reflexivity]. }
    assert (Tr : forall g, the_rec (mkSs (s_recs (set_rec st h r')) (s_order (set_rec st h r') ++ [h])) g = the_rec (set_rec st h r') g) by reflexivity.
    split; [cbn [p_units s_recs]; rewrite upd_length, UQ; rewrite (set_rec_length st h r' L); exact A|].
    split.
    { cbn [s_order set_rec]. apply NoDup_Add with (a := h) (l := s_order st); [|split; assumption].
      rewrite <- (app_nil_r (s_order st)) at 1. apply Add_app. }
    split.
    { intros g Hg. cbn [s_recs s_order set_rec] in *. change (firstn h (s_recs st) ++ r' :: skipn (S h) (s_recs st)) with (s_recs (set_rec st h r')).
      rewrite set_rec_length by exact L. apply in_app_or in Hg. destruct Hg as [Hg|[<-|[]]]; [apply C; exact Hg|exact L]. }
    split.
    { intro g. rewrite Tr. cbn [p_units s_order set_rec]. rewrite the_rec_set by exact L.
      rewrite nth_error_upd. destruct (Nat.eqb_spec g h) as [->|N].
      - assert (Lh : Nat.ltb h (length (p_units q)) = true) by (apply Nat.ltb_lt; rewrite UQ, A; exact L).
        rewrite Lh. cbn [andb]. unfold unit_rep, r'. cbn [r_alive r_kept r_bytes]. rewrite Ha.
        split; [|symmetry; exact Kn]. rewrite nth_error_app2 by (rewrite (order_len _ _ RQ); lia).
        rewrite (order_len _ _ RQ), Nat.sub_diag. reflexivity.
      - cbn [andb]. specialize (D' g). unfold unit_rep in *. destruct (r_alive (the_rec st g)); [|exact I].
        destruct (nth_error (p_units q) g) as [[[[i k]|]|]|]; try exact D'.
        destruct D' as (D1 & D2). split; [|exact D2]. rewrite nth_error_app1; [exact D1|].
        apply nth_error_Some. congruence. }
    split.
    { cbn [p_slots s_order set_rec]. rewrite map_app. apply Forall2_app.
      - match goal with |- Forall2 _ _ ?m => replace m with (map (the_rec st) (s_order st)); [exact E'|] end.
        apply map_ext_in. intros g Hg. rewrite Tr. symmetry. apply Same. exact Hg.
      - constructor; [|constructor]. rewrite Tr, the_rec_set, Nat.eqb_refl by exact L.
        unfold r'. split; [reflexivity|]. split; [cbn [sl_sticky r_kept]; auto|].
        exists (spec_op [] o). split; [reflexivity|]. split; [rewrite LIM_val; exact Hz|]. left. split; [exact Q3|]. auto. }
    cbn [p_total s_order set_rec]. rewrite F'. rewrite map_app.
    assert (Sm : forall a b, sumz (a ++ b) = sumz a + sumz b).
    { induction a as [|y t IH]; intro b; cbn [app sumz]; [reflexivity|]. rewrite IH. lia. }
    rewrite Sm. cbn [map sumz]. rewrite Tr, the_rec_set, Nat.eqb_refl by exact L.
    assert (Kr : kept_len r' = 0) by (unfold kept_len, r'; cbn [r_kept]; rewrite Kn; reflexivity). rewrite Kr.
    match goal with |- sumz ?a = sumz ?b + _ => replace b with a; [lia|] end.
    apply map_ext_in. intros g Hg. transitivity (kept_len (the_rec (set_rec st h r') g)); [|reflexivity].
    rewrite Same by exact Hg. reflexivity.
Qed.

Lemma step_append p st h j : Rel p st -> pop_typed st (PAppend h j) -> orc_total orc \/ orderly st (PAppend h j) ->
  step_post st (PAppend h j) (do_append orc p h j).
Proof.
  intros RL (Ha & Ja & Hk & Hb & Jb & Jf & Hz) T. pose proof RL as (A & B & C & D & E & F).
  pose proof (alive_lt _ _ Ha) as L.
  pose proof (D h) as Dh. unfold unit_rep in Dh. rewrite Ha in Dh.
  pose proof (D j) as Dj. unfold unit_rep in Dj. rewrite Ja in Dj.
  unfold do_append, fetch.
  destruct (nth_error (p_units p) h) as [[[[i k]|]|]|] eqn:U; try contradiction; [|destruct (Hb (proj1 Dh))].
  destruct (nth_error (p_units p) j) as [[[[i' k']|]|]|] eqn:U'; try contradiction; [|destruct (Jb (proj1 Dj))].
  cbn [bind]. destruct Dh as (O & Ek). destruct Dj as (O' & Ek').
  destruct (order_slot _ _ _ _ RL O) as (x & X & S). destruct (order_slot _ _ _ _ RL O') as (y & Y & Sy).
  rewrite (slot_at_ok _ _ _ _ X S), (slot_at_ok _ _ _ _ Y Sy). cbn [bind].
  pose proof S as (S1 & S2 & l & S3 & S4 & S5). pose proof Sy as (Y1 & Y2 & m & Y3 & Y4 & Y5).
  destruct S5 as [G|(Kp & _)]; [|congruence].
  destruct Y5 as [Gy|(Kp & _ & _ & NT)].
  2:{ destruct T as [T|T]; [destruct (NT T)|]. cbn [orderly] in T. congruence. }
  unfold bytes_of in Hz, Jf. rewrite S3, Y3 in Hz. rewrite Y3 in Jf. rewrite zlen_app in Hz.
  pose proof G as (I & N & Cl & P). pose proof Gy as (Iy & Ny & Cy & Py).
  pose proof (cont_zlen _ I N) as Zl. rewrite Cl in Zl. pose proof (cont_zlen _ Iy Ny) as Zm. rewrite Cy in Zm.
  rewrite <- Zm. pose proof (zlen_nonneg _ m) as Nm.
  pose proof (ensure_spec orc (mkUnit (Some (sl_store x)) (p_cnt p)) _ (zlen m) eq_refl I Nm) as Q.
  destruct (ensure orc (mkUnit (Some (sl_store x)) (p_cnt p)) (zlen m)) as [[e u]| |] eqn:Eu; cbn [bind]; [|congruence|contradiction].
  pose proof (ensure_K orc _ _ _ _ Eu (K_of _ _ P)) as Ku.
  destruct (put_ok p i x u Ku) as (s1 & P1 & P2 & ->). cbn [bind].
  destruct Q as (s1' & Q1 & Q2 & Q3 & Q4 & Q5). rewrite P1 in Q1. injection Q1 as <-.
  destruct (e =? NO_ERRORS) eqn:Ee; unfold NO_ERRORS in Ee; cbn [negb].
  2:{ unfold step_post, pop_code. destruct Q4 as [Q4|(Q4 & NT)]; [lia|]. split; [right; exact NT|]. intro; lia. }
  assert (e = 0) by lia. subst e. destruct (Q5 eq_refl) as (Q6 & Q7 & Q8). specialize (Q7 N).
  assert (Li : (i < length (p_slots p))%nat) by (apply nth_error_Some; congruence).
  unfold slot_at. cbn [p_slots]. rewrite nth_error_upd, Nat.eqb_refl.
  rewrite (proj2 (Nat.ltb_lt _ _) Li). cbn [andb sl_live xl_assert]. rewrite S1. cbn [xl_assert bind sl_store].
  assert (W : exists y1, nth_error (upd i (mkSlot true (sl_sticky x) s1) (p_slots p)) i' = Some y1
             /\ sl_live y1 = true /\ us_null (sl_store y1) = false
             /\ zlen m <= zlen (us_buf (sl_store y1)) /\ firstn (Z.to_nat (zlen m)) (us_buf (sl_store y1)) = m).
  { rewrite nth_error_upd, (proj2 (Nat.ltb_lt _ _) Li). destruct (Nat.eqb_spec i' i) as [->|Ni]; cbn [andb].
    - eexists. split; [reflexivity|]. split; [reflexivity|]. cbn [sl_store]. split; [exact Q7|].
      rewrite Y in X. injection X as ->. split; [lia|]. rewrite Zm, <- Q3. rewrite <- Cy. exact Q8.
    - exists y. split; [exact Y|]. split; [exact Y1|]. split; [exact Ny|]. pose proof Iy as (_ & _ & _ & Hl).
      specialize (Hl Ny). split; [lia|]. rewrite Zm. exact Cy. }
  destruct W as (y1 & W1 & W2 & W3 & W4 & W5). rewrite W1, W2. cbn [xl_assert bind]. rewrite W3.
  replace (zlen (us_buf (sl_store y1)) <? zlen m) with false by lia. rewrite W5.
  pose proof (add_array_spec orc (mkUnit (Some s1) (cu_cnt u)) s1 m eq_refl Q2) as V. unfold append_post in V.
  rewrite (map_byte_id _ Jf) in V. cbn [p_cnt].
  destruct (add_array orc (mkUnit (Some s1) (cu_cnt u)) m) as [[e2 u2]| |] eqn:Eu2; cbn [bind]; [| |contradiction].
  2:{ unfold step_post. destruct V as [V|[V|V]]; [congruence|rewrite LIM_val in V; lia|tauto]. }
  pose proof (add_array_K orc _ _ _ _ Eu2 (K_of _ _ P2)) as K2.
  set (p1 := mkPool _ _ _ _). set (x1 := mkSlot true _ s1).
  destruct (put_ok p1 i x1 u2 K2) as (s2 & P3 & P4 & ->). cbn [bind].
  destruct V as (V1 & V2 & V3). unfold step_post, pop_code. split; [tauto|]. intro E2.
  destruct (V3 E2 Q7 ltac:(rewrite LIM_val; lia)) as (s3 & V4 & V5 & V6 & V7). rewrite P3 in V4. injection V4 as <-.
  unfold spec_pop, bytes_of. rewrite S3, Y3.
  assert (UU : upd i (mkSlot (sl_live x1) (sl_sticky x1) s2) (p_slots p1) = upd i (mkSlot true (sl_sticky x) s2) (p_slots p)).
  { unfold p1, x1. cbn [p_slots sl_live sl_sticky]. clear. revert i. induction (p_slots p) as [|z t IH]; intros [|i]; cbn [upd]; auto.
    rewrite IH. reflexivity. }
  rewrite UU. change (p_total p1) with (p_total p). change (p_units p1) with (p_units p).
  eapply rel_set; eauto.
  - split; [reflexivity|]. split; [exact S2|]. exists (l ++ m). split; [reflexivity|].
    split; [rewrite LIM_val, zlen_app; exact Hz|]. left. split; [exact V5|]. split; [exact V6|]. split; [|exact P4].
    cbn [sl_store]. rewrite V7, Q8, Cl. reflexivity.
  - unfold kept_len. cbn [r_kept]. rewrite Hk. reflexivity.
Qed.

Lemma last_pos (l : list nat) i h : NoDup l -> nth_error l i = Some h -> last l O = h ->
  S i = length l /\ exists t, l = t ++ [h] /\ ~ In h t.
Proof.
  intros N E La. destruct l as [|a l] using rev_ind; [destruct i; discriminate|]. clear IHl.
  rewrite last_last in La. subst a. rewrite app_length. cbn [length].
  assert (NI : ~ In h l). { apply NoDup_remove_2 in N. rewrite app_nil_r in N. exact N. }
  split; [|eauto]. destruct (Nat.lt_ge_cases i (length l)) as [L|L].
  - rewrite nth_error_app1 in E by exact L. apply nth_error_In in E. contradiction.
  - assert (i < length (l ++ [h]))%nat by (apply nth_error_Some; congruence).
    rewrite app_length in H. cbn [length] in H. lia.
Qed.
Lemma sumz_app a : forall b, sumz (a ++ b) = sumz a + sumz b.
Proof. induction a as [|y t IH]; intro b; cbn [app sumz]; [reflexivity|]. rewrite IH. lia. Qed.

Lemma step_keep p st h : Rel p st -> pop_typed st (PKeep h) ->
  step_post st (PKeep h) (let* q := do_keep p h in Ok (NO_ERRORS, q)).
Proof.
  intros RL (Ha & Hk & Hb & La). pose proof RL as (A & B & C & D & E & F).
  pose proof (alive_lt _ _ Ha) as L.
  pose proof (D h) as Dh. unfold unit_rep in Dh. rewrite Ha in Dh.
  unfold do_keep, fetch.
  destruct (nth_error (p_units p) h) as [[[[i k]|]|]|] eqn:U; try contradiction; [|destruct (Hb (proj1 Dh))].
  cbn [bind]. destruct Dh as (O & ->). rewrite Hk.
  destruct (last_pos _ _ _ B O La) as (Si & t & Et & Nt).
  rewrite (order_len _ _ RL), Si, Nat.eqb_refl. cbn [xl_assert bind].
  destruct (order_slot _ _ _ _ RL O) as (x & X & S).
  rewrite (slot_at_ok _ _ _ _ X S). cbn [bind].
  pose proof S as (S1 & S2 & l & S3 & S4 & S5). destruct S5 as [G|(Kp & _)]; [|congruence].
  pose proof G as (I & N & Cl & P). pose proof (cont_zlen _ I N) as Zl. rewrite Cl in Zl.
  unfold step_post, pop_code. split; [left; reflexivity|]. intros _. unfold spec_pop. set (r' := mkSr _ _ _).
  split; [cbn [p_units]; rewrite upd_length, set_rec_length by exact L; exact A|]. split; [exact B|].
  split; [intros g Hg; rewrite set_rec_length by exact L; apply C; exact Hg|].
  split.
  { intro g. cbn [p_units set_rec s_order]. rewrite the_rec_set by exact L. rewrite nth_error_upd.
    destruct (Nat.eqb_spec g h) as [->|Ng]; [|apply D].
    rewrite (proj2 (Nat.ltb_lt h (length (p_units p)))) by (rewrite A; exact L). cbn [andb].
    unfold unit_rep, r'. cbn [r_alive r_kept]. rewrite Ha. auto. }
  split.
  { cbn [p_slots set_rec s_order]. apply Forall2_set; auto. unfold r'. split; [reflexivity|]. split; [reflexivity|].
    exists l. split; [exact S3|]. split; [exact S4|]. left. exact G. }
  cbn [p_total]. change (s_order (set_rec st h r')) with (s_order st). rewrite F, Et, !map_app, !sumz_app. cbn [map sumz].
  assert (Sa : map (fun g => kept_len (the_rec st g)) t = map (fun g => kept_len (the_rec (set_rec st h r') g)) t).
  { apply map_ext_in. intros g Hg. rewrite the_rec_set by exact L. destruct (Nat.eqb_spec g h) as [->|]; [contradiction|reflexivity]. }
  rewrite Sa. rewrite the_rec_set, Nat.eqb_refl by exact L.
  assert (K1 : kept_len r' = zlen l) by (unfold kept_len, bytes_of, r'; cbn [r_kept r_bytes]; rewrite S3; reflexivity).
  assert (K0 : kept_len (the_rec st h) = 0) by (unfold kept_len; rewrite Hk; reflexivity).
  rewrite K1, K0. lia.
Qed.

Lemma step_drop p st h : Rel p st -> pop_typed st (PDrop h) ->
  step_post st (PDrop h) (let* q := do_drop p h in Ok (NO_ERRORS, q)).
Proof.
  intros RL (Ha & Hk). pose proof RL as (A & B & C & D & E & F).
  pose proof (alive_lt _ _ Ha) as L.
  pose proof (D h) as Dh. unfold unit_rep in Dh. rewrite Ha in Dh.
  assert (W : Rel (mkPool (p_slots p) (p_total p) (upd h None (p_units p)) (p_cnt p)) (spec_pop st (PDrop h))).
  { unfold spec_pop. set (r' := mkSr _ _ _).
    assert (Sr : forall x g, slot_rep orc x (the_rec st g) -> slot_rep orc x (the_rec (set_rec st h r') g)).
    { intros x g Hx. rewrite the_rec_set by exact L. destruct (Nat.eqb_spec g h) as [->|]; exact Hx. }
    split; [cbn [p_units]; rewrite upd_length, set_rec_length by exact L; exact A|]. split; [exact B|].
    split; [intros g Hg; rewrite set_rec_length by exact L; apply C; exact Hg|].
    split.
    { intro g. cbn [p_units set_rec s_order]. rewrite the_rec_set by exact L. rewrite nth_error_upd.
      destruct (Nat.eqb_spec g h) as [->|Ng]; [|apply D]. unfold unit_rep, r'. cbn [r_alive]. exact I. }
    split.
    { cbn [p_slots]. change (s_order (set_rec st h r')) with (s_order st). clear - E Sr.
      revert E. generalize (p_slots p). induction (s_order st) as [|g t IH]; intros sl E; inversion E; subst; cbn [map]; constructor; auto. }
    cbn [p_total]. rewrite F. f_equal. symmetry. apply sum_same; [exact L|]. reflexivity. }
  unfold do_drop, fetch.
  destruct (nth_error (p_units p) h) as [[[[i k]|]|]|] eqn:U; try contradiction; cbn [bind].
  - destruct Dh as (O & ->). destruct (order_slot _ _ _ _ RL O) as (x & X & S).
    rewrite (slot_at_ok _ _ _ _ X S). cbn [bind]. pose proof S as (S1 & S2 & l & S3 & _).
    destruct Hk as [Hk|Hk]; [|congruence]. rewrite S2, Hk. cbn [Bool.eqb xl_assert bind].
    unfold step_post, pop_code. split; [left; reflexivity|]. intros _. exact W.
  - unfold step_post, pop_code. split; [left; reflexivity|]. intros _. exact W.
Qed.

Lemma step_make p st : Rel p st ->
  Rel (mkPool (p_slots p) (p_total p) (p_units p ++ [Some None]) (p_cnt p)) (spec_pop st PMake).
Proof.
  intros (A & B & C & D & E & F). cbn [spec_pop]. set (st' := mkSs _ _).
  assert (Tr : forall g, (g < length (s_recs st))%nat -> the_rec st' g = the_rec st g).
  { intros g Hg. unfold the_rec, st'. cbn [s_recs]. rewrite app_nth1 by exact Hg. reflexivity. }
  split; [cbn [p_units st' s_recs]; rewrite !app_length, A; reflexivity|]. split; [exact B|].
  split; [intros g Hg; unfold st'; cbn [s_recs]; rewrite app_length; specialize (C g Hg); lia|].
  split.
  { intro g. cbn [p_units]. destruct (Nat.lt_ge_cases g (length (s_recs st))) as [L|L].
    - rewrite Tr by exact L. rewrite nth_error_app1 by (rewrite A; exact L). apply D.
    - unfold the_rec, st'. cbn [s_recs]. rewrite app_nth2 by exact L.
      rewrite nth_error_app2 by (rewrite A; exact L). rewrite A.
      destruct (g - length (s_recs st))%nat as [|n]; [split; reflexivity|].
      destruct n; exact I. }
  assert (Em : forall (X : Type) (f : srec -> X), map (fun g => f (the_rec st' g)) (s_order st) = map (fun g => f (the_rec st g)) (s_order st)).
  { intros X f. apply map_ext_in. intros g Hg. rewrite Tr by (apply C; exact Hg). reflexivity. }
  split; [change (Forall2 (slot_rep orc) (p_slots p) (map (fun g => the_rec st' g) (s_order st))); rewrite (Em _ (fun r => r)); exact E|].
  change (p_total p = sumz (map (fun g => kept_len (the_rec st' g)) (s_order st))). rewrite F, (Em _ kept_len). reflexivity.
Qed.

Lemma step_rel p st a : Rel p st -> pop_typed st a -> orc_total orc \/ orderly st a ->
  step_post st a (do_pop orc moves p a).
Proof.
  intros RL Ht T. destruct a as [|h o|h j|h|h]; cbn [do_pop].
  - split; [left; reflexivity|]. intros _. apply step_make. exact RL.
  - apply step_do; auto.
  - apply step_append; auto.
  - apply step_keep; auto.
  - apply step_drop; auto.
Qed.

Fixpoint pop_codes (st : sst) (l : list pop) : list Z :=
  match l with [] => [] | a :: t => pop_code st a :: pop_codes (spec_pop st a) t end.

Lemma run_rel l : forall p st, Rel p st -> pops_typed st l -> orc_total orc \/ one_by_one st l ->
  match run_pops orc moves p l with
  | UB => True
  | Throw => ~ (orc_total orc /\ total_moves)
  | Ok (es, q) => (es = pop_codes st l \/ ~ orc_total orc) /\ (es = pop_codes st l -> Rel q (spec_pops st l))
  end /\ (orc_total orc -> run_pops orc moves p l <> UB).
Proof.
  induction l as [|a t IH]; intros p st RL Ht T; cbn [run_pops pop_codes].
  - split; [|discriminate]. split; [left; reflexivity|]. intros _. exact RL.
  - destruct Ht as (Ht1 & Ht2).
    assert (T1 : orc_total orc \/ orderly st a) by (destruct T as [T|[T _]]; auto).
    assert (T2 : orc_total orc \/ one_by_one (spec_pop st a) t) by (destruct T as [T|[_ T]]; auto).
    pose proof (step_rel p st a RL Ht1 T1) as S. unfold step_post in S.
    destruct (do_pop orc moves p a) as [[e p1]| |]; cbn [bind]; [|split; [exact S|discriminate]|contradiction].
    destruct S as (S1 & S2).
    destruct (Z.eq_dec e (pop_code st a)) as [Ee|Ne].
    + destruct (IH p1 _ (S2 Ee) Ht2 T2) as (J & J').
      destruct (run_pops orc moves p1 t) as [[es q]| |]; cbn [bind]; [| |split; [exact I|exact J']].
      * split; [|discriminate]. destruct J as (J1 & J2). subst e. split.
        -- destruct J1 as [->|J1]; auto.
        -- intro H. injection H as H. exact (J2 H).
      * split; [exact J|discriminate].
    + destruct S1 as [S1|NT]; [contradiction|].
      split; [|intro X; destruct (NT X)].
      destruct (run_pops orc moves p1 t) as [[es q]| |]; cbn [bind]; [|tauto|exact I].
      split; [right; exact NT|]. intro H. injection H as H _. contradiction.
Qed.

Lemma rel_new : Rel pool_new s_new.
Proof.
  split; [reflexivity|]. split; [constructor|]. split; [intros h []|]. split.
  - intro h. unfold the_rec. cbn. destruct h; exact I.
  - split; [constructor|reflexivity].
Qed.

(** What the storage writes and what a unit shows. *)
Lemma stream_rel p st : Rel p st ->
  match pool_stream (p_slots p) with
  | UB => False
  | Throw => ~ orc_total orc
  | Ok b => b = spec_stream st
  end.
Proof.
  intros (A & B & C & D & E & F). unfold spec_stream. clear - E. revert E. generalize (p_slots p).
  induction (s_order st) as [|h t IH]; intros sl E; inversion E as [|x r sl' rs S E']; subst; cbn [pool_stream flat_map]; [reflexivity|].
  destruct S as (S1 & S2 & l & S3 & S4 & S5). rewrite S1. cbn [xl_assert bind].
  destruct S5 as [(I & N & Cl & P)|(Kp & I & N & NT)]; rewrite N; cbn [negb xl_assert bind]; [|exact NT].
  pose proof I as (_ & _ & _ & Hl). specialize (Hl N).
  replace (zlen (us_buf (sl_store x)) <? us_dsize (sl_store x)) with false by lia.
  specialize (IH _ E'). destruct (pool_stream sl') as [b| |]; cbn [bind]; auto.
  unfold bytes_of at 1. rewrite S3, IH. rewrite <- Cl. reflexivity.
Qed.
Lemma shows_rel p st h : orc_total orc -> Rel p st -> r_alive (the_rec st h) = true ->
  unit_shows p h = r_bytes (the_rec st h).
Proof.
  intros T RL Ha. pose proof RL as (A & B & C & D & E & F).
  specialize (D h). unfold unit_rep in D. rewrite Ha in D. unfold unit_shows.
  destruct (nth_error (p_units p) h) as [[[[i k]|]|]|]; try contradiction.
  - destruct D as (O & _). destruct (order_slot _ _ _ _ RL O) as (x & -> & S1 & S2 & l & S3 & S4 & [G|(_ & _ & _ & NT)]); [|destruct (NT T)].
    destruct G as (I & N & Cl & P). unfold content. cbn [cu_store]. rewrite N, S3. f_equal. exact Cl.
  - symmetry. exact (proj1 D).
Qed.
Lemma total_rel p st : Rel p st -> finished st -> p_total p = zlen (spec_stream st).
Proof.
  intros (A & B & C & D & E & F) Fi. rewrite F. unfold spec_stream, finished in *. clear - Fi.
  induction (s_order st) as [|h t IH]; [reflexivity|]. cbn [map sumz flat_map]. rewrite zlen_app, IH by (intros g Hg; apply Fi; right; exact Hg).
  unfold kept_len. rewrite (Fi h) by (left; reflexivity). reflexivity.
Qed.
End Rel.

(** ** Safety, for every allocator and every growth *)
Section Safe.
Variable orc : nat -> option (nat -> Z).
Variable moves : nat -> option bool.

Definition slot_ok (x : slot) : Prop := sinv (sl_store x) /\ pos (sl_store x).
Definition unit_ok (n : nat) (q : option (option (option (nat * bool)))) : Prop :=
  match q with
  | Some (Some (Some (i, _))) => (i < n)%nat
  | Some (Some None) => True
  | _ => False
  end.
Definition pinv (p : pool) (made : list bool) : Prop :=
  length (p_units p) = length made
  /\ (forall h, nth h made false = true -> unit_ok (length (p_slots p)) (nth_error (p_units p) h))
  /\ Forall slot_ok (p_slots p).

Lemma nil_store_ok a b : slot_ok (mkSlot a b (mkStore true true [] 0)).
Proof.
  split; cbn [sl_store]; [|intros _ N; discriminate N].
  unfold sinv. cbn [us_dsize us_vary us_null us_buf]. rewrite LIM_val. repeat split; try lia; try discriminate.
Qed.
Lemma copy_slot_ok c x : slot_ok x ->
  match copy_slot orc c x with UB => False | Throw => True | Ok (y, _) => slot_ok y end.
Proof.
  intros (I & P). unfold copy_slot. destruct (us_vary (sl_store x)) eqn:V; cbn [negb].
  - unfold xl_assert. destruct (sl_live x); cbn [bind]; [|exact Logic.I].
    destruct (0 <? zlen (us_buf (sl_store x))) eqn:Zb; cbn [bind]; [|exact Logic.I].
    pose proof I as (Hd & _ & Hn & Hl).
    assert (N : us_null (sl_store x) = false).
    { destruct (us_null (sl_store x)); [|reflexivity]. rewrite (Hn eq_refl), zlen_nil in Zb. lia. }
    specialize (Hl N).
    destruct (malloc orc c (zlen (us_buf (sl_store x)))) as [q|] eqn:M; [|apply nil_store_ok].
    apply malloc_len in M; [|lia]. unfold memcpy_prefix.
    destruct (Nat.leb _ (length q)) eqn:L1; cbn [andb]; [|unfold zlen in *; lia].
    destruct (Nat.leb _ (length (us_buf (sl_store x)))) eqn:L2; [|unfold zlen in *; lia].
    cbn [bind].
    assert (Q : zlen (firstn (Z.to_nat (us_dsize (sl_store x))) (us_buf (sl_store x)) ++ skipn (Z.to_nat (us_dsize (sl_store x))) q) = zlen (us_buf (sl_store x))).
    { unfold zlen in *. rewrite app_length, firstn_length, skipn_length. lia. }
    split; cbn [sl_store].
    + unfold sinv. cbn [us_dsize us_vary us_null us_buf]. rewrite Q. repeat split; try lia; try discriminate.
    + intros _ _. cbn [us_buf]. apply (long_not_nil _ _ Q). lia.
  - destruct (xl_assert _) as [t| |] eqn:A; cbn [bind]; [split; assumption|exact Logic.I|].
    unfold xl_assert in A. destruct (_ <=? _); discriminate.
Qed.
Lemma copy_slots_ok l : forall c, Forall slot_ok l ->
  match copy_slots orc c l with UB => False | Throw => True | Ok (m, _) => Forall slot_ok m /\ length m = length l end.
Proof.
  induction l as [|x t IH]; intros c F; cbn [copy_slots]; [auto|]. inversion F; subst.
  pose proof (copy_slot_ok c x H1) as A. destruct (copy_slot orc c x) as [[y c1]| |]; cbn [bind]; auto.
  specialize (IH c1 H2). destruct (copy_slots orc c1 t) as [[r c2]| |]; cbn [bind]; auto.
  destruct IH as (J1 & J2). split; [constructor; auto|cbn [length]; congruence].
Qed.
Lemma grow_ok p made : pinv p made ->
  match grow orc moves p with
  | UB => False | Throw => True
  | Ok q => pinv q made /\ p_units q = p_units p /\ length (p_slots q) = length (p_slots p)
  end.
Proof.
  intros (A & B & C). unfold grow. destruct (moves (length (p_slots p))) as [[]|]; [| |exact I].
  - pose proof (copy_slots_ok (p_slots p) (p_cnt p) C) as G.
    destruct (copy_slots orc (p_cnt p) (p_slots p)) as [[m c]| |]; cbn [bind]; auto.
    destruct G as (G1 & G2). cbn [p_units p_slots]. split; [|auto].
    split; [exact A|]. split; [|exact G1]. cbn [p_slots p_units]. rewrite G2. exact B.
  - split; [|auto]. split; [exact A|]. auto.
Qed.
Lemma fetch_ok p made h : pinv p made -> nth h made false = true ->
  exists ix, fetch p h = Ok ix /\ match ix with Some (i, _) => (i < length (p_slots p))%nat | None => True end
             /\ (h < length (p_units p))%nat.
Proof.
  intros (A & B & C) H. specialize (B h H). unfold fetch.
  assert (L : (h < length (p_units p))%nat).
  { rewrite A. destruct (Nat.lt_ge_cases h (length made)); [assumption|]. rewrite nth_overflow in H by assumption. discriminate. }
  destruct (nth_error (p_units p) h) as [[[[i k]|]|]|]; cbn [unit_ok] in B; try contradiction; eexists; split; try reflexivity; auto.
Qed.
Lemma slot_at_safe p made i : pinv p made -> (i < length (p_slots p))%nat ->
  match slot_at p i with UB => False | Throw => True | Ok x => slot_ok x /\ nth_error (p_slots p) i = Some x end.
Proof.
  intros (A & B & C) L. unfold slot_at. destruct (nth_error (p_slots p) i) as [x|] eqn:X; [|exact I].
  unfold xl_assert. destruct (sl_live x); cbn [bind]; [|exact I]. split; [|reflexivity].
  rewrite Forall_forall in C. apply C. eapply nth_error_In. exact X.
Qed.
Lemma Forall_upd {A} (P : A -> Prop) l : forall i x, Forall P l -> P x -> Forall P (upd i x l).
Proof. induction l as [|y t IH]; intros [|i] x F Q; cbn [upd]; auto; inversion F; subst; constructor; auto. Qed.
Lemma pinv_put p made i x s c t : pinv p made -> slot_ok (mkSlot (sl_live x) (sl_sticky x) s) ->
  pinv (mkPool (upd i (mkSlot (sl_live x) (sl_sticky x) s) (p_slots p)) t (p_units p) c) made.
Proof.
  intros (A & B & C) Q. split; [exact A|]. split; cbn [p_slots p_units]; [rewrite upd_length; exact B|].
  apply Forall_upd; auto.
Qed.

Lemma do_op_safe p made h o : pinv p made -> nth h made false = true ->
  match do_op orc moves p h o with UB => False | Throw => True | Ok (_, q) => pinv q made end.
Proof.
  intros V H. unfold do_op. destruct (fetch_ok p made h V H) as (ix & -> & Li & Lh). cbn [bind].
  destruct ix as [[i k]|].
  - pose proof (slot_at_safe p made i V Li) as S. destruct (slot_at p i) as [x| |]; cbn [bind]; auto.
    destruct S as ((I & P) & _).
    pose proof (op_safe orc (mkUnit (Some (sl_store x)) (p_cnt p)) o I) as Q.
    destruct (run_op orc (mkUnit (Some (sl_store x)) (p_cnt p)) o) as [[e u]| |] eqn:Ru; cbn [bind]; auto.
    destruct (put_ok p i x u (run_op_K orc _ _ _ _ Ru (K_of _ _ P))) as (s & E & Ps & ->). cbn [bind].
    apply pinv_put; [exact V|]. split; [|exact Ps]. unfold uinv in Q. rewrite E in Q. exact Q.
  - assert (G : match (if requests o then grow orc moves p else Ok p) with
                | UB => False | Throw => True
                | Ok q => pinv q made /\ p_units q = p_units p /\ length (p_slots q) = length (p_slots p) end).
    { destruct (requests o); [apply grow_ok; exact V|auto]. }
    destruct (if requests o then grow orc moves p else Ok p) as [q| |]; cbn [bind]; auto.
    destruct G as (Vq & Uq & Lq). pose proof Vq as (A & B & C).
    pose proof (op_safe orc (mkUnit None (p_cnt q)) o I) as Q.
    destruct (run_op orc (mkUnit None (p_cnt q)) o) as [[e u]| |] eqn:Ru; cbn [bind]; auto.
    pose proof (run_op_none orc (mkUnit None (p_cnt q)) _ _ _ eq_refl Ru) as (_ & Kc). unfold uinv in Q.
    assert (W : forall g, unit_ok (length (p_slots q)) g -> forall x, unit_ok (length (p_slots q ++ [x])) g).
    { intros [[[[i k]|]|]|] Wg x; cbn [unit_ok] in *; auto. rewrite app_length. cbn [length]. lia. }
    destruct (cu_store u) as [s|] eqn:Cs.
    + destruct Kc as [Kc|(s' & Es & Ps)]; [discriminate|]. rewrite Cs in Es. injection Es as <-.
      split; [cbn [p_units]; rewrite upd_length; exact A|]. split; cbn [p_units p_slots].
      * intros g Hg. rewrite nth_error_upd. destruct (_ && _)%bool; [|apply W, B; exact Hg].
        cbn [unit_ok]. rewrite app_length. cbn [length]. lia.
      * apply Forall_app. split; [exact C|]. constructor; [|constructor]. split; assumption.
    + split; [exact A|]. split; cbn [p_units p_slots]; [intros g Hg; apply W, B; exact Hg|].
      apply Forall_app. split; [exact C|]. constructor; [|constructor]. apply nil_store_ok.
Qed.

Lemma do_append_safe p made h j : pinv p made -> nth h made false = true -> nth j made false = true ->
  match do_append orc p h j with UB => False | Throw => True | Ok (_, q) => pinv q made end.
Proof.
  intros V Hh Hj. unfold do_append.
  destruct (fetch_ok p made h V Hh) as (ix & -> & Li & _). destruct (fetch_ok p made j V Hj) as (jx & -> & Lj & _). cbn [bind].
  destruct ix as [[i k]|]; [|exact I]. destruct jx as [[i' k']|]; [|exact I].
  pose proof (slot_at_safe p made i V Li) as S. destruct (slot_at p i) as [x| |]; cbn [bind]; auto.
  pose proof (slot_at_safe p made i' V Lj) as Sy. destruct (slot_at p i') as [y| |]; cbn [bind]; auto.
  destruct S as ((I & P) & X). destruct Sy as ((Iy & Py) & Y).
  pose proof Iy as (Hd & _ & _ & Hl).
  pose proof (ensure_spec orc (mkUnit (Some (sl_store x)) (p_cnt p)) _ (us_dsize (sl_store y)) eq_refl I ltac:(lia)) as Q.
  destruct (ensure orc (mkUnit (Some (sl_store x)) (p_cnt p)) (us_dsize (sl_store y))) as [[e u]| |] eqn:Eu; cbn [bind]; auto.
  destruct (put_ok p i x u (ensure_K orc _ _ _ _ Eu (K_of _ _ P))) as (s1 & P1 & P2 & ->). cbn [bind].
  destruct Q as (s1' & Q1 & Q2 & Q3 & Q4 & Q5). rewrite P1 in Q1. injection Q1 as <-.
  set (p1 := mkPool _ _ _ _).
  assert (V1 : pinv p1 made) by (apply pinv_put; [exact V|split; assumption]).
  destruct (e =? NO_ERRORS) eqn:Ee; cbn [negb]; [|exact V1].
  assert (L1 : length (p_slots p1) = length (p_slots p)) by (unfold p1; cbn [p_slots]; apply upd_length).
  pose proof (slot_at_safe p1 made i V1 ltac:(lia)) as S. destruct (slot_at p1 i) as [x1| |]; cbn [bind]; auto.
  pose proof (slot_at_safe p1 made i' V1 ltac:(lia)) as Sy. destruct (slot_at p1 i') as [y1| |]; cbn [bind]; auto.
  destruct S as ((I1 & P3) & X1). destruct Sy as ((Iy1 & Py1) & Y1).
  destruct (us_null (sl_store y1)) eqn:N1; [exact V1|].
  assert (D1 : us_dsize (sl_store y1) = us_dsize (sl_store y)).
  { unfold p1 in Y1. cbn [p_slots] in Y1. rewrite nth_error_upd in Y1.
    destruct (Nat.eqb_spec i' i) as [->|Ni]; cbn [andb] in Y1.
    - rewrite (proj2 (Nat.ltb_lt _ _) Li) in Y1. injection Y1 as <-. cbn [sl_store]. rewrite Q3. congruence.
    - rewrite Y1 in Y. injection Y as ->. reflexivity. }
  pose proof Iy1 as (_ & _ & _ & Hl1). specialize (Hl1 N1).
  replace (zlen (us_buf (sl_store y1)) <? us_dsize (sl_store y)) with false by lia.
  set (l := firstn _ _).
  pose proof (add_array_spec orc (mkUnit (Some (sl_store x1)) (p_cnt p1)) _ l eq_refl I1) as W. unfold append_post in W.
  destruct (add_array orc (mkUnit (Some (sl_store x1)) (p_cnt p1)) l) as [[e2 u2]| |] eqn:Eu2; cbn [bind]; auto.
  destruct (put_ok p1 i x1 u2 (add_array_K orc _ _ _ _ Eu2 (K_of _ _ P3))) as (s2 & P5 & P6 & ->). cbn [bind].
  apply pinv_put; [exact V1|]. split; [|exact P6]. destruct W as (W1 & _). unfold uinv in W1. rewrite P5 in W1. exact W1.
Qed.

Lemma do_keep_safe p made h : pinv p made -> nth h made false = true ->
  match do_keep p h with UB => False | Throw => True | Ok q => pinv q made end.
Proof.
  intros V H. unfold do_keep. destruct (fetch_ok p made h V H) as (ix & -> & Li & Lh). cbn [bind].
  destruct ix as [[i []]|]; try exact I. unfold xl_assert. destruct (Nat.eqb _ _); cbn [bind]; [|exact I].
  pose proof (slot_at_safe p made i V Li) as S. destruct (slot_at p i) as [x| |]; cbn [bind]; auto.
  destruct S as (S & _). destruct V as (A & B & C).
  split; [cbn [p_units]; rewrite upd_length; exact A|]. split; cbn [p_units p_slots].
  - intros g Hg. rewrite upd_length, nth_error_upd. destruct (_ && _)%bool; [exact Li|apply B; exact Hg].
  - apply Forall_upd; [exact C|exact S].
Qed.
Lemma do_drop_safe p made h : pinv p made -> nth h made false = true ->
  match do_drop p h with UB => False | Throw => True | Ok q => pinv q (firstn h made ++ false :: skipn (S h) made) end.
Proof.
  intros V H. unfold do_drop. destruct (fetch_ok p made h V H) as (ix & -> & Li & Lh). cbn [bind].
  pose proof V as (A & B & C). rewrite <- upd_split by (rewrite <- A; exact Lh).
  assert (W : forall sl, Forall slot_ok sl -> length sl = length (p_slots p) ->
     pinv (mkPool sl (p_total p) (upd h None (p_units p)) (p_cnt p)) (upd h false made)).
  { intros sl F L. split; [cbn [p_units]; rewrite !upd_length; exact A|]. split; [|exact F]. cbn [p_units p_slots].
    intros g Hg. rewrite nth_error_upd. destruct (Nat.eqb_spec g h) as [->|N]; cbn [andb].
    - rewrite upd_nth_same in Hg by (rewrite <- A; exact Lh). discriminate.
    - rewrite upd_nth_other in Hg by auto. rewrite L. apply B. exact Hg. }
  destruct ix as [[i k]|]; [|apply W; auto].
  pose proof (slot_at_safe p made i V Li) as S. destruct (slot_at p i) as [x| |]; cbn [bind]; auto.
  unfold xl_assert. destruct (Bool.eqb _ _); cbn [bind]; [|exact I]. destruct k; [apply W; auto|].
  apply W; [|apply upd_length]. apply Forall_upd; [exact C|]. split; cbn [sl_store]; [|intro X; discriminate X].
  unfold sinv. cbn [us_dsize us_vary us_null us_buf]. rewrite LIM_val, zlen_repeat. repeat split; try lia; try discriminate.
Qed.

Lemma run_safe l : forall p made, pinv p made -> pops_alive made l ->
  match run_pops orc moves p l with UB => False | Throw => True | Ok (_, q) => exists m, pinv q m end.
Proof.
  induction l as [|a t IH]; intros p made V H; cbn [run_pops]; [eauto|]. destruct H as (H1 & H2).
  assert (W : match do_pop orc moves p a with UB => False | Throw => True
              | Ok (_, q) => pinv q (match a with PMake => made ++ [true] | PDrop h => firstn h made ++ false :: skipn (S h) made | _ => made end) end).
  { destruct a as [|h o|h j|h|h]; cbn [do_pop pop_alive] in *.
    - destruct V as (A & B & C). split; [cbn [p_units]; rewrite !app_length, A; reflexivity|]. split; [|exact C].
      cbn [p_units p_slots]. intros g Hg. destruct (Nat.lt_ge_cases g (length made)) as [L|L].
      + rewrite app_nth1 in Hg by exact L. rewrite nth_error_app1 by (rewrite A; exact L). apply B. exact Hg.
      + rewrite nth_error_app2 by (rewrite A; exact L). rewrite app_nth2 in Hg by exact L. rewrite A.
        destruct (g - length made)%nat as [|[|n]]; [exact I|discriminate|discriminate].
    - apply do_op_safe; auto.
    - destruct H1. apply do_append_safe; auto.
    - pose proof (do_keep_safe p made h V H1) as Q. destruct (do_keep p h); cbn [bind]; auto.
    - pose proof (do_drop_safe p made h V H1) as Q. destruct (do_drop p h); cbn [bind]; auto. }
  destruct (do_pop orc moves p a) as [[e p1]| |]; cbn [bind]; auto.
  specialize (IH p1 _ W H2). destruct (run_pops orc moves p1 t) as [[es q]| |]; cbn [bind]; auto.
Qed.
Lemma stream_safe l : Forall slot_ok l -> pool_stream l <> UB.
Proof.
  induction l as [|x t IH]; intro F; cbn [pool_stream]; [discriminate|]. inversion F; subst.
  unfold xl_assert. destruct (sl_live x); cbn [bind]; [|discriminate].
  destruct (us_null (sl_store x)) eqn:N; cbn [negb bind]; [discriminate|].
  destruct H1 as ((_ & _ & _ & Hl) & _). specialize (Hl N).
  replace (zlen (us_buf (sl_store x)) <? us_dsize (sl_store x)) with false by lia.
  specialize (IH H2). destruct (pool_stream t); cbn [bind]; congruence.
Qed.
End Safe.
