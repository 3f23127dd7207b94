(** Proofs about the record-buffer model: memory safety for every allocator, and
    refinement to byte lists. *)
From Coq Require Import ZArith List Lia Bool.
From Coq Require Import ZifyBool ZifyNat.
From Verif Require Import Bytes UnitModel.
Import ListNotations.
Local Open Scope Z_scope.
Ltac Zify.zify_post_hook ::= Z.div_mod_to_equations.

Definition LIM := 2 ^ 29.
Lemma LIM_val : LIM = 536870912. Proof. reflexivity. Qed.

Definition sinv (s : ustore) : Prop :=
  0 <= us_dsize s < LIM /\
  (us_vary s = false -> us_null s = false /\ zlen (us_buf s) = 18) /\
  (us_null s = true -> us_buf s = []) /\
  (us_null s = false -> us_dsize s <= zlen (us_buf s)).

Definition uinv (u : cunit) : Prop :=
  match cu_store u with None => True | Some s => sinv s end.

Definition cont (s : ustore) : list Z := firstn (Z.to_nat (us_dsize s)) (us_buf s).

(** Concrete buffer [u] represents the byte list [a]. *)
Definition R (u : cunit) (a : option (list Z)) : Prop :=
  match cu_store u, a with
  | None, None => True
  | Some s, Some l => sinv s /\ us_null s = false /\ cont s = l
  | _, _ => False
  end.

Lemma get_size_zlen : forall s, sinv s -> get_size s = zlen (us_buf s).
Proof.
  intros s (Hd & Hv & Hn & Hl). unfold get_size.
  destruct (us_vary s); [reflexivity|]. destruct Hv as [_ H]; auto.
Qed.

Lemma cont_zlen : forall s, sinv s -> us_null s = false -> zlen (cont s) = us_dsize s.
Proof.
  intros s (Hd & Hv & Hn & Hl) H. specialize (Hl H). unfold cont, zlen in *.
  rewrite firstn_length. lia.
Qed.

Definition orc_total (orc : nat -> option (nat -> Z)) : Prop := forall k, orc k <> None.

Section P.
Variable orc : nat -> option (nat -> Z).

Lemma malloc_len : forall c n p, malloc orc c n = Some p -> 0 <= n -> zlen p = n.
Proof.
  intros c n p H Hn. unfold malloc in H. destruct (orc c) as [g|]; [|discriminate].
  injection H as <-. unfold zlen. rewrite map_length, seq_length. lia.
Qed.

Lemma malloc_total : orc_total orc -> forall c n, malloc orc c n <> None.
Proof. intros Ht c n. unfold malloc. specialize (Ht c). destruct (orc c); congruence. Qed.

Lemma realloc_spec : forall c old n p, realloc orc c old n = Some p -> 0 <= n ->
  zlen p = n /\ (forall k, (k <= Z.to_nat n)%nat -> (k <= length old)%nat -> firstn k p = firstn k old).
Proof.
  intros c old n p H Hn. unfold realloc in H.
  destruct (malloc orc c n) as [g|] eqn:E; [|discriminate]. injection H as <-.
  pose proof (malloc_len _ _ _ E Hn) as Hg. unfold zlen in *.
  split.
  - rewrite app_length, skipn_length, firstn_length. lia.
  - intros k Hk Hk2. rewrite firstn_app, firstn_firstn, firstn_length.
    replace (Init.Nat.min k (Z.to_nat n)) with k by lia.
    replace (k - _)%nat with O by lia. cbn. apply app_nil_r.
Qed.

Lemma realloc_total : orc_total orc -> forall c o n, realloc orc c o n <> None.
Proof.
  intros Ht c o n. unfold realloc. pose proof (malloc_total Ht c n).
  destruct (malloc orc c n); congruence.
Qed.

Definition resize_post (s : ustore) (newlen e : Z) (s' : ustore) : Prop :=
  sinv s' /\ us_dsize s' = us_dsize s /\
  (e = 0 \/ (e = -4 /\ ~ orc_total orc)) /\
  (e = 0 -> us_null s' = false /\ newlen <= zlen (us_buf s') /\ cont s' = cont s).

Lemma resize_spec : forall s c newlen, sinv s ->
  match resize orc s c newlen with
  | UB => False
  | Throw => 0 < newlen -> us_dsize s <= newlen -> us_null s = true
  | Ok (e, s', _) => 0 < newlen /\ us_dsize s <= newlen /\ resize_post s newlen e s'
  end.
Proof.
  intros s c newlen Hs. pose proof Hs as (Hd & Hv & Hn & Hl).
  unfold resize, xl_assert, NO_ERRORS, ERR_UNABLE_TOALLOCATE_MEMORY.
  destruct (0 <? newlen) eqn:E1; cbn [bind]; [|lia].
  destruct (us_dsize s <=? newlen) eqn:E2; cbn [bind]; [|lia].
  destruct (us_vary s) eqn:Ev; cbn [negb].
  - destruct (newlen =? zlen (us_buf s)) eqn:E3.
    + split; [lia|split; [lia|]]. unfold resize_post. split; [exact Hs|].
      split; [reflexivity|]. split; [lia|]. intros _.
      assert (Hnn : us_null s = false).
      { destruct (us_null s) eqn:En; [|reflexivity].
        rewrite (Hn eq_refl) in E3. rewrite zlen_nil in E3. lia. }
      split; [exact Hnn|]. split; [lia|reflexivity].
    + destruct (us_null s) eqn:En.
      * destruct (us_dsize s =? 0) eqn:E4; cbn [bind]; [|auto].
        destruct (malloc orc c newlen) as [p|] eqn:Em.
        -- split; [lia|split; [lia|]]. apply malloc_len in Em; [|lia].
           unfold resize_post, sinv, cont. cbn [us_dsize us_vary us_null us_buf].
           repeat split; auto; try lia; try discriminate.
           replace (us_dsize s) with 0 by lia. reflexivity.
        -- split; [lia|split; [lia|]]. unfold resize_post, sinv. cbn [us_dsize us_vary us_null us_buf].
           repeat split; auto; try lia; try discriminate.
           right. split; [reflexivity|]. intros Ht. exact (malloc_total Ht _ _ Em).
      * cbn [bind]. destruct (realloc orc c (us_buf s) newlen) as [p|] eqn:Em.
        -- split; [lia|split; [lia|]]. apply realloc_spec in Em; [|lia]. destruct Em as [Em1 Em2].
           specialize (Hl eq_refl).
           unfold resize_post, sinv, cont. cbn [us_dsize us_vary us_null us_buf].
           repeat split; auto; try lia; try discriminate.
           apply Em2; unfold zlen in *; lia.
        -- split; [lia|split; [lia|]]. unfold resize_post, sinv. cbn [us_dsize us_vary us_null us_buf].
           repeat split; auto; try lia; try discriminate.
           right. split; [reflexivity|]. intros Ht. exact (realloc_total Ht _ _ _ Em).
  - destruct (Hv eq_refl) as [Hv1 Hv2]. specialize (Hl Hv1).
    destruct (FIXED_SIZE <? newlen) eqn:E3; unfold FIXED_SIZE in E3.
    + destruct (malloc orc c newlen) as [p|] eqn:Em.
      * apply malloc_len in Em; [|lia].
        unfold memcpy_prefix.
        destruct (Nat.leb _ (length p)) eqn:L1; cbn [andb]; [|unfold zlen in *; lia].
        destruct (Nat.leb _ (length (us_buf s))) eqn:L2; [|unfold zlen in *; lia].
        cbn [bind]. split; [lia|split; [lia|]].
        unfold resize_post, sinv, cont. cbn [us_dsize us_vary us_null us_buf].
        assert (Hlen : length (firstn (Z.to_nat (us_dsize s)) (us_buf s)) = Z.to_nat (us_dsize s)).
        { rewrite firstn_length. unfold zlen in *. lia. }
        assert (Hz : zlen (firstn (Z.to_nat (us_dsize s)) (us_buf s) ++ skipn (Z.to_nat (us_dsize s)) p) = newlen).
        { unfold zlen in *. rewrite app_length, skipn_length. lia. }
        repeat split; auto; try lia; try discriminate.
        rewrite firstn_app, Hlen, Nat.sub_diag, firstn_firstn, Nat.min_id. cbn. apply app_nil_r.
      * split; [lia|split; [lia|]]. unfold resize_post, sinv. cbn [us_dsize us_vary us_null us_buf].
        repeat split; auto; try lia; try discriminate.
        right. split; [reflexivity|]. intros Ht. exact (malloc_total Ht _ _ Em).
    + split; [lia|split; [lia|]]. unfold resize_post.
      split; [exact Hs|]. split; [reflexivity|]. split; [lia|]. intros _. split; [exact Hv1|].
      split; [lia|reflexivity].
Qed.

Lemma prepare_spec : forall c n,
  match prepare orc c n with
  | (e, s, _) => (e = 0 /\ sinv s /\ us_null s = false /\ cont s = [] /\ us_dsize s = 0 /\ n <= zlen (us_buf s))
                 \/ (e = -4 /\ ~ orc_total orc)
  end.
Proof.
  intros c n. unfold prepare, NO_ERRORS, ERR_UNABLE_TOALLOCATE_MEMORY. destruct (n <=? FIXED_SIZE) eqn:E; unfold FIXED_SIZE in *.
  - left. unfold sinv, cont. cbn [us_dsize us_vary us_null us_buf].
    rewrite zlen_repeat. rewrite LIM_val. repeat split; auto; try lia; try discriminate.
  - destruct (malloc orc c n) as [p|] eqn:Em.
    + left. apply malloc_len in Em; [|lia]. unfold sinv, cont. cbn [us_dsize us_vary us_null us_buf].
      rewrite LIM_val. repeat split; auto; try lia; try discriminate.
    + right. split; [reflexivity|]. intros Ht. exact (malloc_total Ht _ _ Em).
Qed.

Lemma request_index_spec : forall u n,
  match request_index orc u n with
  | (e, u') => uinv u' /\
      ((e = 0 /\ exists s, cu_store u' = Some s /\ sinv s /\ us_null s = false /\ cont s = [] /\ us_dsize s = 0 /\ n <= zlen (us_buf s))
       \/ (e = GENERAL_ERROR /\ ~ orc_total orc))
  end.
Proof.
  intros u n. unfold request_index. pose proof (prepare_spec (cu_cnt u) n) as H.
  destruct (prepare orc (cu_cnt u) n) as [[e s] c].
  destruct H as [(He & Hs & Hn & Hc & Hd & Hl) | (He & Ht)]; subst e; cbn.
  - split; [exact Hs|]. left. split; [reflexivity|]. exists s. tauto.
  - split; [exact I|]. right. auto.
Qed.

(** [inflate] on a store. *)
Lemma inflate_spec : forall u s n, cu_store u = Some s -> sinv s ->
  match inflate orc u n with
  | UB => False
  | Throw => 0 < n -> us_dsize s <= n -> us_null s = true
  | Ok (e, u') => exists s', cu_store u' = Some s' /\ 0 < n /\ us_dsize s <= n /\ resize_post s n e s'
  end.
Proof.
  intros u s n Hu Hs. unfold inflate. rewrite Hu. unfold xl_assert.
  destruct (0 <? n) eqn:E; cbn [bind]; [|lia].
  pose proof (resize_spec s (cu_cnt u) n Hs) as H.
  destruct (resize orc s (cu_cnt u) n) as [[[e s'] c]| |]; cbn [bind]; auto.
  exists s'. cbn [cu_store]. tauto.
Qed.

(** [ensure] *)
Lemma ensure_spec : forall u s n, cu_store u = Some s -> sinv s -> 0 <= n ->
  match ensure orc u n with
  | UB => False
  | Throw => us_null s = true
  | Ok (e, u') => exists s', cu_store u' = Some s' /\ sinv s' /\ us_dsize s' = us_dsize s /\
        (e = 0 \/ (e = -4 /\ ~ orc_total orc)) /\
        (e = 0 -> us_dsize s + n <= zlen (us_buf s') /\ (us_null s = false -> us_null s' = false) /\ cont s' = cont s)
  end.
Proof.
  intros u s n Hu Hs Hn. unfold ensure, the_store. rewrite Hu. cbn [bind]. unfold xl_assert.
  rewrite (get_size_zlen s Hs). pose proof Hs as (Hd & Hv & Hnn & Hl).
  destruct (us_dsize s <=? zlen (us_buf s)) eqn:E; cbn [bind].
  - destruct (zlen (us_buf s) - us_dsize s <? n) eqn:E2.
    + pose proof (inflate_spec u s (n + us_dsize s) Hu Hs) as H.
      destruct (inflate orc u (n + us_dsize s)) as [[e u']| |]; auto.
      * destruct H as (s' & H1 & H2 & H3 & (Q1 & Q2 & Q3 & Q4)).
        exists s'. split; [exact H1|]. split; [exact Q1|]. split; [exact Q2|]. split; [exact Q3|].
        intros He. specialize (Q4 He). split; [lia|]. tauto.
      * apply H; lia.
    + exists s. split; [exact Hu|]. split; [exact Hs|]. split; [reflexivity|].
      split; [left; reflexivity|]. intros _. split; [lia|]. tauto.
  - destruct (us_null s) eqn:En; [reflexivity|]. specialize (Hl eq_refl). lia.
Qed.

Lemma raw_write_ok : forall s i v, us_null s = false -> 0 <= i < zlen (us_buf s) ->
  raw_write s i v = Ok (mkStore (us_vary s) (us_null s) (upd (Z.to_nat i) v (us_buf s)) (us_dsize s)).
Proof.
  intros s i v Hn Hi. unfold raw_write. rewrite Hn.
  replace (i <? 0) with false by lia. replace (zlen (us_buf s) <=? i) with false by lia. reflexivity.
Qed.

(** Geometry preserved by writes. *)
Definition same_shape (s s' : ustore) : Prop :=
  us_vary s' = us_vary s /\ us_null s' = us_null s /\ length (us_buf s') = length (us_buf s) /\
  us_dsize s' = us_dsize s.

Lemma same_shape_sinv : forall s s', same_shape s s' -> sinv s -> sinv s'.
Proof.
  intros s s' (A & B & C & D) (H1 & H2 & H3 & H4). unfold sinv. rewrite A, B, D.
  unfold zlen in *. rewrite C. repeat split; try tauto; try lia.
  intros Hn. specialize (H3 Hn). rewrite H3 in C. cbn in C. destruct (us_buf s'); [reflexivity|discriminate].
Qed.

Lemma same_shape_refl : forall s, same_shape s s.
Proof. intros s. repeat split. Qed.

Lemma same_shape_trans : forall a b c, same_shape a b -> same_shape b c -> same_shape a c.
Proof. unfold same_shape. intros a b c H1 H2. intuition congruence. Qed.

Lemma write_loop_spec : forall l s p r, sinv s -> us_buf s = p ++ r ->
  match write_loop s (zlen p) l with
  | UB => False
  | Throw => zlen r < zlen l
  | Ok (s', ds') => same_shape s s' /\ ds' = zlen p + zlen l /\ zlen l <= zlen r /\
       us_buf s' = p ++ l ++ skipn (length l) r
  end.
Proof.
  induction l as [|b t IH]; intros s p r Hs Hb; cbn [write_loop].
  - split; [apply same_shape_refl|]. rewrite zlen_nil. pose proof (zlen_nonneg _ r).
    split; [lia|]. split; [lia|]. exact Hb.
  - unfold xl_assert. rewrite (get_size_zlen s Hs). rewrite zlen_cons, Hb, zlen_app.
    destruct r as [|x r].
    { rewrite zlen_nil. replace (zlen p <? zlen p + 0) with false by lia. cbn [bind].
      pose proof (zlen_nonneg _ t). lia. }
    rewrite zlen_cons. pose proof (zlen_nonneg _ r). pose proof (zlen_nonneg _ p).
    replace (zlen p <? zlen p + (zlen r + 1)) with true by lia. cbn [bind].
    assert (Hn : us_null s = false).
    { destruct (us_null s) eqn:En; [|reflexivity]. destruct Hs as (_ & _ & Q & _).
      rewrite (Q En) in Hb. destruct p; discriminate. }
    rewrite raw_write_ok by (rewrite ?Hb, ?zlen_app, ?zlen_cons; auto; lia). cbn [bind].
    set (s1 := mkStore _ _ _ _).
    assert (Hsh : same_shape s s1).
    { unfold same_shape, s1. cbn. rewrite upd_length. auto. }
    assert (Hs1 : sinv s1) by (eapply same_shape_sinv; eauto).
    assert (Hb1 : us_buf s1 = (p ++ [b]) ++ r).
    { unfold s1. cbn [us_buf]. rewrite Hb. unfold zlen. rewrite Nat2Z.id.
      rewrite upd_app_r, Nat.sub_diag by lia. rewrite <- app_assoc. reflexivity. }
    specialize (IH s1 (p ++ [b]) r Hs1 Hb1).
    rewrite zlen_app, zlen_cons, zlen_nil in IH. change (0 + 1) with 1 in IH.
    destruct (write_loop s1 (zlen p + 1) t) as [[s' ds']| |]; [|lia|exact IH].
    destruct IH as (A & B & C & D). split; [eapply same_shape_trans; eauto|].
    split; [lia|]. split; [lia|]. rewrite D, <- app_assoc. reflexivity.
Qed.

Lemma append_raw_spec : forall u s l, cu_store u = Some s -> sinv s -> us_dsize s <= zlen (us_buf s) ->
  match append_raw u l with
  | UB => False
  | Throw => zlen (us_buf s) < us_dsize s + zlen l
  | Ok (e, u') => e = 0 /\ exists s', cu_store u' = Some s' /\ sinv s' /\
      (us_null s = false -> us_null s' = false) /\
      (us_dsize s + zlen l < LIM -> cont s' = cont s ++ l)
  end.
Proof.
  intros u s l Hu Hs Hle. unfold append_raw, the_store. rewrite Hu. cbn [bind].
  pose proof Hs as (Hd & Hv & Hn & Hl).
  assert (Hc : zlen (cont s) = us_dsize s).
  { unfold cont, zlen in *. rewrite firstn_length. lia. }
  pose proof (write_loop_spec l s (cont s) (skipn (Z.to_nat (us_dsize s)) (us_buf s)) Hs
                (eq_sym (firstn_skipn _ _))) as H.
  rewrite Hc in H.
  assert (Hr : zlen (skipn (Z.to_nat (us_dsize s)) (us_buf s)) = zlen (us_buf s) - us_dsize s).
  { unfold zlen in *. rewrite skipn_length. lia. }
  destruct (write_loop s (us_dsize s) l) as [[s1 ds]| |]; cbn [bind]; [|lia|exact H].
  destruct H as (Hsh & Hds & Hcase & Hbuf).
  pose proof (same_shape_sinv _ _ Hsh Hs) as Hs1.
  unfold set_data_size, xl_assert. rewrite (get_size_zlen s1 Hs1).
  assert (Hz : zlen (us_buf s1) = zlen (us_buf s)).
  { unfold zlen. destruct Hsh as (_ & _ & H & _). rewrite H. reflexivity. }
  destruct (ds <=? zlen (us_buf s1)) eqn:E; cbn [bind]; [|lia].
  split; [reflexivity|]. cbn [cu_store]. eexists. split; [reflexivity|].
  assert (0 <= ds mod LIM < LIM) by (rewrite LIM_val; apply Z.mod_pos_bound; lia).
  assert (ds mod LIM <= ds).
  { apply Z.mod_le; [pose proof (zlen_nonneg _ l); lia| rewrite LIM_val; lia]. }
  destruct Hsh as (S1 & S2 & S3 & S4).
  split; [|split].
  - unfold sinv. cbn [us_dsize us_vary us_null us_buf]. rewrite S1, S2. rewrite Hz.
    fold LIM. split; [lia|]. split; [tauto|]. split; [|lia].
    intros Hnn. destruct Hs1 as (_ & _ & Q & _). apply Q. congruence.
  - cbn. congruence.
  - intros Hlim. unfold cont at 1. cbn [us_dsize us_buf]. fold LIM.
    rewrite Z.mod_small by (pose proof (zlen_nonneg _ l); lia).
    rewrite Hbuf, app_assoc, firstn_app.
    rewrite firstn_all2 by (rewrite app_length; unfold zlen in *; lia).
    rewrite app_length. unfold zlen in *.
    replace (Z.to_nat ds - _)%nat with O by lia. cbn. apply app_nil_r.
Qed.

(** Outcome of an appending operation on a buffer with content. *)
Definition append_post (s : ustore) (l : list Z) (errs : Z -> Prop) (r : res (Z * cunit)) : Prop :=
  match r with
  | UB => False
  | Throw => us_null s = true \/ LIM <= us_dsize s + zlen l \/ ~ orc_total orc
  | Ok (e, u') => uinv u' /\ (e = 0 \/ (errs e /\ ~ orc_total orc)) /\
      (e = 0 -> us_null s = false -> us_dsize s + zlen l < LIM ->
         exists s', cu_store u' = Some s' /\ sinv s' /\ us_null s' = false /\ cont s' = cont s ++ l)
  end.

Lemma add_array_spec : forall u s l, cu_store u = Some s -> sinv s ->
  append_post s (map (byte_k 0) l) (fun e => e <> 0) (add_array orc u l).
Proof.
  intros u s l Hu Hs. unfold append_post, add_array. rewrite Hu. cbn [negb Z.eqb NO_ERRORS].
  pose proof (ensure_spec u s (zlen l) Hu Hs (zlen_nonneg _ l)) as H.
  destruct (ensure orc u (zlen l)) as [[e u1]| |]; cbn [bind]; auto.
  destruct H as (s1 & H1 & H2 & H3 & H4 & H5).
  destruct (e =? NO_ERRORS) eqn:E; unfold NO_ERRORS in *; cbn [negb].
  - assert (e = 0) by lia. destruct (H5 H) as (H6 & H7 & H8).
    pose proof (zlen_nonneg _ l). pose proof (append_raw_spec u1 s1 (map (byte_k 0) l) H1 H2 ltac:(lia)) as HA. rewrite zlen_map in *.
    destruct (append_raw u1 (map (byte_k 0) l)) as [[e2 u2]| |]; auto.
    + destruct HA as (-> & s2 & B1 & B2 & B3 & B4). split; [unfold uinv; rewrite B1; exact B2|].
      split; [auto|]. intros _ Hn Hlim. exists s2. specialize (H7 Hn). specialize (B3 H7).
      rewrite B4 by lia. rewrite H8. auto.
    + lia.
  - split; [unfold uinv; rewrite H1; exact H2|]. split; [|lia].
    right. destruct H4 as [|[-> Ht]]; [lia|]. split; [lia|exact Ht].
Qed.

Lemma append_unit_spec : forall u s l, cu_store u = Some s -> sinv s ->
  append_post s (map (byte_k 0) l) (fun e => e <> 0) (append_unit orc u l).
Proof.
  intros u s l Hu Hs. unfold append_post, append_unit.
  pose proof (ensure_spec u s (zlen l) Hu Hs (zlen_nonneg _ l)) as H.
  destruct (ensure orc u (zlen l)) as [[e u1]| |]; cbn [bind]; auto.
  destruct H as (s1 & H1 & H2 & H3 & H4 & H5).
  destruct (e =? NO_ERRORS) eqn:E; unfold NO_ERRORS in *; cbn [negb].
  - assert (e = 0) by lia. destruct (H5 H) as (H6 & H7 & H8).
    pose proof (add_array_spec u1 s1 l H1 H2) as HA. unfold append_post in HA.
    destruct (add_array orc u1 l) as [[e2 u2]| |]; auto.
    + destruct HA as (A1 & A2 & A3). split; [exact A1|]. split; [exact A2|].
      intros He Hn Hlim. destruct (A3 He (H7 Hn) ltac:(lia)) as (s2 & B1 & B2 & B3 & B4).
      exists s2. rewrite H8 in B4. auto.
    + destruct HA as [HA|[HA|HA]]; [|right; left; lia|right; right; exact HA]. left.
      destruct (us_null s) eqn:En; [reflexivity|]. rewrite (H7 eq_refl) in HA. discriminate.
  - split; [unfold uinv; rewrite H1; exact H2|]. split; [|lia].
    right. destruct H4 as [|[-> Ht]]; [lia|]. split; [lia|exact Ht].
Qed.

Lemma unicode_length_ok : forall s f, zlen (ustr_bytes s f) = unicode_string_length s f.
Proof.
  intros s f. unfold ustr_bytes, unicode_string_length. rewrite zlen_app.
  assert (H : zlen (ustr_body s) = if is_ascii s then zlen s else 2 * zlen s).
  { unfold ustr_body. destruct (is_ascii s); [apply zlen_map|].
    induction s as [|c t IH]; [reflexivity|]. cbn [flat_map]. rewrite zlen_app, IH.
    rewrite !zlen_cons, zlen_nil. lia. }
  rewrite H. unfold ustr_header. destruct f; autorewrite with zlen; destruct (is_ascii s); lia.
Qed.

Lemma add_str_spec : forall u s str f, cu_store u = Some s -> sinv s ->
  append_post s (ustr_bytes str f) (fun e => e <> 0) (add_str orc u str f).
Proof.
  intros u s str f Hu Hs. unfold append_post, add_str.
  pose proof (unicode_length_ok str f) as HL.
  pose proof (zlen_nonneg _ (ustr_bytes str f)) as HLn.
  pose proof (ensure_spec u s (unicode_string_length str f) Hu Hs ltac:(lia)) as H.
  destruct (ensure orc u (unicode_string_length str f)) as [[e u1]| |]; cbn [bind]; auto.
  destruct H as (s1 & H1 & H2 & H3 & H4 & H5).
  destruct (e =? NO_ERRORS) eqn:E; unfold NO_ERRORS in *; cbn [negb].
  - assert (e = 0) by lia. destruct (H5 H) as (H6 & H7 & H8).
    unfold the_store. rewrite H1. cbn [bind]. unfold xl_assert.
    destruct (us_null s1) eqn:En; cbn [negb bind].
    + left. destruct (us_null s) eqn:En0; [reflexivity|]. discriminate (H7 eq_refl).
    + pose proof (append_raw_spec u1 s1 (ustr_bytes str f) H1 H2 ltac:(lia)) as HA.
      destruct (append_raw u1 (ustr_bytes str f)) as [[e2 u2]| |]; auto.
      * destruct HA as (-> & s2 & B1 & B2 & B3 & B4). split; [unfold uinv; rewrite B1; exact B2|].
        split; [auto|]. intros _ Hn Hlim. exists s2.
        rewrite B4 by lia. rewrite H8. auto.
      * lia.
  - split; [unfold uinv; rewrite H1; exact H2|]. split; [|lia].
    right. destruct H4 as [|[-> Ht]]; [lia|]. split; [lia|exact Ht].
Qed.

Lemma byte_k0_idem : forall k v, 0 <= k -> byte_k 0 (byte_k k v) = byte_k k v.
Proof. intros k v H. apply byte_k_small. apply byte_k_byte. exact H. Qed.

Lemma add8_spec : forall u s v, cu_store u = Some s -> sinv s ->
  append_post s [byte_k 0 v] (fun e => e <> 0) (add8 orc u v).
Proof.
  intros u s v Hu Hs. unfold append_post, add8, the_store. rewrite Hu. cbn [bind]. unfold xl_assert.
  rewrite (get_size_zlen s Hs). pose proof Hs as (Hd & Hv & Hn & Hl).
  destruct (us_dsize s <=? zlen (us_buf s)) eqn:E; cbn [bind].
  2:{ left. destruct (us_null s) eqn:En; [reflexivity|]. specialize (Hl eq_refl). lia. }
  assert (Hstep : forall u1 s1, cu_store u1 = Some s1 -> sinv s1 -> us_null s1 = false ->
     us_dsize s1 = us_dsize s -> us_dsize s + 1 <= zlen (us_buf s1) -> cont s1 = cont s ->
     append_post s [byte_k 0 v] (fun e => e <> 0)
       (let* s2 := raw_write s1 (us_dsize s1) (byte_k 0 v) in
        let* s3 := set_data_size s2 (us_dsize s1 + 1) in
        Ok (NO_ERRORS, mkUnit (Some s3) (cu_cnt u1)))).
  { intros u1 s1 G1 G2 G3 G4 G5 G6. rewrite raw_write_ok by (auto; lia). cbn [bind].
    set (s2 := mkStore _ _ _ _).
    assert (Hsh : same_shape s1 s2) by (unfold same_shape, s2; cbn; rewrite upd_length; auto).
    pose proof (same_shape_sinv _ _ Hsh G2) as Hs2.
    assert (Hz : zlen (us_buf s2) = zlen (us_buf s1)).
    { unfold zlen. destruct Hsh as (_ & _ & H & _). rewrite H. reflexivity. }
    unfold set_data_size, xl_assert. rewrite (get_size_zlen s2 Hs2), Hz.
    replace (us_dsize s1 + 1 <=? zlen (us_buf s1)) with true by lia. cbn [bind].
    assert (0 <= (us_dsize s1 + 1) mod LIM < LIM) by (rewrite LIM_val; apply Z.mod_pos_bound; lia).
    assert ((us_dsize s1 + 1) mod LIM <= us_dsize s1 + 1).
    { apply Z.mod_le; [lia| rewrite LIM_val; lia]. }
    assert (Hinv : sinv (mkStore (us_vary s2) (us_null s2) (us_buf s2) ((us_dsize s1 + 1) mod 2 ^ 29))).
    { unfold sinv. cbn [us_dsize us_vary us_null us_buf]. fold LIM. rewrite Hz.
      destruct Hs2 as (_ & P2 & P3 & _). rewrite Hz in P2. repeat split; try lia; try tauto. }
    unfold append_post. cbn [cu_store]. split; [exact Hinv|]. split; [auto|].
    intros _ Hnn Hlim. rewrite zlen_cons, zlen_nil in Hlim.
    eexists. split; [reflexivity|]. split; [exact Hinv|]. split; [exact G3|].
    unfold cont at 1. cbn [us_dsize us_buf]. fold LIM. rewrite Z.mod_small by lia.
    unfold s2. cbn [us_buf]. rewrite <- G6. unfold cont.
    replace (Z.to_nat (us_dsize s1 + 1)) with (S (Z.to_nat (us_dsize s1))) by lia.
    unfold zlen in *.
    rewrite <- (firstn_skipn (Z.to_nat (us_dsize s1)) (us_buf s1)) at 1.
    assert (Hfl : length (firstn (Z.to_nat (us_dsize s1)) (us_buf s1)) = Z.to_nat (us_dsize s1)) by (rewrite firstn_length; lia).
    rewrite upd_app_r by (rewrite Hfl; lia). rewrite Hfl, Nat.sub_diag.
    destruct (skipn (Z.to_nat (us_dsize s1)) (us_buf s1)) as [|x r] eqn:Es.
    { exfalso. assert (length (skipn (Z.to_nat (us_dsize s1)) (us_buf s1)) = O) by (rewrite Es; reflexivity).
      rewrite skipn_length in H1. lia. }
    cbn [upd]. rewrite firstn_app, Hfl.
    replace (S (Z.to_nat (us_dsize s1)) - Z.to_nat (us_dsize s1))%nat with 1%nat by lia.
    rewrite firstn_all2 by (rewrite Hfl; lia). cbn [firstn]. reflexivity. }
  destruct (zlen (us_buf s) <=? us_dsize s) eqn:E2.
  - pose proof (inflate_spec u s (us_dsize s + 1) Hu Hs) as H.
    destruct (inflate orc u (us_dsize s + 1)) as [[e u1]| |]; cbn [bind]; auto.
    + destruct H as (s1 & H1 & H2 & H3 & (Q1 & Q2 & Q3 & Q4)).
      destruct (e =? NO_ERRORS) eqn:Ee; unfold NO_ERRORS in *; cbn [negb].
      * assert (He0 : e = 0) by lia. destruct (Q4 He0) as (W1 & W2 & W3). rewrite H1. cbn [bind].
        specialize (Hstep u1 s1 H1 Q1 W1 Q2 ltac:(lia) W3). exact Hstep.
      * split; [unfold uinv; rewrite H1; exact Q1|]. split; [|lia].
        right. destruct Q3 as [|[-> Ht]]; [lia|]. split; [lia|exact Ht].
    + left. apply H; lia.
  - cbn [bind]. cbn [negb Z.eqb NO_ERRORS]. unfold NO_ERRORS at 1. cbn [Z.eqb negb]. rewrite Hu. cbn [bind].
    assert (Hnn : us_null s = false).
    { destruct (us_null s) eqn:En; [|reflexivity]. rewrite (Hn eq_refl), zlen_nil in E2. lia. }
    specialize (Hstep u s Hu Hs Hnn eq_refl ltac:(lia) eq_refl). exact Hstep.
Qed.

Lemma add8_none : forall u v, cu_store u = None -> add8 orc u v = Throw.
Proof. intros u v H. unfold add8, the_store. rewrite H. reflexivity. Qed.

Lemma add_bytes_err : forall l u e, e <> 0 ->
  match add_bytes orc u e l with Ok (e', _) => e' <> 0 | _ => True end.
Proof.
  induction l as [|b t IH]; intros u e He; cbn [add_bytes]; auto.
  destruct (add8 orc u b) as [[e1 u1]| |]; cbn [bind]; auto.
  destruct (e1 =? NO_ERRORS); apply IH; auto; unfold GENERAL_ERROR; lia.
Qed.

Lemma add_bytes_safe : forall l u e, uinv u ->
  match add_bytes orc u e l with UB => False | Throw => True | Ok (_, u') => uinv u' end.
Proof.
  induction l as [|b t IH]; intros u e Hu; cbn [add_bytes]; auto.
  destruct (cu_store u) as [s|] eqn:Es.
  - unfold uinv in Hu. rewrite Es in Hu. pose proof (add8_spec u s b Es Hu) as H.
    unfold append_post in H.
    destruct (add8 orc u b) as [[e1 u1]| |]; cbn [bind]; auto. apply IH. tauto.
  - rewrite add8_none by exact Es. cbn. exact I.
Qed.

(** With content: the bytes are appended. *)
Lemma add_bytes_spec : forall l u s, cu_store u = Some s -> sinv s -> bytes_ok l ->
  append_post s l (fun e => e <> 0) (add_bytes orc u 0 l).
Proof.
  induction l as [|b t IH]; intros u s Hu Hs Hb.
  - cbn [add_bytes]. unfold append_post. split; [unfold uinv; rewrite Hu; exact Hs|].
    split; [auto|]. intros _ Hn _. exists s. rewrite app_nil_r. auto.
  - inversion Hb as [|? ? Hb1 Hb2]; subst. cbn [add_bytes].
    pose proof (add8_spec u s b Hu Hs) as H. unfold append_post in H |- *.
    rewrite (byte_k_small b Hb1) in H.
    destruct (add8 orc u b) as [[e1 u1]| |]; cbn [bind]; auto.
    + destruct H as (A1 & A2 & A3).
      destruct (e1 =? NO_ERRORS) eqn:Ee; unfold NO_ERRORS in *.
      * assert (e1 = 0) by lia.
        pose proof (add_bytes_safe t u1 0 A1) as Hsafe.
        destruct (us_null s) eqn:En.
        -- destruct (add_bytes orc u1 0 t) as [[e2 u2]| |] eqn:Et; auto.
           split; [exact Hsafe|]. split; [|discriminate].
           destruct (cu_store u1) as [s1|] eqn:Es1.
           ++ unfold uinv in A1. rewrite Es1 in A1. specialize (IH u1 s1 Es1 A1 Hb2).
              rewrite Et in IH. unfold append_post in IH. tauto.
           ++ destruct t; cbn [add_bytes] in Et.
              ** injection Et as <- <-. auto.
              ** rewrite add8_none in Et by exact Es1. discriminate.
        -- assert (Hlim : us_dsize s + 1 < LIM \/ LIM <= us_dsize s + 1) by lia.
           destruct Hlim as [Hlim|Hlim].
           ++ destruct (A3 H eq_refl ltac:(rewrite zlen_cons, zlen_nil; lia)) as (s1 & B1 & B2 & B3 & B4).
              specialize (IH u1 s1 B1 B2 Hb2). unfold append_post in IH.
              assert (Hd1 : us_dsize s1 = us_dsize s + 1).
              { rewrite <- (cont_zlen s1 B2 B3), B4, zlen_app, zlen_cons, zlen_nil.
                rewrite (cont_zlen s Hs En). lia. }
              rewrite zlen_cons.
              destruct (add_bytes orc u1 0 t) as [[e2 u2]| |]; auto.
              ** destruct IH as (C1 & C2 & C3). split; [exact C1|]. split; [exact C2|].
                 intros He2 _ Hl2. destruct (C3 He2 B3 ltac:(lia)) as (s2 & D1 & D2 & D3 & D4).
                 exists s2. rewrite D4, B4, <- app_assoc. auto.
              ** right. destruct IH as [IH|[IH|IH]]; [congruence|left; lia|right; exact IH].
           ++ rewrite zlen_cons. pose proof (zlen_nonneg _ t).
              destruct (add_bytes orc u1 0 t) as [[e2 u2]| |] eqn:Et; auto; [|right; left; lia].
              split; [exact Hsafe|]. split; [|intros; lia].
              destruct (cu_store u1) as [s1|] eqn:Es1.
              ** unfold uinv in A1. rewrite Es1 in A1. specialize (IH u1 s1 Es1 A1 Hb2).
                 rewrite Et in IH. unfold append_post in IH. tauto.
              ** destruct t; cbn [add_bytes] in Et.
                 --- injection Et as <- <-. auto.
                 --- rewrite add8_none in Et by exact Es1. discriminate.
      * pose proof (add_bytes_safe t u1 GENERAL_ERROR A1) as Hsafe.
        pose proof (add_bytes_err t u1 GENERAL_ERROR ltac:(unfold GENERAL_ERROR; lia)) as Herr.
        assert (Hnt : e1 <> 0 /\ ~ orc_total orc) by (destruct A2 as [A2|A2]; [lia|exact A2]).
        destruct (add_bytes orc u1 GENERAL_ERROR t) as [[e2 u2]| |] eqn:Et; auto.
        -- split; [exact Hsafe|]. split; [|lia]. right. tauto.
        -- right. right. tauto.
    + rewrite !zlen_cons in *. rewrite zlen_nil in H. pose proof (zlen_nonneg _ t). 
      destruct H as [H|[H|H]]; [auto|right; left; lia|auto].
Qed.

Definition set_post (s : ustore) (f : list Z -> Z * list Z) (r : res (Z * cunit)) : Prop :=
  match r with
  | UB => False
  | Throw => us_null s = true
  | Ok (e, u') => uinv u' /\
      (us_null s = false -> exists s', cu_store u' = Some s' /\ sinv s' /\ us_null s' = false /\
          f (cont s) = (e, cont s'))
  end.

Lemma set8_spec : forall u s v i, cu_store u = Some s -> sinv s ->
  set_post s (aset8 v i) (set8 u v i).
Proof.
  intros u s v i Hu Hs. unfold set_post, set8, the_store. rewrite Hu. cbn [bind].
  pose proof Hs as (Hd & Hv & Hn & Hl).
  destruct (us_null s) eqn:En; [split; [unfold uinv; rewrite Hu; exact Hs|discriminate]|].
  specialize (Hl eq_refl). unfold xl_assert. rewrite (get_size_zlen s Hs).
  replace (us_dsize s <=? zlen (us_buf s)) with true by lia. cbn [bind].
  unfold aset8. rewrite (cont_zlen s Hs En).
  assert (0 <= i mod 2 ^ 32) by (apply Z.mod_pos_bound; lia).
  destruct (i mod 2 ^ 32 <? us_dsize s) eqn:E.
  - rewrite raw_write_ok by (auto; lia). cbn [bind].
    set (s1 := mkStore _ _ _ _).
    assert (Hsh : same_shape s s1) by (unfold same_shape, s1; cbn; rewrite upd_length; auto).
    pose proof (same_shape_sinv _ _ Hsh Hs) as Hs1. split; [exact Hs1|]. intros _.
    exists s1. split; [reflexivity|]. split; [exact Hs1|]. split; [exact En|].
    f_equal. unfold cont, s1. cbn [us_buf us_dsize]. rewrite upd_firstn by lia. reflexivity.
  - split; [unfold uinv; rewrite Hu; exact Hs|]. intros _. exists s. auto.
Qed.

Lemma set_bytes_spec : forall l u s e i, cu_store u = Some s -> sinv s ->
  set_post s (aset_bytes e l i) (set_bytes u e l i).
Proof.
  induction l as [|b t IH]; intros u s e i Hu Hs; cbn [set_bytes aset_bytes].
  - unfold set_post. split; [unfold uinv; rewrite Hu; exact Hs|]. intros Hn. exists s. auto.
  - pose proof (set8_spec u s b i Hu Hs) as H. unfold set_post in H |- *.
    destruct (set8 u b i) as [[e1 u1]| |]; cbn [bind]; auto.
    destruct H as (A & B).
    destruct (us_null s) eqn:En.
    + destruct (cu_store u1) as [s1|] eqn:Es1.
      * unfold uinv in A. rewrite Es1 in A.
        specialize (IH u1 s1 (if e1 =? NO_ERRORS then e else GENERAL_ERROR) (i + 1) Es1 A).
        unfold set_post in IH.
        destruct (set_bytes u1 _ t (i + 1)) as [[e2 u2]| |]; auto.
        split; [tauto|discriminate].
      * destruct t as [|b' t']; cbn [set_bytes].
        -- split; [exact A|discriminate].
        -- unfold set8, the_store. rewrite Es1. cbn. reflexivity.
    + destruct (B eq_refl) as (s1 & C1 & C2 & C3 & C4).
      specialize (IH u1 s1 (if e1 =? NO_ERRORS then e else GENERAL_ERROR) (i + 1) C1 C2).
      unfold set_post in IH. rewrite C4.
      destruct (set_bytes u1 _ t (i + 1)) as [[e2 u2]| |]; auto.
      * split; [tauto|]. intros _. destruct IH as (_ & IH). exact (IH C3).
      * congruence.
Qed.

(** One operation against its abstract counterpart. *)

Definition sim_post (a : option (list Z)) (o : uop) (r : res (Z * cunit)) : Prop :=
  match arun_op a o with
  | Ok (e, a') =>
      alen a' < LIM ->
      match r with
      | Ok (e', u') => (e' = e \/ ~ orc_total orc) /\ (e' = e -> R u' a')
      | Throw => ~ orc_total orc
      | UB => False
      end
  | Throw => r = Throw
  | UB => False
  end.

Lemma sim_append : forall a o u s l x (errs : Z -> Prop),
  cu_store u = Some s -> R u a -> a = Some l ->
  arun_op a o = Ok (NO_ERRORS, Some (l ++ x)) ->
  (forall e, errs e -> e <> 0) ->
  append_post s x errs (run_op orc u o) -> sim_post a o (run_op orc u o).
Proof.
  intros a o u s l x errs Hu HR -> Ha He HP. unfold sim_post. rewrite Ha. intros Hlim.
  cbn [alen] in Hlim. rewrite zlen_app in Hlim.
  unfold R in HR. rewrite Hu in HR. destruct HR as (Hs & Hn & Hc).
  pose proof (cont_zlen s Hs Hn) as Hd. rewrite Hc in Hd.
  unfold append_post in HP. destruct (run_op orc u o) as [[e u']| |]; auto.
  - destruct HP as (A & B & C). split; [unfold NO_ERRORS; tauto|].
    intros E. destruct (C E Hn ltac:(lia)) as (s' & D1 & D2 & D3 & D4).
    unfold R. rewrite D1. rewrite D4, Hc. auto.
  - destruct HP as [HP|[HP|HP]]; [congruence|lia|exact HP].
Qed.

Lemma sim_set : forall a o u s l f,
  cu_store u = Some s -> R u a -> a = Some l ->
  arun_op a o = (let '(e, l') := f l in Ok (e, Some l')) ->
  set_post s f (run_op orc u o) -> sim_post a o (run_op orc u o).
Proof.
  intros a o u s l f Hu HR -> Ha HP. unfold sim_post. rewrite Ha.
  unfold R in HR. rewrite Hu in HR. destruct HR as (Hs & Hn & Hc). subst l.
  unfold set_post in HP. destruct (run_op orc u o) as [[e u']| |].
  - destruct HP as (A & B). destruct (B Hn) as (s' & C1 & C2 & C3 & C4). rewrite C4.
    intros _. split; [auto|]. intros _. unfold R. rewrite C1. auto.
  - congruence.
  - contradiction.
Qed.

Lemma map_byte_repeat : forall v n, map (byte_k 0) (repeat v n) = repeat (byte_k 0 v) n.
Proof. intros v n. induction n as [|n IH]; cbn; [reflexivity|]. rewrite IH. reflexivity. Qed.

Lemma sim_array_none : forall u l, cu_store u = None ->
  match add_array orc u l with
  | Ok (e', u') => (e' = 0 \/ ~ orc_total orc) /\ uinv u' /\
      (e' = 0 -> zlen l < LIM -> R u' (Some (map (byte_k 0) l)))
  | Throw => LIM <= zlen l \/ ~ orc_total orc
  | UB => False
  end.
Proof.
  intros u l Hu. unfold add_array. rewrite Hu.
  pose proof (request_index_spec u (zlen l)) as H.
  destruct (request_index orc u (zlen l)) as [e0 u0]. destruct H as (A & [(-> & s & B1 & B2 & B3 & B4 & B5 & B6)|(-> & Ht)]).
  - unfold NO_ERRORS. cbn [Z.eqb negb].
    pose proof (add_array_spec u0 s l B1 B2) as HP. unfold add_array in HP. rewrite B1 in HP.
    unfold NO_ERRORS at 1 in HP. cbn [Z.eqb negb] in HP.
    unfold append_post in HP. unfold NO_ERRORS in HP.
    match goal with |- match ?X with _ => _ end => destruct X as [[e' u']| |] end; auto.
    + destruct HP as (C1 & C2 & C3). split; [tauto|]. split; [exact C1|]. intros He Hlim.
      destruct (C3 He B3) as (s' & D1 & D2 & D3 & D4). { rewrite zlen_map. lia. }
      unfold R. rewrite D1. rewrite D4, B4. auto.
    + rewrite zlen_map in HP. destruct HP as [HP|[HP|HP]]; [congruence|left; lia|auto].
  - unfold GENERAL_ERROR, NO_ERRORS. cbn [Z.eqb negb]. split; [auto|]. split; [exact A|]. discriminate.
Qed.

Lemma op_sim : forall u a o, R u a -> sim_post a o (run_op orc u o).
Proof.
  intros u a o HR. pose proof HR as HR0. unfold R in HR0.
  destruct (cu_store u) as [s|] eqn:Hu; destruct a as [l|]; try contradiction.
  - destruct HR0 as (Hs & Hn & Hc).
    destruct o.
    + eapply sim_append; try eassumption; try reflexivity; [|apply add8_spec; auto]; auto.
    + eapply sim_append; try eassumption; try reflexivity; [|apply add_bytes_spec; auto using le16_ok]; auto.
    + eapply sim_append; try eassumption; try reflexivity; [|apply add_bytes_spec; auto using le32_ok]; auto.
    + eapply sim_append; try eassumption; try reflexivity; [|apply add_bytes_spec; auto using le64_ok]; auto.
    + eapply sim_set; try eassumption; try reflexivity. apply set8_spec; auto.
    + eapply sim_set; try eassumption; try reflexivity. apply set_bytes_spec; auto.
    + eapply sim_set; try eassumption; try reflexivity. apply set_bytes_spec; auto.
    + eapply sim_append; try eassumption; try reflexivity; [|apply add_array_spec; auto]; auto.
    + eapply sim_append; try eassumption; try reflexivity; [|].
      2:{ cbn [run_op]. rewrite <- map_byte_repeat. apply add_array_spec; auto. } auto.
    + eapply sim_append; try eassumption; try reflexivity; [|apply append_unit_spec; auto]; auto.
    + eapply sim_append; try eassumption; try reflexivity; [|apply add_str_spec; auto]; auto.
    + unfold sim_post. cbn [arun_op run_op].
      pose proof (inflate_spec u s n Hu Hs) as H.
      assert (Hd : us_dsize s = zlen l) by (rewrite <- Hc; symmetry; apply cont_zlen; auto).
      destruct (0 <? n) eqn:E1; cbn [andb].
      * destruct (zlen l <=? n) eqn:E2.
        -- intros _. destruct (inflate orc u n) as [[e u']| |].
           ++ destruct H as (s' & H1 & H2 & H3 & (Q1 & Q2 & Q3 & Q4)).
              unfold NO_ERRORS. split; [tauto|]. intros He. destruct (Q4 He) as (W1 & W2 & W3).
              unfold R. rewrite H1, W3. auto.
           ++ exfalso. rewrite H in Hn; [discriminate|lia|lia].
           ++ exact H.
        -- destruct (inflate orc u n) as [[e u']| |]; [|reflexivity|contradiction].
           destruct H as (s' & H1 & H2 & H3 & _). lia.
      * destruct (inflate orc u n) as [[e u']| |]; [|reflexivity|contradiction].
        destruct H as (s' & H1 & H2 & H3 & _). lia.
    + eapply sim_set with (f := fun l => aset_bytes NO_ERRORS (le16 (zlen l - base)) pos l);
        try eassumption; try reflexivity.
      cbn [run_op]. unfold the_store. rewrite Hu. cbn [bind].
      pose proof (set_bytes_spec (le16 (us_dsize s - base)) u s NO_ERRORS pos Hu Hs) as H.
      unfold set_post in *. rewrite (cont_zlen s Hs Hn). exact H.
  - destruct o; unfold sim_post; cbn [arun_op run_op amap];
      try (unfold add8, the_store; rewrite Hu; reflexivity);
      try (cbn [add_bytes le16 le32 le64]; rewrite add8_none by exact Hu; reflexivity);
      try (unfold set8, the_store; rewrite Hu; reflexivity);
      try (unfold le16, le32; cbn [set_bytes]; unfold set8, the_store; rewrite Hu; reflexivity).
    + cbn [app]. intros Hlim. cbn [alen] in Hlim. rewrite zlen_map in Hlim.
      pose proof (sim_array_none u l Hu) as H.
      destruct (add_array orc u l) as [[e' u']| |]; auto.
      * unfold NO_ERRORS. tauto.
      * destruct H; [lia|exact H].
    + cbn [app]. intros Hlim. cbn [alen] in Hlim. rewrite <- map_byte_repeat in *. rewrite zlen_map in Hlim.
      pose proof (sim_array_none u (repeat v (Z.to_nat n)) Hu) as H.
      destruct (add_array orc u (repeat v (Z.to_nat n))) as [[e' u']| |]; auto.
      * unfold NO_ERRORS. tauto.
      * destruct H; [lia|exact H].
    + unfold append_unit, ensure, the_store. rewrite Hu. reflexivity.
    + unfold add_str, ensure, the_store. rewrite Hu. reflexivity.
    + unfold inflate. rewrite Hu. unfold xl_assert. destruct (0 <? n) eqn:E; cbn [bind]; [|reflexivity].
      intros _. pose proof (request_index_spec u n) as H.
      destruct (request_index orc u n) as [e u']. destruct H as (A & [(-> & s & B1 & B2 & B3 & B4 & B5)|(-> & Ht)]).
      * unfold NO_ERRORS. split; [auto|]. intros _. unfold R. rewrite B1. auto.
      * split; [auto|]. unfold GENERAL_ERROR, NO_ERRORS. discriminate.
Qed.

(** Memory safety for every allocator, every buffer state and every operation. *)
Lemma op_safe : forall u o, uinv u ->
  match run_op orc u o with UB => False | Throw => True | Ok (_, u') => uinv u' end.
Proof.
  intros u o Hu. destruct (cu_store u) as [s|] eqn:Es.
  - unfold uinv in Hu. rewrite Es in Hu.
    assert (HA : forall l e r, append_post s l e r -> match r with UB => False | Throw => True | Ok (_, u') => uinv u' end).
    { intros l e r H. unfold append_post in H. destruct r as [[? ?]| |]; tauto. }
    assert (HS : forall f r, set_post s f r -> match r with UB => False | Throw => True | Ok (_, u') => uinv u' end).
    { intros f r H. unfold set_post in H. destruct r as [[? ?]| |]; tauto. }
    destruct o; cbn [run_op].
    + eapply HA, add8_spec; eauto.
    + apply add_bytes_safe; unfold uinv; rewrite Es; exact Hu.
    + apply add_bytes_safe; unfold uinv; rewrite Es; exact Hu.
    + apply add_bytes_safe; unfold uinv; rewrite Es; exact Hu.
    + eapply HS, set8_spec; eauto.
    + eapply HS, set_bytes_spec; eauto.
    + eapply HS, set_bytes_spec; eauto.
    + eapply HA, add_array_spec; eauto.
    + eapply HA, add_array_spec; eauto.
    + eapply HA, append_unit_spec; eauto.
    + eapply HA, add_str_spec; eauto.
    + pose proof (inflate_spec u s n Es Hu) as H.
      destruct (inflate orc u n) as [[e u']| |]; auto.
      destruct H as (s' & H1 & H2 & H3 & (Q1 & _)). unfold uinv. rewrite H1. exact Q1.
    + unfold the_store. rewrite Es. cbn [bind]. eapply HS, set_bytes_spec; eauto.
  - destruct o; cbn [run_op];
      try (unfold add8, the_store; rewrite Es; exact I);
      try (unfold le16, le32, le64; cbn [add_bytes]; rewrite add8_none by exact Es; exact I);
      try (unfold set8, the_store; rewrite Es; exact I);
      try (unfold le16, le32; cbn [set_bytes]; unfold set8, the_store; rewrite Es; exact I).
    + pose proof (sim_array_none u l Es) as H.
      destruct (add_array orc u l) as [[e' u']| |]; tauto.
    + pose proof (sim_array_none u (repeat v (Z.to_nat n)) Es) as H.
      destruct (add_array orc u (repeat v (Z.to_nat n))) as [[e' u']| |]; tauto.
    + unfold append_unit, ensure, the_store. rewrite Es. exact I.
    + unfold add_str, ensure, the_store. rewrite Es. exact I.
    + unfold inflate. rewrite Es. unfold xl_assert. destruct (0 <? n) eqn:E; cbn [bind]; [|exact I].
      pose proof (request_index_spec u n) as H. destruct (request_index orc u n) as [e u']. tauto.
Qed.

Lemma alen_mono : forall a o e a', arun_op a o = Ok (e, a') -> alen a <= alen a'.
Proof.
  assert (H8 : forall v i l e l', aset8 v i l = (e, l') -> zlen l' = zlen l).
  { intros v i l e l' H. unfold aset8 in H. destruct (_ <? _); injection H as <- <-; [|reflexivity].
    unfold zlen. rewrite upd_length. reflexivity. }
  assert (HB : forall bs e0 i l e l', aset_bytes e0 bs i l = (e, l') -> zlen l' = zlen l).
  { induction bs as [|b t IH]; intros e0 i l e l' H; cbn [aset_bytes] in H.
    - injection H as <- <-. reflexivity.
    - destruct (aset8 b i l) as [e1 l1] eqn:E. apply H8 in E. apply IH in H. lia. }
  intros a o e a' H. destruct a as [l|].
  - destruct o; cbn [arun_op amap] in H.
    all: try (injection H as <- <-; cbn [alen]; rewrite zlen_app;
              match goal with |- _ <= _ + zlen ?x => pose proof (zlen_nonneg _ x) end; lia).
    + destruct (aset8 v i l) as [e1 l1] eqn:E. apply H8 in E. injection H as <- <-. cbn. lia.
    + destruct (aset_bytes _ _ i l) as [e1 l1] eqn:E. apply HB in E. injection H as <- <-. cbn. lia.
    + destruct (aset_bytes _ _ i l) as [e1 l1] eqn:E. apply HB in E. injection H as <- <-. cbn. lia.
    + destruct (_ && _)%bool; [|discriminate]. injection H as <- <-. lia.
    + destruct (aset_bytes _ _ pos l) as [e1 l1] eqn:E. apply HB in E. injection H as <- <-. cbn. lia.
  - destruct a' as [l'|]; cbn [alen]; try lia; apply zlen_nonneg.
Qed.

Lemma alen_mono_ops : forall ops a es a', arun_ops a ops = Ok (es, a') -> alen a <= alen a'.
Proof.
  induction ops as [|o t IH]; intros a es a' H; cbn [arun_ops] in H.
  - injection H as <- <-. lia.
  - destruct (arun_op a o) as [[e a1]| |] eqn:E; try discriminate. cbn [bind] in H.
    destruct (arun_ops a1 t) as [[es2 a2]| |] eqn:E2; try discriminate. cbn [bind] in H.
    injection H as <- <-. apply alen_mono in E. apply IH in E2. lia.
Qed.

Lemma ops_safe : forall ops u, uinv u ->
  match run_ops orc u ops with UB => False | Throw => True | Ok (_, u') => uinv u' end.
Proof.
  induction ops as [|o t IH]; intros u Hu; cbn [run_ops]; auto.
  pose proof (op_safe u o Hu) as H. destruct (run_op orc u o) as [[e u1]| |]; cbn [bind]; auto.
  specialize (IH u1 H). destruct (run_ops orc u1 t) as [[es u2]| |]; cbn [bind]; auto.
Qed.

(** If the visible error codes are those of the byte-list semantics, so is the content. *)
Lemma ops_sim : forall ops u a es a', R u a -> arun_ops a ops = Ok (es, a') -> alen a' < LIM ->
  match run_ops orc u ops with
  | Ok (es', u') => (es' = es \/ ~ orc_total orc) /\ (es' = es -> R u' a')
  | Throw => ~ orc_total orc
  | UB => False
  end.
Proof.
  induction ops as [|o t IH]; intros u a es a' HR Ha Hlim; cbn [run_ops arun_ops] in *.
  - injection Ha as <- <-. auto.
  - destruct (arun_op a o) as [[e a1]| |] eqn:E; try discriminate. cbn [bind] in Ha.
    destruct (arun_ops a1 t) as [[es2 a2]| |] eqn:E2; try discriminate. cbn [bind] in Ha.
    injection Ha as <- <-.
    pose proof (alen_mono_ops _ _ _ _ E2) as Hm.
    pose proof (op_sim u a o HR) as HS. unfold sim_post in HS. rewrite E in HS. specialize (HS ltac:(lia)).
    assert (Hui : uinv u).
    { unfold R in HR. unfold uinv. destruct (cu_store u); [|exact I]. destruct a; tauto. }
    pose proof (op_safe u o Hui) as Hsf.
    destruct (run_op orc u o) as [[e' u1]| |]; cbn [bind]; auto.
    destruct HS as (HS1 & HS2).
    assert (Hdec : e' = e \/ e' <> e) by lia. destruct Hdec as [->|Hne].
    + specialize (IH u1 a1 es2 a2 (HS2 eq_refl) E2 Hlim).
      destruct (run_ops orc u1 t) as [[es' u']| |]; cbn [bind]; auto.
      destruct IH as (I1 & I2). split.
      * destruct I1 as [->|I1]; auto.
      * intros Heq. injection Heq as ->. auto.
    + assert (Hnt : ~ orc_total orc) by (destruct HS1; [contradiction|assumption]).
      pose proof (ops_safe t u1 Hsf) as Hsf2.
      destruct (run_ops orc u1 t) as [[es' u']| |]; cbn [bind]; auto.
      split; [auto|]. intros Heq. injection Heq as Heq1 Heq2. contradiction.
Qed.

Lemma ops_throw : forall ops a u, orc_total orc -> R u a ->
  (forall pre post es a', ops = pre ++ post -> arun_ops a pre = Ok (es, a') -> alen a' < LIM) ->
  arun_ops a ops = Throw -> run_ops orc u ops = Throw.
Proof.
  induction ops as [|o t IH]; intros a u Ht HR Hl H; cbn [run_ops arun_ops] in *; [discriminate|].
  pose proof (op_sim u a o HR) as HS. unfold sim_post in HS.
  destruct (arun_op a o) as [[e a1]| |] eqn:E.
  - cbn [bind] in H.
    assert (Hlim : alen a1 < LIM).
    { apply (Hl [o] t [e] a1 eq_refl). cbn [arun_ops]. rewrite E. reflexivity. }
    specialize (HS Hlim). destruct (run_op orc u o) as [[e' u1]| |]; cbn [bind]; auto; [|contradiction].
    destruct HS as (HS1 & HS2). assert (e' = e) by tauto. subst e'.
    rewrite (IH a1 u1 Ht (HS2 eq_refl)); [reflexivity| |].
    + intros pre post es a' Hp Hr. apply (Hl (o :: pre) post (e :: es) a'); [rewrite Hp; reflexivity|].
      cbn [arun_ops]. rewrite E. cbn [bind]. rewrite Hr. reflexivity.
    + destruct (arun_ops a1 t) as [[? ?]| |]; cbn [bind] in H; congruence.
  - rewrite HS. reflexivity.
  - contradiction.
Qed.
End P.

Lemma R_content : forall u l, R u (Some l) -> content u = Some l.
Proof.
  intros u l H. unfold R in H. unfold content. destruct (cu_store u) as [s|]; [|contradiction].
  destruct H as (Hs & Hn & Hc). rewrite Hn. unfold cont in Hc. rewrite Hc. reflexivity.
Qed.
