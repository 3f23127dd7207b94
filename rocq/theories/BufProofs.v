(** The abstract buffer semantics of UnitModel agrees with SpecBuf. *)
From Coq Require Import ZArith List Lia Bool.
From Coq Require Import ZifyBool ZifyNat.
From Verif Require Import Bytes UnitModel UnitProofs SpecBuf.
Import ListNotations.
Local Open Scope Z_scope.
Ltac Zify.zify_post_hook ::= Z.div_mod_to_equations.

Lemma digits1 v : digits 1 v = [byte_k 0 v].
Proof. cbn [digits]. rewrite byte_k0. reflexivity. Qed.
Lemma digits2 v : digits 2 v = le16 v.
Proof. cbn [digits]. unfold le16. rewrite byte_k0, byte_k1. reflexivity. Qed.
Lemma digits4 v : digits 4 v = le32 v.
Proof.
  cbn [digits]. unfold le32. rewrite byte_k0, byte_k1, byte_k2, byte_k3.
  rewrite !Z.div_div by lia. reflexivity.
Qed.
Lemma digits8 v : digits 8 v = le64 v.
Proof.
  cbn [digits]. unfold le64.
  rewrite byte_k0, byte_k1, byte_k2, byte_k3, byte_k4, byte_k5, byte_k6, byte_k7.
  rewrite !Z.div_div by lia. reflexivity.
Qed.

Lemma upd_split {A} i (v : A) l : (i < length l)%nat -> upd i v l = firstn i l ++ v :: skipn (S i) l.
Proof.
  revert l. induction i; intros [|x l] H; cbn [length] in H; try lia; cbn [upd firstn skipn app]; auto.
  rewrite IHi by lia. reflexivity.
Qed.

Lemma aset_overwrite bs : forall e i l, bytes_ok bs -> 0 <= i -> i + zlen bs <= 4294967296 ->
  snd (aset_bytes e bs i l) = overwrite l (Z.to_nat i) bs.
Proof.
  induction bs as [|b t IH]; intros e i l Hb Hi Hl; cbn [aset_bytes overwrite]; [reflexivity|].
  inversion Hb; subst. rewrite zlen_cons in Hl. pose proof (zlen_nonneg _ t).
  unfold aset8. change (2 ^ 32) with 4294967296. rewrite Z.mod_small by lia.
  destruct (Z.ltb_spec i (zlen l)).
  - replace (Nat.ltb (Z.to_nat i) (length l)) with true by (symmetry; apply Nat.ltb_lt; unfold zlen in *; lia).
    rewrite IH by (auto; lia). replace (Z.to_nat (i + 1)) with (S (Z.to_nat i)) by lia.
    rewrite upd_split by (unfold zlen in *; lia). rewrite byte_k_small by auto. reflexivity.
  - replace (Nat.ltb (Z.to_nat i) (length l)) with false by (symmetry; apply Nat.ltb_ge; unfold zlen in *; lia).
    rewrite IH by (auto; lia). replace (Z.to_nat (i + 1)) with (S (Z.to_nat i)) by lia. reflexivity.
Qed.

Lemma map_byte_id l : Forall (fun b => 0 <= b < 256) l -> map (byte_k 0) l = l.
Proof. induction 1; cbn [map]; [reflexivity|]. rewrite byte_k_small, IHForall; auto. Qed.

Lemma lor_le_127 a b : 0 <= a -> 0 <= b -> (Z.lor a b <=? 127) = ((a <=? 127) && (b <=? 127))%bool.
Proof.
  intros Ha Hb.
  assert (G : forall x, 0 <= x -> (x <=? 127) = (Z.shiftr x 7 =? 0)).
  { intros x Hx. rewrite Z.shiftr_div_pow2 by lia. change (2 ^ 7) with 128. lia. }
  rewrite !G by (auto; apply Z.lor_nonneg; auto). rewrite Z.shiftr_lor.
  destruct (Z.eqb_spec (Z.lor (Z.shiftr a 7) (Z.shiftr b 7)) 0) as [E|E].
  - apply Z.lor_eq_0_iff in E. destruct E as [-> ->]. reflexivity.
  - destruct (Z.eqb_spec (Z.shiftr a 7) 0) as [Ea|]; [|reflexivity].
    destruct (Z.eqb_spec (Z.shiftr b 7) 0) as [Eb|]; [|reflexivity].
    rewrite Ea, Eb in E. cbn in E. lia.
Qed.

Lemma is_ascii_compressible s : Forall (fun c => 0 <= c < 65536) s -> is_ascii s = compressible s.
Proof.
  intro H. unfold is_ascii.
  assert (G : forall s a, 0 <= a -> Forall (fun c => 0 <= c < 65536) s ->
     (fold_left Z.lor s a <=? 127) = ((a <=? 127) && compressible s)%bool).
  { clear. intro s. induction s; intros a0 Ha Hs; cbn [fold_left compressible forallb].
    - lia.
    - inversion Hs; subst. rewrite IHs; [|apply Z.lor_nonneg; lia|auto].
      rewrite lor_le_127 by lia. fold (compressible s). destruct (compressible s); lia. }
  rewrite G by (auto; lia). reflexivity.
Qed.

Lemma compressible_small s : compressible s = true -> Forall (fun b => 0 <= b < 128) s.
Proof.
  unfold compressible. rewrite forallb_forall. intro H. apply Forall_forall. intros x Hx.
  specialize (H x Hx). lia.
Qed.

Lemma ustr_spec s f : Forall (fun c => 0 <= c < 65536) s -> ustr_bytes s f = spec_string s f.
Proof.
  intro H. unfold ustr_bytes, ustr_header, ustr_body, spec_string.
  rewrite is_ascii_compressible by auto.
  destruct (compressible s) eqn:E.
  - rewrite map_byte_id.
    2:{ apply compressible_small in E. eapply Forall_impl; [|exact E]. cbn. lia. }
    destruct f; rewrite ?digits1, ?digits2; reflexivity.
  - assert (flat_map (fun c : Z => [byte_k 0 c; byte_k 1 c]) s = flat_map (digits 2) s) as ->.
    { apply flat_map_ext. intro. rewrite digits2. reflexivity. }
    destruct f; rewrite ?digits1, ?digits2; reflexivity.
Qed.

Lemma op_agrees l o : op_typed l o ->
  exists e, arun_op (Some l) o = Ok (e, Some (spec_op l o)).
Proof.
  destruct o; cbn [arun_op amap spec_op op_typed]; intro H;
    rewrite ?digits1, ?digits2, ?digits4, ?digits8; eauto.
  - pose proof (aset_overwrite [byte_k 0 v] 0 i l) as E. cbn [aset_bytes] in E.
    assert (A : aset8 v i l = aset8 (byte_k 0 v) i l).
    { unfold aset8. rewrite byte_k0_idem by lia. reflexivity. }
    rewrite A. destruct (aset8 (byte_k 0 v) i l). cbn [snd] in E. rewrite <- E; eauto; try lia.
    + repeat constructor; apply byte_k_byte; lia.
    + change (zlen [byte_k 0 v]) with 1. lia.
  - pose proof (aset_overwrite (le16 v) 0 i l (le16_ok v)) as E. rewrite zlen_le16 in E.
    unfold NO_ERRORS. destruct (aset_bytes 0 (le16 v) i l). cbn [snd] in E. rewrite <- E by lia. eauto.
  - pose proof (aset_overwrite (le32 v) 0 i l (le32_ok v)) as E. rewrite zlen_le32 in E.
    unfold NO_ERRORS. destruct (aset_bytes 0 (le32 v) i l). cbn [snd] in E. rewrite <- E by lia. eauto.
  - rewrite map_byte_id by auto. eauto.
  - rewrite byte_k_small by auto. eauto.
  - rewrite map_byte_id by auto. eauto.
  - rewrite ustr_spec by auto. eauto.
  - replace ((0 <? n) && (zlen l <=? n))%bool with true by lia. eauto.
  - pose proof (aset_overwrite (le16 (zlen l - base)) 0 pos l (le16_ok _)) as E. rewrite zlen_le16 in E.
    unfold NO_ERRORS. destruct (aset_bytes 0 _ pos l). cbn [snd] in E. rewrite <- E by lia. eauto.
Qed.

Lemma ops_agree ops : forall l, ops_typed l ops ->
  exists es, arun_ops (Some l) ops = Ok (es, Some (fold_left spec_op ops l)).
Proof.
  induction ops as [|o t IH]; intros l H; cbn [arun_ops fold_left]; eauto.
  destruct H as [H1 H2]. destruct (op_agrees l o H1) as [e ->]. cbn [bind].
  destruct (IH _ H2) as [es ->]. cbn [bind]. eauto.
Qed.

Lemma ops_agree_new o ops : obtains_storage o = true -> ops_typed [] (o :: ops) ->
  exists es, arun_ops None (o :: ops) = Ok (es, Some (spec_ops (o :: ops))).
Proof.
  intros Ho [H1 H2]. unfold spec_ops. cbn [fold_left arun_ops].
  assert (E : exists e, arun_op None o = Ok (e, Some (spec_op [] o))).
  { destruct o; try discriminate; cbn [arun_op spec_op op_typed] in *.
    - rewrite map_byte_id by auto. eauto.
    - rewrite byte_k_small by auto. eauto.
    - replace (0 <? n) with true by lia. eauto. }
  destruct E as [e ->]. cbn [bind]. destruct (ops_agree ops _ H2) as [es ->]. cbn [bind]. eauto.
Qed.

(** ** C01 *)
Lemma buffer_content orc o ops :
  obtains_storage o = true -> ops_typed [] (o :: ops) -> zlen (spec_ops (o :: ops)) < 536870912 ->
  (forall k, orc k <> None) ->
  exists es u, run_ops orc unit_new (o :: ops) = Ok (es, u) /\ content u = Some (spec_ops (o :: ops)).
Proof.
  intros Ho Ht Hl Htot. destruct (ops_agree_new o ops Ho Ht) as [es E].
  pose proof (ops_sim orc (o :: ops) unit_new None es (Some (spec_ops (o :: ops))) I E) as S.
  cbn [alen] in S. rewrite LIM_val in S. specialize (S Hl).
  destruct (run_ops orc unit_new (o :: ops)) as [[es' u]| |].
  - destruct S as [[->|N] S2]; [|exfalso; apply N; exact Htot].
    exists es, u. split; auto. apply R_content. auto.
  - exfalso. apply S. exact Htot.
  - contradiction.
Qed.

(** ** C02 *)
Lemma buffer_safe orc ops : run_ops orc unit_new ops <> UB.
Proof.
  pose proof (ops_safe orc ops unit_new I). destruct (run_ops orc unit_new ops); congruence.
Qed.

(** If the codes are all those of the failure-free run, the content is right. *)
Lemma buffer_no_silent orc orc' o ops es u es' u' :
  obtains_storage o = true -> ops_typed [] (o :: ops) -> zlen (spec_ops (o :: ops)) < 536870912 ->
  (forall k, orc' k <> None) ->
  run_ops orc unit_new (o :: ops) = Ok (es, u) ->
  run_ops orc' unit_new (o :: ops) = Ok (es', u') ->
  es = es' -> content u = Some (spec_ops (o :: ops)).
Proof.
  intros Ho Ht Hl Htot H1 H2 ->. destruct (ops_agree_new o ops Ho Ht) as [es0 E].
  pose proof (ops_sim orc (o :: ops) unit_new None es0 (Some (spec_ops (o :: ops))) I E) as S.
  pose proof (ops_sim orc' (o :: ops) unit_new None es0 (Some (spec_ops (o :: ops))) I E) as S'.
  cbn [alen] in S, S'. rewrite LIM_val in S, S'. specialize (S Hl). specialize (S' Hl).
  rewrite H1 in S. rewrite H2 in S'. destruct S' as [[->|N] _]; [|exfalso; apply N; exact Htot].
  apply R_content. tauto.
Qed.

(** ** C04 *)
Lemma take_narrow s r : take_units (length s) false (s ++ r) = Some (s, r).
Proof. induction s; cbn [take_units length app]; [reflexivity|]. rewrite IHs. reflexivity. Qed.
Lemma take_wide s r : Forall (fun c => 0 <= c < 65536) s ->
  take_units (length s) true (flat_map (digits 2) s ++ r) = Some (s, r).
Proof.
  induction 1; [reflexivity|]. cbn [flat_map length take_units].
  rewrite digits2. cbn [le16 app]. rewrite IHForall.
  change [byte_k 0 x; byte_k 1 x] with (le16 x). rewrite le16_value, Z.mod_small by lia. reflexivity.
Qed.

Lemma read_spec_string s f n r : Forall (fun c => 0 <= c < 65536) s ->
  (f = LEN1 /\ n = 1%nat /\ zlen s <= 255) \/ (f = LEN2 /\ n = 2%nat /\ zlen s <= 65535) ->
  read_string n (spec_string s f ++ r) = Some (s, r).
Proof.
  intros Hs H. pose proof (zlen_nonneg _ s).
  assert (G : forall h, length h = n -> le_value h = zlen s ->
    read_string n ((h ++ (if compressible s then 0 :: s else 1 :: flat_map (digits 2) s)) ++ r) = Some (s, r)).
  { intros h Hh Hv. unfold read_string. rewrite <- app_assoc.
    rewrite firstn_app, skipn_app, Hh, Nat.sub_diag. cbn [firstn skipn].
    rewrite app_nil_r. rewrite <- Hh, firstn_all, skipn_all, Hv. cbn [app].
    unfold zlen. rewrite Nat2Z.id.
    destruct (compressible s); cbn [app].
    - rewrite Z.eqb_refl. apply take_narrow.
    - change (1 =? 0) with false. change (1 =? 1) with true. cbn iota. apply take_wide; auto. }
  unfold spec_string. destruct H as [(-> & -> & Hl)|(-> & -> & Hl)]; apply G; try reflexivity.
  - rewrite digits1. cbn [le_value]. rewrite byte_k0. lia.
  - rewrite digits2, le16_value. lia.
Qed.

(** ** C03 *)
Lemma spec_ops_snoc ops o : spec_ops (ops ++ [o]) = spec_op (spec_ops ops) o.
Proof. unfold spec_ops. rewrite fold_left_app. reflexivity. Qed.

Lemma digits_length n v : length (digits n v) = n.
Proof. revert v. induction n; intros; cbn [digits length]; auto. Qed.
Lemma digits_value n v : le_value (digits n v) = v mod 256 ^ Z.of_nat n.
Proof.
  revert v. induction n; intro v; cbn [digits le_value].
  - rewrite Z.mod_1_r. reflexivity.
  - rewrite IHn. rewrite Nat2Z.inj_succ, Z.pow_succ_r by lia.
    rewrite Z.rem_mul_r by (try apply Z.pow_pos_nonneg; lia). lia.
Qed.

Lemma rd_append l n v : rd n (l ++ digits n v) (length l) = Some (v mod 256 ^ Z.of_nat n).
Proof.
  rewrite <- digits_value. apply (rd_at n _ l _ []); rewrite ?app_nil_r, ?digits_length; reflexivity.
Qed.

Lemma overwrite_spec bs : forall l i, (i + length bs <= length l)%nat ->
  overwrite l i bs = firstn i l ++ bs ++ skipn (i + length bs) l.
Proof.
  induction bs as [|b t IH]; intros l i H; cbn [overwrite length app] in *.
  - rewrite Nat.add_0_r, firstn_skipn. reflexivity.
  - replace (Nat.ltb i (length l)) with true by (symmetry; apply Nat.ltb_lt; lia).
    rewrite IH.
    2:{ rewrite app_length, firstn_length. cbn [length]. rewrite skipn_length. lia. }
    assert (L : length (firstn i l) = i) by (rewrite firstn_length; lia).
    replace (S i) with (length (firstn i l ++ [b]) + 0)%nat at 1 by (rewrite app_length; cbn [length]; lia).
    change (firstn i l ++ b :: skipn (S i) l) with (firstn i l ++ [b] ++ skipn (S i) l).
    rewrite (app_assoc (firstn i l) [b]).
    rewrite firstn_app_2. cbn [firstn]. rewrite app_nil_r, <- app_assoc. cbn [app]. do 3 f_equal.
    rewrite skipn_app, skipn_all2 by (rewrite app_length; cbn [length]; lia).
    cbn [app]. rewrite app_length, L. cbn [length]. rewrite skipn_skipn. f_equal. lia.
Qed.

Lemma rd_overwrite l i n v : (i + n <= length l)%nat ->
  rd n (overwrite l i (digits n v)) i = Some (v mod 256 ^ Z.of_nat n).
Proof.
  intro H. rewrite overwrite_spec by (rewrite digits_length; exact H). rewrite <- digits_value.
  apply (rd_at n _ (firstn i l) (digits n v) (skipn (i + length (digits n v)) l));
    rewrite ?digits_length, ?firstn_length; auto. lia.
Qed.
