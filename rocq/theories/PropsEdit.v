(** Property theorems C56 and C57: bytes of a record read and replaced in place, and the switches
    of the view record. *)
From Coq Require Import ZArith List Lia Bool ZifyBool ZifyNat.
From Verif Require Import Bytes UnitModel UnitProofs SpecBuf BufProofs RecModel EditModel SpecEdit SpecView.
Import ListNotations.
Local Open Scope Z_scope.

(* ------------------------------------------------------------------ *)
(** * No access outside the owned storage *)

Definition fine (r : res (list Z * cunit)) : Prop := match r with UB => False | Throw => True | Ok (_, u) => uinv u end.
Lemma poke_as_write l : forall s i, 0 <= i -> i + zlen l <= 4294967296 ->
  poke_loop s i l = (let* (s', _) := write_loop s i l in Ok s').
Proof.
  induction l as [|b t IH]; intros s i A B; cbn [poke_loop write_loop]; [reflexivity|].
  rewrite zlen_cons in B. pose proof (zlen_nonneg _ t). destruct (xl_assert (i <? get_size s)); cbn [bind]; try reflexivity.
  destruct (raw_write s i b) as [s'| |]; cbn [bind]; try reflexivity.
  destruct t as [|c t]; [reflexivity|]. rewrite zlen_cons in B, H. pose proof (zlen_nonneg _ t).
  rewrite Z.mod_small by (change (2 ^ 32) with 4294967296; lia). apply IH; rewrite ?zlen_cons; lia.
Qed.
Lemma poke_safe l : forall s i, sinv s -> 0 <= i ->
  match poke_loop s i l with UB => False | Throw => True | Ok s' => same_shape s s' end.
Proof.
  induction l as [|b t IH]; intros s i S A; cbn [poke_loop]; [apply same_shape_refl|].
  unfold xl_assert. rewrite (get_size_zlen s S). destruct (i <? zlen (us_buf s)) eqn:E; cbn [bind]; [|exact I].
  assert (N : us_null s = false).
  { destruct (us_null s) eqn:En; [|reflexivity]. destruct S as (_ & _ & Q & _). rewrite (Q En), zlen_nil in E. lia. }
  rewrite raw_write_ok by (auto; lia). cbn [bind]. set (s1 := mkStore _ _ _ _).
  assert (H : same_shape s s1) by (unfold same_shape, s1; cbn; rewrite upd_length; auto).
  pose proof (IH s1 ((i + 1) mod 2 ^ 32) (same_shape_sinv _ _ H S) ltac:(apply Z.mod_pos_bound; lia)) as K.
  destruct (poke_loop s1 _ t); auto. eapply same_shape_trans; eauto.
Qed.
Lemma at_safe u i : uinv u -> 0 <= i -> match unit_at u i with UB => False | _ => True end.
Proof.
  intros U A. unfold unit_at, unit_place, the_store, uinv in *. destruct (cu_store u) as [s|]; cbn [bind]; [|exact I].
  unfold xl_assert. rewrite (get_size_zlen s U). destruct (i <? zlen (us_buf s)) eqn:E; cbn [bind]; [|exact I].
  destruct (i <? us_dsize s); cbn [bind]; [|exact I]. unfold raw_read.
  destruct (us_null s) eqn:En; [destruct U as (_ & _ & Q & _); rewrite (Q En), zlen_nil in E; lia|].
  replace (i <? 0) with false by lia. replace (zlen (us_buf s) <=? i) with false by lia. exact I.
Qed.
Lemma put_safe u i v : uinv u -> 0 <= i -> match unit_put u i v with UB => False | Throw => True | Ok u' => uinv u' end.
Proof.
  intros U A. unfold unit_put, unit_place, the_store, uinv in *. destruct (cu_store u) as [s|]; cbn [bind]; [|exact I].
  unfold xl_assert. rewrite (get_size_zlen s U). destruct (i <? zlen (us_buf s)) eqn:E; cbn [bind]; [|exact I].
  destruct (i <? us_dsize s); cbn [bind]; [|exact I].
  destruct (us_null s) eqn:En; [destruct U as (_ & _ & Q & _); rewrite (Q En), zlen_nil in E; lia|].
  rewrite raw_write_ok by (auto; lia). cbn [bind cu_store]. eapply same_shape_sinv; [|exact U].
  unfold same_shape. cbn. rewrite upd_length. auto.
Qed.
Lemma replace_spec s l : sinv s -> us_null s = false -> zlen l <= zlen (us_buf s) ->
  exists s', replace_all s l = Ok s' /\ sinv s' /\ us_null s' = false /\ (zlen l < LIM -> cont s' = l).
Proof.
  intros S N L. unfold replace_all, memcpy_prefix. pose proof S as (A & B & C & D).
  replace (Nat.leb (length l) (length (us_buf s)) && Nat.leb (length l) (length l))%bool with true.
  2:{ symmetry. apply andb_true_iff. split; apply Nat.leb_le; unfold zlen in *; lia. }
  cbn [bind]. rewrite firstn_all. set (b := l ++ skipn (length l) (us_buf s)).
  assert (Lb : zlen b = zlen (us_buf s)) by (unfold b, zlen in *; rewrite app_length, skipn_length; lia).
  unfold set_data_size, xl_assert, get_size. cbn [us_vary us_buf us_null]. rewrite Lb. unfold FIXED_SIZE.
  assert (E : (if us_vary s then zlen (us_buf s) else 18) = zlen (us_buf s)).
  { destruct (us_vary s); [reflexivity|]. destruct (B eq_refl). lia. }
  rewrite E. replace (zlen l <=? zlen (us_buf s)) with true by lia. cbn [bind]. eexists. split; [reflexivity|].
  pose proof (zlen_nonneg _ l). assert (0 <= zlen l mod 2 ^ 29 < LIM) by (rewrite LIM_val; apply Z.mod_pos_bound; lia).
  assert (zlen l mod 2 ^ 29 <= zlen l) by (apply Z.mod_le; lia).
  split; [unfold sinv; cbn [us_dsize us_vary us_null us_buf]; rewrite Lb; split; [lia|]; split; [exact B|]; split; [congruence|]; lia|].
  split; [exact N|]. intro K. unfold cont. cbn [us_dsize us_buf]. rewrite Z.mod_small by (rewrite LIM_val in K; lia).
  unfold b. rewrite firstn_app. unfold zlen. rewrite Nat2Z.id, Nat.sub_diag, firstn_all. cbn. apply app_nil_r.
Qed.
Section Safe.
Variable orc : nat -> option (nat -> Z).
Lemma array_at_safe u l i : uinv u -> 0 <= i ->
  match unit_array_at orc u l i with UB => False | Throw => True | Ok (_, u') => uinv u' end.
Proof.
  intros U A. unfold unit_array_at, the_store. unfold uinv in U. destruct (cu_store u) as [s|] eqn:Es; cbn [bind]; [|exact I].
  pose proof (zlen_nonneg _ l).
  assert (G : match (if get_size s <? zlen l + i then inflate orc u (zlen l + i) else Ok (NO_ERRORS, u)) with
              | UB => False | Throw => True | Ok (_, u1) => exists s1, cu_store u1 = Some s1 /\ sinv s1 end).
  { destruct (get_size s <? zlen l + i); [|eauto]. pose proof (inflate_spec orc u s (zlen l + i) Es U) as K.
    destruct (inflate orc u (zlen l + i)) as [[e u1]| |]; auto. destruct K as (s1 & K1 & _ & _ & K2 & _). eauto. }
  destruct (if get_size s <? zlen l + i then _ else _) as [[e u1]| |]; cbn [bind]; auto.
  destruct G as (s1 & G1 & G2). destruct (e =? NO_ERRORS); cbn [negb]; [|unfold uinv; rewrite G1; exact G2].
  rewrite G1. cbn [bind]. pose proof (poke_safe (map (byte_k 0) l) s1 i G2 A) as K.
  destruct (poke_loop s1 i _); cbn [bind]; auto. unfold uinv. cbn [cu_store]. eapply same_shape_sinv; eauto.
Qed.
Lemma init_safe u l n : uinv u -> match unit_init orc u l n with UB => False | Throw => True | Ok (_, u') => uinv u' end.
Proof.
  intros U. unfold unit_init, the_store. unfold uinv in U. destruct (cu_store u) as [s|] eqn:Es; cbn [bind]; [|exact I].
  unfold xl_assert. destruct (0 <? n); cbn [bind]; [|exact I]. destruct (zlen l <=? n) eqn:E; cbn [bind]; [|exact I].
  pose proof (resize_spec orc s (cu_cnt u) n U) as K. destruct (resize orc s (cu_cnt u) n) as [[[e s1] c]| |]; cbn [bind]; auto.
  destruct K as (_ & _ & K1 & _ & _ & K2). destruct (e =? NO_ERRORS) eqn:Ee; cbn [negb]; [|exact K1].
  unfold NO_ERRORS in Ee. destruct (K2 ltac:(lia)) as (K3 & K4 & _).
  destruct (replace_spec s1 (map (byte_k 0) l) K1 K3) as (s2 & -> & S & _); [unfold zlen in *; rewrite map_length; lia|]. exact S.
Qed.
Lemma fill_safe u v n : uinv u -> match unit_fill orc u v n with UB => False | Throw => True | Ok (_, u') => uinv u' end.
Proof.
  intros U. unfold unit_fill, the_store. unfold uinv in U. destruct (cu_store u) as [s|] eqn:Es; cbn [bind]; [|exact I].
  unfold xl_assert. destruct (0 <? n) eqn:E; cbn [bind]; [|exact I].
  pose proof (resize_spec orc s (cu_cnt u) n U) as K. destruct (resize orc s (cu_cnt u) n) as [[[e s1] c]| |]; cbn [bind]; auto.
  destruct K as (_ & _ & K1 & _ & _ & K2). destruct (e =? NO_ERRORS) eqn:Ee; cbn [negb]; [|exact K1].
  unfold NO_ERRORS in Ee. destruct (K2 ltac:(lia)) as (K3 & K4 & _).
  destruct (replace_spec s1 (repeat (byte_k 0 v) (Z.to_nat n)) K1 K3) as (s2 & -> & S & _); [rewrite zlen_repeat; lia|]. exact S.
Qed.
Lemma assign_safe u l : uinv u -> match unit_assign orc u l with UB => False | Throw => True | Ok u' => uinv u' end.
Proof.
  intros U. unfold unit_assign.
  assert (G : match (match cu_store u with None => Ok (snd (request_index orc u (zlen l)))
              | Some s => let* (e, s1, cnt) := resize orc s (cu_cnt u) (zlen l) in let* _ := xl_assert (e =? NO_ERRORS) in Ok (mkUnit (Some s1) cnt) end) with
              | UB => False | Throw => True | Ok u1 => uinv u1 /\ (forall s, cu_store u1 = Some s -> us_null s = false) end).
  { unfold uinv in U. destruct (cu_store u) as [s|].
    - pose proof (resize_spec orc s (cu_cnt u) (zlen l) U) as K. destruct (resize orc s (cu_cnt u) (zlen l)) as [[[e s1] c]| |]; cbn [bind]; auto.
      destruct K as (_ & _ & K1 & _ & _ & K2). unfold xl_assert, NO_ERRORS. destruct (e =? 0) eqn:Ee; cbn [bind]; [|exact I].
      destruct (K2 ltac:(lia)) as (K3 & _). split; [exact K1|]. cbn [cu_store]. intros ? [= <-]. exact K3.
    - unfold request_index, prepare. destruct (zlen l <=? FIXED_SIZE) eqn:El.
      + cbn [Z.eqb NO_ERRORS snd]. split; [|cbn [cu_store]; intros ? [= <-]; reflexivity].
        unfold uinv, sinv. cbn [cu_store us_dsize us_vary us_null us_buf]. rewrite LIM_val, zlen_repeat. repeat split; auto; try lia; try discriminate.
      + unfold FIXED_SIZE in El. destruct (malloc orc (cu_cnt u) (zlen l)) as [p|] eqn:Em; cbn [Z.eqb NO_ERRORS ERR_UNABLE_TOALLOCATE_MEMORY snd].
        * apply malloc_len in Em; [|lia]. split; [|cbn [cu_store]; intros ? [= <-]; reflexivity].
          unfold uinv, sinv. cbn [cu_store us_dsize us_vary us_null us_buf]. rewrite LIM_val. repeat split; auto; try lia; try discriminate.
        * split; [exact I|]. cbn [cu_store]. discriminate. }
  destruct (match cu_store u with None => _ | Some _ => _ end) as [u1| |]; cbn [bind]; auto. destruct G as (G1 & G2).
  unfold the_store, uinv in *. destruct (cu_store u1) as [s|]; cbn [bind]; [|exact I]. unfold xl_assert. rewrite (get_size_zlen s G1).
  destruct (zlen l <=? zlen (us_buf s)) eqn:E; cbn [bind]; [|exact I].
  destruct (replace_spec s (map (byte_k 0) l) G1 (G2 s eq_refl)) as (s2 & -> & S & _); [unfold zlen in *; rewrite map_length; lia|]. exact S.
Qed.
Lemma eop_safe u o : indexed o -> uinv u -> fine (run_eop orc u o).
Proof.
  intros T U. assert (M : forall i, 0 <= i mod 2 ^ 32) by (intro; apply Z.mod_pos_bound; lia).
  destruct o; cbn [run_eop indexed] in *.
  - pose proof (op_safe orc u o U) as H. destruct (run_op orc u o) as [[e u1]| |]; exact H.
  - pose proof (at_safe u i U T) as H. destruct (unit_at u i); cbn; auto.
  - pose proof (put_safe u i v U T) as H. destruct (unit_put u i v); cbn; auto.
  - unfold unit_get8, the_store. destruct (cu_store u) as [s|] eqn:Es; [|exact I]. cbn [bind]. unfold xl_assert.
    pose proof U as S. unfold uinv in S. rewrite Es in S. rewrite (get_size_zlen s S).
    destruct (us_dsize s <=? zlen (us_buf s)) eqn:E; cbn [bind]; [|exact I].
    specialize (M i). destruct (i mod 2 ^ 32 <? us_dsize s) eqn:E2; cbn [bind fine]; [|exact U]. unfold raw_read.
    destruct (us_null s) eqn:En; [destruct S as (_ & _ & Q & _); rewrite (Q En), zlen_nil in E; lia|].
    replace (i mod 2 ^ 32 <? 0) with false by lia. replace (zlen (us_buf s) <=? i mod 2 ^ 32) with false by lia. exact U.
  - unfold unit_get16. pose proof (at_safe u _ U (M i)) as H. destruct (unit_at u _); cbn [bind fine]; auto.
    pose proof (at_safe u _ U (M (i + 1))) as K. destruct (unit_at u _); cbn [bind fine]; auto.
  - unfold unit_get32. pose proof (at_safe u _ U (M i)) as H. destruct (unit_at u _); cbn [bind fine]; auto.
    pose proof (at_safe u _ U (M (i + 1))) as K. destruct (unit_at u _); cbn [bind fine]; auto.
    pose proof (at_safe u _ U (M (i + 2))) as K2. destruct (unit_at u _); cbn [bind fine]; auto.
    pose proof (at_safe u _ U (M (i + 3))) as K3. destruct (unit_at u _); cbn [bind fine]; auto.
  - pose proof (array_at_safe u l i U T) as H. destruct (unit_array_at orc u l i) as [[e u1]| |]; exact H.
  - pose proof (init_safe u l n U) as H. destruct (unit_init orc u l n) as [[e u1]| |]; exact H.
  - pose proof (fill_safe u v n U) as H. destruct (unit_fill orc u v n) as [[e u1]| |]; exact H.
  - pose proof (op_safe orc u (OAdd8 v) U) as H. cbn [run_op] in H. unfold verified. destruct (add8 orc u v) as [[e u1]| |]; cbn [bind]; auto.
    unfold xl_assert. destruct (e =? NO_ERRORS); cbn [bind fine]; auto.
  - pose proof (op_safe orc u (OAppend l) U) as H. cbn [run_op] in H. unfold verified. destruct (append_unit orc u l) as [[e u1]| |]; cbn [bind]; auto.
    unfold xl_assert. destruct (e =? NO_ERRORS); cbn [bind fine]; auto.
  - pose proof (assign_safe u l U) as H. destruct (unit_assign orc u l); exact H.
Qed.
Lemma eops_safe ops : forall u, Forall indexed ops -> uinv u -> run_eops orc u ops <> UB.
Proof.
  induction ops as [|o t IH]; intros u T U; cbn [run_eops]; [discriminate|]. inversion T as [|? ? T1 T2]; subst.
  pose proof (eop_safe u o T1 U) as H. unfold fine in H. destruct (run_eop orc u o) as [[a u1]| |]; cbn [bind]; [|discriminate|contradiction].
  specialize (IH u1 T2 H). destruct (run_eops orc u1 t) as [[? ?]| |]; cbn [bind]; congruence.
Qed.
End Safe.

(** C56: no sequence of such calls reads or writes outside the storage the buffer owns, whatever
    the allocator does and whatever the indexes are. *)
Theorem C56_safe : forall orc ops, Forall indexed ops -> run_eops orc unit_new ops <> UB.
Proof. intros orc ops T. apply eops_safe; [exact T|exact I]. Qed.
Print Assumptions C56_safe.

(* ------------------------------------------------------------------ *)
(** * The calls against the byte lists *)

Lemma nth_firstn_in {A} n : forall (l : list A) i, (i < n)%nat -> nth_error (firstn n l) i = nth_error l i.
Proof. induction n as [|n IH]; intros [|x l] [|i] H; cbn; auto; try lia. apply IH. lia. Qed.
Lemma at_shown u l i : R u (Some l) -> 0 <= i ->
  unit_at u i = match nth_error l (Z.to_nat i) with Some b => Ok b | None => Throw end.
Proof.
  unfold R, unit_at, unit_place, the_store. destruct (cu_store u) as [s|]; [|contradiction]. intros (S & N & C) A. cbn [bind].
  pose proof (cont_zlen s S N) as L. rewrite C in L. pose proof S as (_ & _ & _ & D). specialize (D N).
  unfold xl_assert. rewrite (get_size_zlen s S). destruct (nth_error l (Z.to_nat i)) as [b|] eqn:E.
  - assert (K : (Z.to_nat i < length l)%nat) by (apply nth_error_Some; congruence). unfold zlen in *.
    replace (i <? Z.of_nat (length (us_buf s))) with true by lia. cbn [bind]. replace (i <? us_dsize s) with true by lia. cbn [bind].
    unfold raw_read, zlen. rewrite N. replace (i <? 0) with false by lia. replace (Z.of_nat (length (us_buf s)) <=? i) with false by lia. cbn [orb].
    f_equal. apply nth_error_nth. rewrite <- E, <- C. unfold cont. symmetry. apply nth_firstn_in. lia.
  - apply nth_error_None in E. destruct (i <? zlen (us_buf s)); cbn [bind]; [|reflexivity]. replace (i <? us_dsize s) with false by (unfold zlen in L; lia). reflexivity.
Qed.
Lemma rd2_nth i : forall l, rd 2 l i = match nth_error l i, nth_error l (S i) with Some a, Some b => Some (a + 256 * (b + 256 * 0)) | _, _ => None end.
Proof. induction i as [|i IH]; [intros [|x [|y l]]; reflexivity|]. intros [|x l]; [reflexivity|]. exact (IH l). Qed.
Lemma rd4_nth i : forall l, rd 4 l i = match nth_error l i, nth_error l (S i), nth_error l (S (S i)), nth_error l (S (S (S i))) with
  Some a, Some b, Some c, Some d => Some (a + 256 * (b + 256 * (c + 256 * (d + 256 * 0)))) | _, _, _, _ => None end.
Proof. induction i as [|i IH]; [intros [|x [|y [|z [|t l]]]]; reflexivity|]. intros [|x l]; [reflexivity|]. exact (IH l). Qed.
Lemma nth_byte l i b : Forall is_byte l -> nth_error l i = Some b -> 0 <= b < 256.
Proof. intros F H. rewrite Forall_forall in F. apply F. eapply nth_error_In; eauto. Qed.

Lemma overwrite_one l i v : (i < length l)%nat -> overwrite l i [v] = upd i v l.
Proof. intro H. cbn [overwrite]. replace (Nat.ltb i (length l)) with true by (symmetry; apply Nat.ltb_lt; exact H). symmetry. apply upd_split. exact H. Qed.
Lemma overwrite_upd bs : forall l i, overwrite l i bs = fold_left (fun m k => upd (fst k) (snd k) m) (combine (seq i (length bs)) bs) l.
Proof.
  induction bs as [|b t IH]; intros l i; [reflexivity|]. cbn [overwrite length seq combine fold_left fst snd]. rewrite <- IH. f_equal.
  destruct (Nat.ltb_spec i (length l)); [symmetry; apply upd_split; assumption|].
  clear -H. revert l H. induction i as [|i IH]; intros [|x l] H; cbn in *; try reflexivity; try lia. f_equal. apply IH. lia.
Qed.
Lemma upd_firstn_any {A} i n (v : A) l : firstn n (upd i v l) = upd i v (firstn n l).
Proof. revert i l. induction n as [|n IH]; intros [|i] [|x l]; cbn; try reflexivity. f_equal. apply IH. Qed.
Lemma overwrite_firstn bs l i n : firstn n (overwrite l i bs) = overwrite (firstn n l) i bs.
Proof.
  rewrite !overwrite_upd. generalize (combine (seq i (length bs)) bs). intro ks. revert l. induction ks as [|k t IH]; intro l; cbn [fold_left]; [reflexivity|].
  rewrite IH, upd_firstn_any. reflexivity.
Qed.
Lemma overwrite_length bs : forall l i, length (overwrite l i bs) = length l.
Proof. intros l i. rewrite overwrite_upd. generalize (combine (seq i (length bs)) bs). intro ks. revert l. induction ks as [|k t IH]; intro l; cbn [fold_left]; [reflexivity|]. rewrite IH, upd_length. reflexivity. Qed.
Lemma overwrite_bytes bs l i : Forall is_byte bs -> Forall is_byte l -> Forall is_byte (overwrite l i bs).
Proof.
  intro H. revert l i. induction H as [|b t B F IH]; intros l i L; cbn [overwrite]; [exact L|]. apply IH. destruct (Nat.ltb_spec i (length l)); [|exact L].
  rewrite <- upd_split by assumption. apply upd_Forall; assumption.
Qed.
Lemma digits_bytes n v : Forall is_byte (digits n v).
Proof. revert v. induction n as [|n IH]; intro v; cbn [digits]; constructor; auto. unfold is_byte. apply Z.mod_pos_bound. lia. Qed.
Lemma string_bytes s f : Forall (fun c => 0 <= c < 65536) s -> Forall is_byte (spec_string s f).
Proof.
  intro F. unfold spec_string. apply Forall_app. split; [destruct f; auto using digits_bytes|]. destruct (compressible s) eqn:C.
  - constructor; [unfold is_byte; lia|]. apply compressible_small in C. eapply Forall_impl; [|exact C]. unfold is_byte. cbn. lia.
  - constructor; [unfold is_byte; lia|]. clear. induction s as [|c s IH]; cbn [flat_map]; [constructor|]. apply Forall_app. split; [apply digits_bytes|exact IH].
Qed.
Lemma spec_op_bytes l o : op_typed l o -> Forall is_byte l -> Forall is_byte (spec_op l o).
Proof.
  intros T F. destruct o; cbn [spec_op op_typed] in *; try (apply Forall_app; split; [exact F|]); try apply overwrite_bytes; auto using digits_bytes, string_bytes.
  rewrite Forall_forall. intros x X. apply repeat_spec in X. subst x. exact T.
Qed.
Lemma edit_bytes l o a l1 : eop_typed l o -> Forall is_byte l -> edit l o = Some (a, l1) -> Forall is_byte l1.
Proof.
  intros T F E. destruct o; cbn [edit eop_typed] in *;
    repeat match type of E with match ?x with _ => _ end = _ => destruct x; [|try discriminate] | (if ?b then _ else _) = _ => destruct b; [|discriminate] end;
    injection E as <- <-; auto using spec_op_bytes; try (apply Forall_app; split; auto).
  - apply (overwrite_bytes [v]); [constructor; [tauto|constructor]|exact F].
  - apply overwrite_bytes; tauto.
  - rewrite Forall_forall. intros x X. apply repeat_spec in X. subst x. exact T.
Qed.
Section Shown.
Variable orc : nat -> option (nat -> Z).
Hypothesis total : orc_total orc.
(** What one call must do on a buffer showing [l]. *)
Definition as_edit (l : list Z) (o : eop) (r : res (list Z * cunit)) : Prop :=
  match edit l o with
  | None => r = Throw
  | Some (a, l1) => zlen l1 < 536870912 -> exists u1, r = Ok (a, u1) /\ R u1 (Some l1)
  end.
Lemma R_store u l : R u (Some l) -> exists s, cu_store u = Some s /\ sinv s /\ us_null s = false /\ cont s = l /\ us_dsize s = zlen l /\ zlen l <= zlen (us_buf s).
Proof.
  unfold R. destruct (cu_store u) as [s|]; [|contradiction]. intros (S & N & C). exists s. pose proof (cont_zlen s S N) as L. rewrite C in L.
  pose proof S as (_ & _ & _ & D). specialize (D N).
  split; [reflexivity|]. split; [exact S|]. split; [exact N|]. split; [exact C|]. split; lia.
Qed.
Lemma op_shown u l o : R u (Some l) -> op_typed l o -> zlen (spec_op l o) < 536870912 ->
  exists e u1, run_op orc u o = Ok (e, u1) /\ R u1 (Some (spec_op l o)) /\ arun_op (Some l) o = Ok (e, Some (spec_op l o)).
Proof.
  intros H T L. destruct (op_agrees l o T) as (e & E). pose proof (op_sim orc u (Some l) o H) as K. unfold sim_post in K. rewrite E in K.
  cbn [alen] in K. rewrite LIM_val in K. specialize (K L). destruct (run_op orc u o) as [[e' u1]| |]; [|exfalso; auto|contradiction].
  destruct K as ([->|K1] & K2); [|contradiction]. exists e, u1. auto.
Qed.
Lemma put_shown u l i v : R u (Some l) -> 0 <= i < 4294967292 /\ is_byte v -> as_edit l (EPut i v) (run_eop orc u (EPut i v)).
Proof.
  intros H ((A & A2) & V). destruct (R_store u l H) as (s & Es & S & N & C & D & L). unfold as_edit. cbn [edit run_eop].
  unfold unit_put, unit_place, the_store. rewrite Es. cbn [bind]. unfold xl_assert. rewrite (get_size_zlen s S), D.
  destruct (i <? zlen l) eqn:E.
  - intros _. replace (i <? zlen (us_buf s)) with true by lia. cbn [bind]. rewrite raw_write_ok by (auto; lia). cbn [bind].
    eexists. split; [reflexivity|]. unfold R. cbn [cu_store].
    assert (Sh : same_shape s (mkStore (us_vary s) (us_null s) (upd (Z.to_nat i) (byte_k 0 v) (us_buf s)) (us_dsize s))) by (unfold same_shape; cbn; rewrite upd_length; auto).
    split; [exact (same_shape_sinv _ _ Sh S)|]. split; [exact N|]. unfold cont. cbn [us_dsize us_buf]. rewrite upd_firstn_any. change (firstn (Z.to_nat (us_dsize s)) (us_buf s)) with (cont s).
    rewrite C, overwrite_one by (unfold zlen in *; lia). rewrite byte_k_small by exact V. reflexivity.
  - destruct (i <? zlen (us_buf s)); reflexivity.
Qed.
Lemma get8_shown u l i : R u (Some l) -> 0 <= i < 4294967292 -> as_edit l (EGet8 i) (run_eop orc u (EGet8 i)).
Proof.
  intros H A. pose proof (at_shown u l i H ltac:(lia)) as G. destruct (R_store u l H) as (s & Es & S & N & C & D & L). unfold as_edit. cbn [edit run_eop].
  unfold unit_get8. rewrite Z.mod_small by (change (2 ^ 32) with 4294967296; lia).
  unfold unit_at, unit_place, the_store in *. rewrite Es in *. cbn [bind] in *. unfold xl_assert in *. rewrite (get_size_zlen s S), D in *.
  replace (zlen l <=? zlen (us_buf s)) with true by lia. cbn [bind]. destruct (nth_error l (Z.to_nat i)) as [b|] eqn:E.
  - assert (K : (Z.to_nat i < length l)%nat) by (apply nth_error_Some; congruence). replace (i <? zlen l) with true in * by (unfold zlen; lia).
    replace (i <? zlen (us_buf s)) with true in G by (unfold zlen in *; lia). cbn [bind] in G. rewrite G. cbn [bind]. intros _. eauto.
  - apply nth_error_None in E. replace (i <? zlen l) with false by (unfold zlen; lia). cbn [bind]. intros _. eauto.
Qed.
Lemma get16_shown u l i : R u (Some l) -> Forall is_byte l -> 0 <= i < 4294967292 -> as_edit l (EGet16 i) (run_eop orc u (EGet16 i)).
Proof.
  intros H F A. unfold as_edit. cbn [edit run_eop]. unfold unit_get16. rewrite !Z.mod_small by (change (2 ^ 32) with 4294967296; lia).
  rewrite !(at_shown u l) by (auto; lia). replace (Z.to_nat (i + 1)) with (S (Z.to_nat i)) by lia. rewrite rd2_nth.
  destruct (nth_error l (Z.to_nat i)) as [a|] eqn:Ea; [|reflexivity]. cbn [bind]. destruct (nth_error l (S (Z.to_nat i))) as [b|] eqn:Eb; [|reflexivity]. cbn [bind].
  apply (nth_byte _ _ _ F) in Ea. apply (nth_byte _ _ _ F) in Eb. intros _. rewrite Z.mod_small by (change (2 ^ 16) with 65536; lia).
  exists u. split; [|exact H]. do 4 f_equal. lia.
Qed.
Lemma get32_shown u l i : R u (Some l) -> Forall is_byte l -> 0 <= i < 4294967292 -> as_edit l (EGet32 i) (run_eop orc u (EGet32 i)).
Proof.
  intros H F A. unfold as_edit. cbn [edit run_eop]. unfold unit_get32. rewrite !(Z.mod_small (i + _)), (Z.mod_small i) by (change (2 ^ 32) with 4294967296; lia).
  rewrite !(at_shown u l) by (auto; lia). replace (Z.to_nat (i + 1)) with (S (Z.to_nat i)) by lia. replace (Z.to_nat (i + 2)) with (S (S (Z.to_nat i))) by lia.
  replace (Z.to_nat (i + 3)) with (S (S (S (Z.to_nat i)))) by lia. rewrite rd4_nth.
  destruct (nth_error l (Z.to_nat i)) as [a|] eqn:Ea; [|reflexivity]. cbn [bind]. destruct (nth_error l (S (Z.to_nat i))) as [b|] eqn:Eb; [|reflexivity]. cbn [bind].
  destruct (nth_error l (S (S (Z.to_nat i)))) as [c|] eqn:Ec; [|reflexivity]. cbn [bind]. destruct (nth_error l (S (S (S (Z.to_nat i))))) as [d|] eqn:Ed; [|reflexivity]. cbn [bind].
  apply (nth_byte _ _ _ F) in Ea. apply (nth_byte _ _ _ F) in Eb. apply (nth_byte _ _ _ F) in Ec. apply (nth_byte _ _ _ F) in Ed. intros _.
  rewrite Z.mod_small by (change (2 ^ 32) with 4294967296; lia). exists u. split; [|exact H]. do 4 f_equal. lia.
Qed.
Lemma array_shown u l x i : R u (Some l) -> 0 <= i /\ i + zlen x <= 4294967296 /\ Forall is_byte x -> as_edit l (EArrayAt x i) (run_eop orc u (EArrayAt x i)).
Proof.
  intros H (A & A2 & B). destruct (R_store u l H) as (s & Es & S & N & C & D & L). unfold as_edit. cbn [edit run_eop]. intros _.
  unfold unit_array_at, the_store. rewrite Es. cbn [bind]. rewrite (get_size_zlen s S). pose proof (zlen_nonneg _ x).
  assert (G : exists u1 s1, (if zlen (us_buf s) <? zlen x + i then inflate orc u (zlen x + i) else Ok (NO_ERRORS, u)) = Ok (NO_ERRORS, u1)
    /\ cu_store u1 = Some s1 /\ sinv s1 /\ us_null s1 = false /\ cont s1 = l /\ us_dsize s1 = zlen l /\ zlen x + i <= zlen (us_buf s1)).
  { destruct (zlen (us_buf s) <? zlen x + i) eqn:E.
    - pose proof (inflate_spec orc u s (zlen x + i) Es S) as K. destruct (inflate orc u (zlen x + i)) as [[e u1]| |].
      + destruct K as (s1 & K1 & _ & _ & K2 & K3 & K4 & K5). destruct K4 as [->|(_ & K4)]; [|contradiction]. destruct (K5 eq_refl) as (K6 & K7 & K8).
        exists u1, s1. split; [reflexivity|]. split; [exact K1|]. split; [exact K2|]. split; [exact K6|]. split; [congruence|]. split; [congruence|exact K7].
      + exfalso. pose proof (zlen_nonneg _ (us_buf s)). specialize (K ltac:(lia) ltac:(lia)). congruence.
      + contradiction.
    - exists u, s. split; [reflexivity|]. split; [exact Es|]. split; [exact S|]. split; [exact N|]. split; [exact C|]. split; [exact D|lia]. }
  destruct G as (u1 & s1 & -> & E1 & S1 & N1 & C1 & D1 & L1). cbn [bind negb Z.eqb NO_ERRORS]. rewrite E1. cbn [bind].
  rewrite map_byte_id by exact B. rewrite poke_as_write by assumption.
  pose proof (write_loop_spec x s1 (firstn (Z.to_nat i) (us_buf s1)) (skipn (Z.to_nat i) (us_buf s1)) S1 (eq_sym (firstn_skipn _ _))) as K.
  assert (Lf : zlen (firstn (Z.to_nat i) (us_buf s1)) = i) by (unfold zlen in *; rewrite firstn_length; lia). rewrite Lf in K.
  destruct (write_loop s1 i x) as [[s2 ds]| |]; cbn [bind]; [|exfalso; unfold zlen in *; rewrite skipn_length in K; lia|contradiction].
  destruct K as (Sh & _ & _ & Kb). eexists. split; [reflexivity|]. unfold R. cbn [cu_store]. pose proof Sh as (_ & Sn & _ & Sd).
  split; [exact (same_shape_sinv _ _ Sh S1)|]. split; [congruence|]. unfold cont. rewrite Sd, Kb, skipn_skipn.
  replace (length x + Z.to_nat i)%nat with (Z.to_nat i + length x)%nat by lia. rewrite <- overwrite_spec by (unfold zlen in *; lia). rewrite overwrite_firstn.
  f_equal. exact C1.
Qed.
Lemma resized u s (l : list Z) n : cu_store u = Some s -> sinv s -> us_null s = false -> us_dsize s = zlen l ->
  match resize orc s (cu_cnt u) n with
  | Ok (e, s1, _) => 0 < n /\ zlen l <= n /\ e = 0 /\ sinv s1 /\ us_null s1 = false /\ n <= zlen (us_buf s1)
  | Throw => ~ (0 < n /\ zlen l <= n)
  | UB => False
  end.
Proof.
  intros Es S N D. pose proof (resize_spec orc s (cu_cnt u) n S) as K. destruct (resize orc s (cu_cnt u) n) as [[[e s1] c]| |]; [|intros (A & B); specialize (K A ltac:(lia)); congruence|contradiction].
  destruct K as (K1 & K2 & K3 & _ & K4 & K5). destruct K4 as [->|(_ & K4)]; [|contradiction]. destruct (K5 eq_refl) as (K6 & K7 & _).
  split; [exact K1|]. split; [lia|]. split; [reflexivity|]. split; [exact K3|]. split; [exact K6|exact K7].
Qed.
Lemma init_shown u l x n : R u (Some l) -> Forall is_byte x -> as_edit l (EInit x n) (run_eop orc u (EInit x n)).
Proof.
  intros H B. destruct (R_store u l H) as (s & Es & S & N & C & D & L). unfold as_edit. cbn [edit run_eop]. unfold unit_init, the_store. rewrite Es. cbn [bind]. unfold xl_assert.
  pose proof (resized u s l n Es S N D) as K. destruct (0 <? n) eqn:E1; cbn [bind andb]; [|reflexivity]. destruct (zlen x <=? n) eqn:E2; cbn [bind andb]; [|reflexivity].
  destruct (resize orc s (cu_cnt u) n) as [[[e s1] c]| |]; cbn [bind]; [|destruct (zlen l <=? n) eqn:E3; [lia|reflexivity]|contradiction].
  destruct K as (_ & K1 & -> & K2 & K3 & K4). replace (zlen l <=? n) with true by lia. intro Lx. cbn [negb Z.eqb NO_ERRORS]. rewrite map_byte_id by exact B.
  destruct (replace_spec s1 x K2 K3 ltac:(lia)) as (s2 & -> & P1 & P2 & P3). cbn [bind]. eexists. split; [reflexivity|]. unfold R. cbn [cu_store].
  rewrite LIM_val in P3. auto.
Qed.
Lemma fill_shown u l v n : R u (Some l) -> is_byte v -> as_edit l (EFill v n) (run_eop orc u (EFill v n)).
Proof.
  intros H B. destruct (R_store u l H) as (s & Es & S & N & C & D & L). unfold as_edit. cbn [edit run_eop]. unfold unit_fill, the_store. rewrite Es. cbn [bind]. unfold xl_assert.
  pose proof (resized u s l n Es S N D) as K. destruct (0 <? n) eqn:E1; cbn [bind andb]; [|reflexivity].
  destruct (resize orc s (cu_cnt u) n) as [[[e s1] c]| |]; cbn [bind]; [|destruct (zlen l <=? n) eqn:E3; [lia|reflexivity]|contradiction].
  destruct K as (_ & K1 & -> & K2 & K3 & K4). replace (zlen l <=? n) with true by lia. intro Lx. cbn [negb Z.eqb NO_ERRORS]. rewrite byte_k_small by exact B.
  destruct (replace_spec s1 (repeat v (Z.to_nat n)) K2 K3) as (s2 & -> & P1 & P2 & P3); [rewrite zlen_repeat; lia|]. cbn [bind]. eexists. split; [reflexivity|]. unfold R. cbn [cu_store].
  rewrite LIM_val in P3. auto.
Qed.
Lemma assign_shown u l x : R u (Some l) -> Forall is_byte x -> as_edit l (EAssign x) (run_eop orc u (EAssign x)).
Proof.
  intros H B. destruct (R_store u l H) as (s & Es & S & N & C & D & L). unfold as_edit. cbn [edit run_eop]. unfold unit_assign. rewrite Es.
  pose proof (resized u s l (zlen x) Es S N D) as K.
  destruct (resize orc s (cu_cnt u) (zlen x)) as [[[e s1] c]| |]; cbn [bind]; [|destruct (0 <? zlen x) eqn:E2, (zlen l <=? zlen x) eqn:E3; cbn [andb]; try reflexivity; lia|contradiction].
  destruct K as (K0 & K1 & -> & K2 & K3 & K4). replace (0 <? zlen x) with true by lia. replace (zlen l <=? zlen x) with true by lia. cbn [andb]. intro Lx.
  unfold xl_assert. cbn [Z.eqb NO_ERRORS bind]. unfold the_store. cbn [cu_store bind]. rewrite (get_size_zlen s1 K2). replace (zlen x <=? zlen (us_buf s1)) with true by lia. cbn [bind].
  rewrite map_byte_id by exact B. destruct (replace_spec s1 x K2 K3 ltac:(lia)) as (s2 & -> & P1 & P2 & P3). cbn [bind]. eexists. split; [reflexivity|]. unfold R. cbn [cu_store].
  rewrite LIM_val in P3. auto.
Qed.
Lemma eop_shown u l o : R u (Some l) -> Forall is_byte l -> eop_typed l o -> as_edit l o (run_eop orc u o).
Proof.
  intros H F T. destruct o; cbn [eop_typed] in T; auto using put_shown, get8_shown, get16_shown, get32_shown, array_shown, init_shown, fill_shown, assign_shown.
  - unfold as_edit. cbn [edit run_eop]. intro L. destruct (op_shown u l o H T L) as (e & u1 & -> & K & _). cbn [bind]. eauto.
  - unfold as_edit. cbn [edit run_eop]. rewrite (at_shown u l i H) by lia. destruct (nth_error l (Z.to_nat i)); cbn [bind]; [|reflexivity]. intros _. eauto.
  - unfold as_edit. cbn [edit run_eop]. intro L.
    assert (Ev : spec_op l (OAdd8 v) = l ++ [v]) by (cbn [spec_op]; rewrite digits1, byte_k_small by exact T; reflexivity).
    destruct (op_shown u l (OAdd8 v) H I ltac:(rewrite Ev; exact L)) as (e & u1 & K & K2 & K3). cbn [run_op] in K. rewrite K. unfold verified. cbn [bind].
    cbn [arun_op amap] in K3. injection K3 as <- _. cbn [xl_assert Z.eqb NO_ERRORS bind]. rewrite Ev in K2. eauto.
  - unfold as_edit. cbn [edit run_eop]. intro L.
    destruct (op_shown u l (OAppend l0) H T L) as (e & u1 & K & K2 & K3). cbn [run_op] in K. rewrite K. unfold verified. cbn [bind].
    cbn [arun_op amap] in K3. injection K3 as <- _. cbn [xl_assert Z.eqb NO_ERRORS bind]. eauto.
Qed.
Lemma eops_shown ops : forall u l, R u (Some l) -> Forall is_byte l -> edits_typed l ops ->
  match edits l ops with
  | None => run_eops orc u ops = Throw
  | Some (a, l1) => exists u1, run_eops orc u ops = Ok (a, u1) /\ R u1 (Some l1)
  end.
Proof.
  induction ops as [|o t IH]; intros u l H F T; cbn [edits run_eops edits_typed] in *; [eauto|]. destruct T as (T1 & T2).
  pose proof (eop_shown u l o H F T1) as K. unfold as_edit in K. destruct (edit l o) as [[a l1]|] eqn:E; [|rewrite K; reflexivity].
  destruct T2 as (T2 & T3). destruct (K T2) as (u1 & -> & K2). cbn [bind]. specialize (IH u1 l1 K2 (edit_bytes _ _ _ _ T1 F E) T3).
  destruct (edits l1 t) as [[b l2]|]; [|rewrite IH; reflexivity]. destruct IH as (u2 & -> & IH). cbn [bind]. eauto.
Qed.
End Shown.

(* ------------------------------------------------------------------ *)
(** * C56 *)

Lemma built orc o ops : orc_total orc -> obtains_storage o = true -> ops_typed [] (o :: ops) -> zlen (spec_ops (o :: ops)) < 536870912 ->
  exists codes u, run_ops orc unit_new (o :: ops) = Ok (codes, u) /\ R u (Some (spec_ops (o :: ops))).
Proof.
  intros T O Ty L. destruct (ops_agree_new o ops O Ty) as [es E]. pose proof (ops_sim orc (o :: ops) unit_new None es (Some (spec_ops (o :: ops))) I E) as S.
  cbn [alen] in S. rewrite LIM_val in S. specialize (S L). destruct (run_ops orc unit_new (o :: ops)) as [[es' u]| |]; [|exfalso; auto|contradiction].
  destruct S as ([->|N] & S2); [|contradiction]. exists es, u. auto.
Qed.
Lemma built_bytes ops : forall l, ops_typed l ops -> Forall is_byte l -> Forall is_byte (fold_left spec_op ops l).
Proof. induction ops as [|o t IH]; intros l T F; cbn [fold_left]; [exact F|]. destruct T as (T1 & T2). apply IH; [exact T2|]. apply spec_op_bytes; assumption. Qed.

(** C56.  A record is built by any program of buffer operations ([o :: ops]) and then read and
    changed in place by any calls [es].  Every call answers, and leaves, what [edit] says of the
    plain byte list; a sequence with a call that must be refused raises an exception. *)
Theorem C56_edits :
  forall orc o ops es,
    (forall k, orc k <> None) ->
    obtains_storage o = true -> ops_typed [] (o :: ops) -> zlen (spec_ops (o :: ops)) < 536870912 ->
    edits_typed (spec_ops (o :: ops)) es ->
    exists codes u, run_ops orc unit_new (o :: ops) = Ok (codes, u)
      /\ match edits (spec_ops (o :: ops)) es with
         | Some (answers, l) => exists u1, run_eops orc u es = Ok (answers, u1) /\ content u1 = Some l
         | None => run_eops orc u es = Throw
         end.
Proof.
  intros orc o ops es T O Ty L E. destruct (built orc o ops T O Ty L) as (codes & u & H & K). exists codes, u. split; [exact H|].
  assert (F : Forall is_byte (spec_ops (o :: ops))) by (apply built_bytes; [exact Ty|constructor]).
  pose proof (eops_shown orc T es u _ K F E) as S. destruct (edits (spec_ops (o :: ops)) es) as [[a l]|]; [|exact S].
  destruct S as (u1 & S1 & S2). exists u1. split; [exact S1|]. apply R_content. exact S2.
Qed.
Print Assumptions C56_edits.

Definition edit_demo : list eop :=
  [EAt 2; EPut 2 9; EGet16 1; EArrayAt [7; 8] 3; EGet32 1; EGet8 40; EPlus 5; EPlusUnit [6; 6]; EBuild (OAdd16 513);
   EInit (repeat 3 10) 25; EAssign (repeat 4 30); EFill 1 31; EGet16 29; EAt 31].
Example C56_case :
  obtains_storage (OArray [1; 2; 3; 4; 5]) = true /\ ops_typed [] [OArray [1; 2; 3; 4; 5]; OAdd8 6]
  /\ edits_typed (spec_ops [OArray [1; 2; 3; 4; 5]; OAdd8 6]) edit_demo
  /\ edits (spec_ops [OArray [1; 2; 3; 4; 5]; OAdd8 6]) edit_demo = None
  /\ edits (spec_ops [OArray [1; 2; 3; 4; 5]; OAdd8 6]) (firstn 13 edit_demo)
     = Some ([[3]; []; [0; 2306]; [0]; [0; 134678786]; [-3]; []; []; []; [0]; []; [0]; [0; 257]], repeat 1 31).
Proof.
  split; [reflexivity|]. split.
  - cbn [ops_typed op_typed]. split; [repeat (constructor; [lia|]); constructor|]. split; exact I.
  - split; [|split; vm_compute; reflexivity].
    vm_compute. repeat match goal with |- _ /\ _ => split | |- Forall _ _ => constructor end; try exact I; try congruence; try reflexivity.
Qed.

(** Assigning to a buffer that owns no storage yet makes it show what the other one shows. *)
Theorem C56_copy :
  forall orc x, (forall k, orc k <> None) -> Forall is_byte x -> zlen x < 536870912 ->
    exists u, run_eop orc unit_new (EAssign x) = Ok ([], u) /\ content u = Some x.
Proof.
  intros orc x T B L. cbn [run_eop]. unfold unit_assign. cbn [cu_store unit_new]. change (mkUnit None 0) with unit_new.
  pose proof (request_index_spec orc unit_new (zlen x)) as K. destruct (request_index orc unit_new (zlen x)) as [e u1]. cbn [snd bind].
  destruct K as (_ & [(-> & s & K1 & K2 & K3 & _ & _ & K6)|(_ & N)]); [|exfalso; exact (N T)].
  unfold the_store. rewrite K1. cbn [bind]. unfold xl_assert. rewrite (get_size_zlen s K2). replace (zlen x <=? zlen (us_buf s)) with true by lia. cbn [bind].
  rewrite map_byte_id by exact B. destruct (replace_spec s x K2 K3 K6) as (s2 & -> & P1 & P2 & P3). cbn [bind]. eexists. split; [reflexivity|].
  apply R_content. unfold R. cbn [cu_store]. rewrite LIM_val in P3. auto.
Qed.
Print Assumptions C56_copy.
Example C56_copy_case : Forall is_byte [1; 255; 0] /\ zlen [1; 255; 0] < 536870912.
Proof. split; [repeat (constructor; [unfold is_byte; lia|]); constructor|reflexivity]. Qed.

(** Storing a block at a position inside the record puts it there and leaves the rest alone.  The
    full claim, for every position the call accepts, is refuted below. *)
Theorem C56_block_partial :
  forall orc o ops x i,
    (forall k, orc k <> None) ->
    obtains_storage o = true -> ops_typed [] (o :: ops) -> zlen (spec_ops (o :: ops)) < 536870912 ->
    Forall is_byte x -> 0 <= i -> i + zlen x <= zlen (spec_ops (o :: ops)) ->
    exists codes u u1, run_ops orc unit_new (o :: ops) = Ok (codes, u)
      /\ run_eop orc u (EArrayAt x i) = Ok ([0], u1)
      /\ content u1 = Some (firstn (Z.to_nat i) (spec_ops (o :: ops)) ++ x ++ skipn (Z.to_nat i + length x) (spec_ops (o :: ops))).
Proof.
  intros orc o ops x i T O Ty L B A A2. destruct (built orc o ops T O Ty L) as (codes & u & H & K). exists codes, u.
  pose proof (array_shown orc T u _ x i K ltac:(repeat split; auto; lia)) as S. unfold as_edit in S. cbn [edit] in S.
  rewrite overwrite_spec in S by (unfold zlen in *; lia). destruct S as (u1 & S1 & S2).
  { rewrite <- overwrite_spec by (unfold zlen in *; lia). unfold zlen in *. rewrite overwrite_length. exact L. }
  exists u1. split; [exact H|]. split; [exact S1|]. apply R_content. exact S2.
Qed.
Print Assumptions C56_block_partial.
Example C56_block_case : zlen (spec_ops [OArray [1; 2; 3; 4; 5]]) = 5 /\ 2 + zlen [9; 9] <= 5. Proof. vm_compute. split; congruence. Qed.

(** A block that reaches past the end of the record is accepted (code 0) although the record does
    not get the bytes beyond its end. *)
Theorem C56_block_refuted :
  exists orc o x i codes u u1 l, (forall k, orc k <> None)
    /\ run_ops orc unit_new [o] = Ok (codes, u) /\ Forall is_byte x /\ 0 <= i
    /\ run_eop orc u (EArrayAt x i) = Ok ([0], u1) /\ content u1 = Some l /\ slice (Z.to_nat i) (length x) l <> x.
Proof.
  exists (fun _ => Some (fun _ => 0)), (OArray [1; 2; 3; 4]), [7; 8; 9], 3. do 4 eexists. split; [discriminate|]. split; [vm_compute; reflexivity|].
  split; [repeat (constructor; [unfold is_byte; lia|]); constructor|]. split; [lia|]. split; [vm_compute; reflexivity|]. split; [vm_compute; reflexivity|]. vm_compute. discriminate.
Qed.
Print Assumptions C56_block_refuted.
(** Assigning a shorter record, or an empty one, raises an exception instead of copying. *)
Theorem C56_assign_refuted :
  exists orc o x codes u, (forall k, orc k <> None) /\ run_ops orc unit_new [o] = Ok (codes, u) /\ Forall is_byte x /\ x <> []
    /\ run_eop orc u (EAssign x) = Throw.
Proof.
  exists (fun _ => Some (fun _ => 0)), (OArray [1; 2; 3; 4]), [7; 8; 9]. do 2 eexists. split; [discriminate|]. split; [vm_compute; reflexivity|].
  split; [repeat (constructor; [unfold is_byte; lia|]); constructor|]. split; [discriminate|]. vm_compute. reflexivity.
Qed.
Print Assumptions C56_assign_refuted.

(* ------------------------------------------------------------------ *)
(** * C57 *)

Definition wflags (a s p : bool) : Z := 190 + (if a then 1024 else 0) + (if s then 512 else 0) + (if p then 2048 else 0).
Definition wbytes (a s p : bool) : list Z := [62; 2; 18; 0] ++ le16 (wflags a s p) ++ [0; 0; 0; 0; 64; 0; 0; 0; 0; 0; 0; 0; 0; 0; 0; 0].
Lemma switch_step orc u a s p x : orc_total orc -> x <> WClearPaged -> R u (Some (wbytes a s p)) ->
  exists u1 s1 p1, window_switch orc u x = Ok u1 /\ R u1 (Some (wbytes a s1 p1))
    /\ (s1, p1) = match x with WSetSelected => (true, p) | WClearSelected => (false, p) | WSetPaged => (s, true) | WClearPaged => (s, false) end.
Proof.
  intros T X H. assert (F : Forall is_byte (wbytes a s p)).
  { unfold wbytes. apply Forall_app. split; [repeat (constructor; [unfold is_byte; lia|]); constructor|]. apply Forall_app. split; [apply le16_ok|repeat (constructor; [unfold is_byte; lia|]); constructor]. }
  pose proof (get16_shown orc u _ 4 H F ltac:(lia)) as G. unfold as_edit in G. cbn [edit run_eop] in G.
  assert (E : rd 2 (wbytes a s p) (Z.to_nat 4) = Some (wflags a s p)) by (destruct a, s, p; reflexivity). rewrite E in G.
  destruct G as (u0 & G & _); [destruct a, s, p; reflexivity|]. unfold window_switch. destruct (unit_get16 u 4) as [g| |]; cbn [bind] in G; try discriminate.
  injection G as -> _. cbn [bind nth].
  destruct (op_shown orc T u _ (OSet16 (switched x (wflags a s p)) 4) H ltac:(cbn [op_typed]; lia)) as (e & u1 & -> & K & _).
  { destruct a, s, p, x; reflexivity. }
  cbn [bind]. destruct (match x with WSetSelected => (true, p) | WClearSelected => (false, p) | WSetPaged => (s, true) | WClearPaged => (s, false) end) as [s1 p1] eqn:Q.
  exists u1, s1, p1. split; [reflexivity|]. split; [|reflexivity].
  replace (wbytes a s1 p1) with (spec_op (wbytes a s p) (OSet16 (switched x (wflags a s p)) 4)); [exact K|].
  destruct x; try congruence; injection Q as <- <-; destruct a, s, p; reflexivity.
Qed.
Lemma switch_steps orc a l : orc_total orc -> ~ In WClearPaged l -> forall u s p, R u (Some (wbytes a s p)) ->
  exists u1 s1 p1, window_switches orc u l = Ok u1 /\ R u1 (Some (wbytes a s1 p1))
    /\ fold_left asked l (mkRV true s a false true true true false p 0 0) = mkRV true s1 a false true true true false p1 0 0.
Proof.
  intro T. induction l as [|x l IH]; intros N u s p H; cbn [window_switches fold_left]; [eauto 8|].
  destruct (switch_step orc u a s p x T) as (u1 & s1 & p1 & -> & H1 & Q); [intros ->; apply N; left; reflexivity|exact H|]. cbn [bind].
  destruct (IH ltac:(intro; apply N; right; assumption) u1 s1 p1 H1) as (u2 & s2 & p2 & E & H2 & Q2). exists u2, s2, p2. split; [exact E|]. split; [exact H2|].
  rewrite <- Q2. f_equal. unfold asked. cbn [rv_preview rv_selected]. rewrite <- Q. reflexivity.
Qed.

(** C57.  The view record of a sheet after any sequence of its switches reads as asked: header and
    everything after the flags are as they were.  The full claim, with the switch that turns the
    page break preview off, is refuted below. *)
Theorem C57_switches_partial :
  forall orc active l, (forall k, orc k <> None) -> ~ In WClearPaged l ->
    exists u b, window_made orc active l = Ok u /\ content u = Some b
      /\ firstn 4 b = [62; 2; 18; 0]
      /\ read_view (skipn 4 b) = Some (fold_left asked l (fresh_view active))
      /\ skipn 6 b = skipn 6 (rec_bytes (rec_window2 active)).
Proof.
  intros orc active l T N. unfold window_made.
  assert (B : exists codes u, run_ops orc unit_new (rec_window2 active) = Ok (codes, u) /\ R u (Some (wbytes active active false))).
  { replace (wbytes active active false) with (spec_ops (rec_window2 active)) by (destruct active; vm_compute; reflexivity).
    unfold rec_window2, record. apply built; [exact T|reflexivity| |destruct active; vm_compute; reflexivity].
    destruct active; vm_compute; repeat match goal with |- _ /\ _ => split | |- Forall _ _ => constructor end; try exact I; try congruence; try reflexivity. }
  destruct B as (codes & u & -> & B). cbn [bind]. destruct (switch_steps orc active l T N u active false B) as (u1 & s1 & p1 & -> & H & Q).
  exists u1, (wbytes active s1 p1). split; [reflexivity|]. split; [apply R_content; exact H|]. split; [reflexivity|]. unfold fresh_view. rewrite Q.
  split; destruct active, s1, p1; vm_compute; reflexivity.
Qed.
Print Assumptions C57_switches_partial.
Example C57_case : ~ In WClearPaged [WSetPaged; WClearSelected; WSetSelected; WClearSelected]
  /\ fold_left asked [WSetPaged; WClearSelected; WSetSelected; WClearSelected] (fresh_view true) = mkRV true false true false true true true false true 0 0.
Proof. split; [cbn; intuition discriminate|reflexivity]. Qed.

(** Turning the page break preview off loses every other property of the view: the sheet is no
    longer selected, displayed or frozen and shows no grid lines; the preview itself stays on. *)
Theorem C57_switches_refuted :
  exists orc active l u b v, (forall k, orc k <> None) /\ window_made orc active l = Ok u /\ content u = Some b
    /\ read_view (skipn 4 b) = Some v /\ v <> fold_left asked l (fresh_view active)
    /\ rv_preview v = true /\ rv_preview (fold_left asked l (fresh_view active)) = false
    /\ rv_selected v = false /\ rv_displayed v = false /\ rv_grid v = false.
Proof.
  exists (fun _ => Some (fun _ => 0)), true, [WSetPaged; WClearPaged]. do 3 eexists. split; [discriminate|]. split; [vm_compute; reflexivity|]. split; [vm_compute; reflexivity|].
  split; [vm_compute; reflexivity|]. split; [vm_compute; discriminate|]. repeat split; vm_compute; reflexivity.
Qed.
Print Assumptions C57_switches_refuted.
