(** Read-back of the compound file written by the model. *)
From Coq Require Import ZArith List Lia Bool Permutation.
From Coq Require Import ZifyBool ZifyNat.
From Verif Require Import Bytes UnitModel OleModel OleBat SpecCFB.
Import ListNotations.
Local Open Scope Z_scope.
Ltac Zify.zify_post_hook ::= Z.div_mod_to_equations.

Definition u32 (v : Z) : Z := v mod 4294967296.

(** ** chunks *)
Lemma concat_w8 v : concat (w8 v) = [byte_k 0 v]. Proof. reflexivity. Qed.
Lemma concat_w16 v : concat (w16 v) = le16 v. Proof. reflexivity. Qed.
Lemma concat_w32 v : concat (w32 v) = le32 v. Proof. reflexivity. Qed.
Lemma concat_warr l : concat (warr l) = l. Proof. unfold warr. cbn. apply app_nil_r. Qed.
Lemma concat_repeat1 (v : Z) n : concat (repeat [v] n) = repeat v n.
Proof. induction n; cbn; [|rewrite IHn]; reflexivity. Qed.
Lemma concat_wfix v n : concat (wfix v n) = repeat v (Z.to_nat n).
Proof. apply concat_repeat1. Qed.
Lemma concat_flat_w32 l : concat (flat_map w32 l) = flat_map le32 l.
Proof. induction l; [reflexivity|]. cbn [flat_map]. rewrite concat_app, IHl. reflexivity. Qed.

#[export] Hint Rewrite concat_app concat_w8 concat_w16 concat_w32 concat_warr concat_wfix
  concat_flat_w32 : chunks.

Lemma len_flat_le32 l : length (flat_map le32 l) = (4 * length l)%nat.
Proof. induction l; [reflexivity|]. cbn [flat_map]. rewrite app_length, IHl. cbn [length le32]. lia. Qed.

(** ** zseq *)
Lemma zseq_length s n : length (zseq s n) = n.
Proof. revert s. induction n; intros; cbn [zseq length]; auto. Qed.
Lemma zseq_app s n m : zseq s (n + m) = zseq s n ++ zseq (s + Z.of_nat n) m.
Proof.
  revert s. induction n; intros; cbn [zseq Nat.add app].
  - f_equal. lia.
  - rewrite IHn. do 3 f_equal. lia.
Qed.
Lemma zseq_snoc s n : zseq s (S n) = zseq s n ++ [s + Z.of_nat n].
Proof. replace (S n) with (n + 1)%nat by lia. rewrite zseq_app. reflexivity. Qed.
Lemma zseq_u32 s n : 0 <= s -> s + Z.of_nat n <= 4294967296 -> map u32 (zseq s n) = zseq s n.
Proof.
  revert s. induction n; intros s H1 H2; cbn [zseq map]; [reflexivity|].
  rewrite IHn by lia. unfold u32 at 1. rewrite Z.mod_small by lia. reflexivity.
Qed.
Lemma zseq_In s n x : In x (zseq s n) <-> s <= x < s + Z.of_nat n.
Proof.
  revert s. induction n; intros s; cbn [zseq In].
  - lia.
  - rewrite IHn. lia.
Qed.
Lemma zseq_NoDup s n : NoDup (zseq s n).
Proof.
  revert s. induction n; intros s; cbn [zseq]; constructor; auto.
  rewrite zseq_In. lia.
Qed.
Lemma zseq_nth s n i d : (i < n)%nat -> nth i (zseq s n) d = s + Z.of_nat i.
Proof.
  revert s i. induction n; intros s i H; [lia|].
  destruct i; cbn [zseq nth].
  - lia.
  - rewrite IHn by lia. lia.
Qed.

(** ** words *)
Lemma words_app n : forall a b, length a = (4 * n)%nat -> words (a ++ b) = words a ++ words b.
Proof.
  induction n; intros a b H.
  - destruct a; [reflexivity|cbn in H; lia].
  - destruct a as [|x1 [|x2 [|x3 [|x4 a]]]]; try (cbn [length] in H; lia).
    cbn [words app]. rewrite IHn by (cbn [length] in H; lia). reflexivity.
Qed.
Lemma words_le32 l : words (flat_map le32 l) = map u32 l.
Proof.
  induction l; [reflexivity|]. cbn [flat_map map].
  rewrite (words_app 1) by reflexivity. rewrite IHl.
  change (words (le32 a)) with [le_value (le32 a)]. rewrite le32_value. reflexivity.
Qed.
Lemma words_concat bs : Forall (fun b => length b = 512%nat) bs ->
  flat_map words bs = words (concat bs).
Proof.
  induction 1; [reflexivity|]. cbn [flat_map concat].
  rewrite (words_app 128) by (rewrite H; reflexivity). rewrite IHForall. reflexivity.
Qed.
Lemma words_ff n : words (repeat 255 (4 * n)) = repeat 4294967295 n.
Proof.
  induction n; [reflexivity|].
  replace (4 * S n)%nat with (4 + 4 * n)%nat by lia.
  rewrite repeat_app. rewrite (words_app 1) by reflexivity. rewrite IHn. reflexivity.
Qed.

(** ** sectors *)
Lemma sector_at f n H A S B :
  f = H ++ A ++ S ++ B -> length H = 512%nat -> length A = (512 * Z.to_nat n)%nat ->
  0 <= n -> length S = 512%nat -> sector f n = Some S.
Proof.
  intros Hf HH HA Hn HS. unfold sector.
  replace (n <? 0) with false by lia.
  assert (E : slice (512 * (Z.to_nat n + 1)) 512 f = S).
  { apply (slice_at Z f (H ++ A) S B).
    - rewrite Hf, <- app_assoc. reflexivity.
    - rewrite app_length. lia.
    - lia. }
  rewrite E, HS. reflexivity.
Qed.

Lemma sectors_at f H k : forall n A X B,
  f = H ++ A ++ X ++ B -> length H = 512%nat -> length A = (512 * Z.to_nat n)%nat ->
  0 <= n -> length X = (512 * k)%nat ->
  exists bs, omap (sector f) (zseq n k) = Some bs /\ concat bs = X
             /\ Forall (fun b => length b = 512%nat) bs.
Proof.
  induction k; intros n A X B Hf HH HA Hn HX.
  - destruct X; [|cbn in HX; lia]. exists []. repeat split; constructor.
  - set (S0 := firstn 512 X). set (X' := skipn 512 X).
    assert (HX' : X = S0 ++ X') by (symmetry; apply firstn_skipn).
    assert (HS0 : length S0 = 512%nat) by (unfold S0; rewrite firstn_length; lia).
    assert (HlX' : length X' = (512 * k)%nat) by (unfold X'; rewrite skipn_length; lia).
    cbn [zseq omap].
    rewrite (sector_at f n H A S0 (X' ++ B)); auto.
    2:{ rewrite Hf, HX', <- !app_assoc. reflexivity. }
    destruct (IHk (n + 1) (A ++ S0) X' B) as (bs & E & Hc & HF); auto.
    + rewrite Hf, HX', <- !app_assoc. reflexivity.
    + rewrite app_length. lia.
    + lia.
    + exists (S0 :: bs). cbn [obind]. rewrite E. cbn [obind].
      repeat split; auto. cbn [concat]. rewrite Hc. auto.
Qed.

(** ** chains in the FAT *)
Lemma chain_run ft : forall k fuel n,
  0 <= n -> (1 <= k)%nat -> n + Z.of_nat k <= zlen ft -> zlen ft < 4294967290 -> (k <= fuel)%nat ->
  (forall i, (i + 1 < k)%nat -> nth (Z.to_nat n + i) ft 0 = n + Z.of_nat i + 1) ->
  nth (Z.to_nat n + (k - 1)) ft 0 = ENDOFCHAIN ->
  chain ft fuel n = Some (zseq n k).
Proof.
  induction k; intros fuel n Hn Hk Hlen Hlim Hf Hmid Hend; [lia|].
  destruct fuel; [lia|].
  cbn [chain zseq]. unfold ENDOFCHAIN in *.
  replace (n =? 4294967294) with false by lia.
  replace (n <? 0) with false by lia. replace (zlen ft <=? n) with false by lia.
  cbn [orb].
  destruct k.
  - replace (Z.to_nat n + (1 - 1))%nat with (Z.to_nat n) in Hend by lia. rewrite Hend.
    destruct fuel; reflexivity.
  - replace (Z.to_nat n) with (Z.to_nat n + 0)%nat by lia.
    rewrite Hmid by lia. replace (n + Z.of_nat 0 + 1) with (n + 1) by lia.
    rewrite IHk; try lia.
    + reflexivity.
    + intros i Hi. replace (Z.to_nat (n + 1) + i)%nat with (Z.to_nat n + S i)%nat by lia.
      rewrite Hmid by lia. lia.
    + replace (Z.to_nat (n + 1) + (S k - 1))%nat with (Z.to_nat n + (S (S k) - 1))%nat by lia.
      exact Hend.
Qed.

(** A chain written as consecutive links plus an end marker, anywhere in the FAT. *)
Lemma chain_at ft A B n k fuel :
  ft = A ++ (zseq (n + 1) (k - 1) ++ [ENDOFCHAIN]) ++ B ->
  zlen A = n -> (1 <= k)%nat -> zlen ft < 4294967290 -> (k <= fuel)%nat ->
  chain ft fuel n = Some (zseq n k).
Proof.
  intros Hf HA Hk Hlim Hfuel. subst n.
  assert (Hl : zlen ft = zlen A + Z.of_nat k + zlen B).
  { rewrite Hf, !zlen_app. unfold zlen. rewrite zseq_length. cbn [length]. lia. }
  pose proof (zlen_nonneg _ A). pose proof (zlen_nonneg _ B).
  apply chain_run; auto; try lia.
  - intros i Hi. rewrite Hf. unfold zlen at 1. rewrite Nat2Z.id.
    rewrite app_nth2_plus. rewrite <- app_assoc, app_nth1 by (rewrite zseq_length; lia).
    rewrite zseq_nth by lia. lia.
  - rewrite Hf. unfold zlen at 1. rewrite Nat2Z.id. rewrite app_nth2_plus, <- app_assoc.
    rewrite app_nth2 by (rewrite zseq_length; lia). rewrite zseq_length, Nat.sub_diag. reflexivity.
Qed.

(** ** The MSAT sectors *)
Fixpoint ext_blocks (k r : nat) (s m : Z) : list (list Z * Z) :=
  match k with
  | O => []
  | S k => (zseq s (Nat.min 127 r) ++ repeat (-1) (127 - Nat.min 127 r),
            if Nat.leb r 127 then -2 else m)
           :: ext_blocks k (r - 127) (s + 127) (m + 1)
  end.
Definition ext_words (bl : list (list Z * Z)) : list Z :=
  flat_map (fun p => fst p ++ [snd p]) bl.

Lemma extra_loop_run : forall n r j extra s m,
  (n <= r)%nat -> Z.of_nat n + j mod 127 < 127 -> 0 <= j ->
  extra_loop r (j + 1) extra s m
  = zseq s n ++ extra_loop (r - n) (j + Z.of_nat n + 1) extra (s + Z.of_nat n) m.
Proof.
  induction n; intros r j extra s m Hr Hj Hj0.
  - cbn [zseq app]. rewrite Nat.sub_0_r. f_equal; lia.
  - destruct r; [lia|]. cbn [extra_loop zseq app].
    unfold BAT_BLOCKS_PER_MSAT_BLOCK.
    replace ((j + 1) mod 127 =? 0) with false by lia.
    rewrite (IHn r (j + 1) extra (s + 1) m) by lia.
    cbn [Nat.sub]. do 2 f_equal. f_equal; lia.
Qed.

Lemma extra_loop_blocks : forall k r j s m,
  (127 * (k - 1) < r <= 127 * k)%nat -> (1 <= k)%nat ->
  extra_loop r (127 * Z.of_nat j + 1) (127 * Z.of_nat j + Z.of_nat r) s m
  ++ (if Nat.eqb (r mod 127) 0 then [] else repeat (-1) (127 * k - r) ++ [-2])
  = ext_words (ext_blocks k r s m).
Proof.
  induction k; intros r j s m Hr Hk; [lia|].
  cbn [ext_blocks ext_words flat_map fst snd].
  destruct (Nat.leb_spec r 127).
  - assert (k = 0)%nat by lia. subst k. cbn [ext_blocks ext_words flat_map].
    rewrite app_nil_r.
    destruct (Nat.eq_dec r 127) as [->|Hne].
    + rewrite (extra_loop_run 126) by lia.
      change (127 - 126)%nat with 1%nat. cbn [extra_loop].
      unfold BAT_BLOCKS_PER_MSAT_BLOCK.
      replace ((127 * Z.of_nat j + Z.of_nat 126 + 1) mod 127 =? 0) with true by lia.
      replace (127 * Z.of_nat j + Z.of_nat 126 + 1 =? 127 * Z.of_nat j + Z.of_nat 127) with true by lia.
      change (127 mod 127)%nat with 0%nat. change (Nat.eqb 0 0) with true. cbv iota.
      rewrite app_nil_r, Nat.min_id.
      change (127 - 127)%nat with 0%nat. cbn [repeat]. rewrite app_nil_r.
      rewrite (zseq_snoc s 126). rewrite <- app_assoc. reflexivity.
    + rewrite (extra_loop_run r) by lia. rewrite Nat.sub_diag. cbn [extra_loop].
      replace (Nat.eqb (r mod 127) 0) with false by (symmetry; apply Nat.eqb_neq; rewrite Nat.mod_small; lia).
      rewrite Nat.min_r by lia. rewrite app_nil_r, <- app_assoc.
      replace (127 * 1 - r)%nat with (127 - r)%nat by lia. reflexivity.
  - rewrite (extra_loop_run 126) by lia.
    destruct (r - 126)%nat as [|r'] eqn:Er; [lia|]. cbn [extra_loop].
    unfold BAT_BLOCKS_PER_MSAT_BLOCK.
    replace ((127 * Z.of_nat j + Z.of_nat 126 + 1) mod 127 =? 0) with true by lia.
    replace (127 * Z.of_nat j + Z.of_nat 126 + 1 =? 127 * Z.of_nat j + Z.of_nat r) with false by lia.
    rewrite Nat.min_l by lia. change (127 - 127)%nat with 0%nat. cbn [repeat]. rewrite app_nil_r.
    change (ext_words) with (flat_map (fun p : list Z * Z => fst p ++ [snd p])) in IHk.
    rewrite <- (IHk (r - 127)%nat (S j) (s + 127) (m + 1)) by lia.
    rewrite (zseq_snoc s 126).
    rewrite <- !app_assoc. cbn [app]. f_equal.
    f_equal. f_equal.
    replace r' with (r - 127)%nat by lia.
    f_equal.
    + f_equal; lia.
    + replace ((r - 127) mod 127)%nat with (r mod 127)%nat.
      2:{ replace r with ((r - 127) + 1 * 127)%nat at 1 by lia. apply Nat.mod_add. lia. }
      destruct (Nat.eqb (r mod 127) 0); [reflexivity|]. f_equal. f_equal. lia.
Qed.

Lemma ext_block_e_len r s : length (zseq s (Nat.min 127 r) ++ repeat (-1) (127 - Nat.min 127 r)) = 127%nat.
Proof. rewrite app_length, zseq_length, repeat_length. lia. Qed.

Lemma ext_words_len k : forall r s m, length (ext_words (ext_blocks k r s m)) = (128 * k)%nat.
Proof.
  induction k; intros; cbn [ext_blocks ext_words flat_map fst snd]; [reflexivity|].
  rewrite app_length. fold (ext_words (ext_blocks k (r - 127) (s + 127) (m + 1))).
  rewrite IHk, app_length, ext_block_e_len. cbn [length]. lia.
Qed.

Lemma firstn_app_exact {A} (a b : list A) n : length a = n -> firstn n (a ++ b) = a.
Proof. intros <-. rewrite firstn_app, Nat.sub_diag, firstn_all, app_nil_r. reflexivity. Qed.
Lemma skipn_app_exact {A} (a b : list A) n : length a = n -> skipn n (a ++ b) = b.
Proof. intros <-. rewrite skipn_app, Nat.sub_diag, skipn_all. reflexivity. Qed.
Lemma nth_app_exact {A} (a : list A) x b n d : length a = n -> nth n (a ++ x :: b) d = x.
Proof. intros <-. rewrite app_nth2, Nat.sub_diag by lia. reflexivity. Qed.

Lemma map_repeat {A B} (f : A -> B) a n : map f (repeat a n) = repeat (f a) n.
Proof. induction n; cbn; [|rewrite IHn]; reflexivity. Qed.

Lemma difat_read f H k : forall r s m A B,
  f = H ++ A ++ flat_map le32 (ext_words (ext_blocks k r s m)) ++ B ->
  length H = 512%nat -> 1 <= m -> length A = (512 * Z.to_nat (m - 1))%nat ->
  (1 <= k)%nat -> (127 * (k - 1) < r <= 127 * k)%nat ->
  0 <= s -> s + Z.of_nat r < 4294967290 -> m + Z.of_nat k < 4294967290 ->
  difat_chain f k (m - 1) = Some (zseq s r ++ repeat FREESECT (127 * k - r))
  /\ difat_owned f k (m - 1) = Some (zseq (m - 1) k).
Proof.
  induction k; intros r s m A B Hf HH Hm HA Hk Hr Hs Hb1 Hb2; [lia|].
  cbn [ext_blocks ext_words flat_map fst snd] in Hf.
  fold (ext_words (ext_blocks k (r - 127) (s + 127) (m + 1))) in Hf.
  set (e := zseq s (Nat.min 127 r) ++ repeat (-1) (127 - Nat.min 127 r)) in *.
  set (nx := if Nat.leb r 127 then -2 else m) in *.
  assert (He : length e = 127%nat) by apply ext_block_e_len.
  assert (Hsec : sector f (m - 1) = Some (flat_map le32 (e ++ [nx]))).
  { eapply (sector_at f (m - 1) H A _ (flat_map le32 (ext_words (ext_blocks k (r - 127) (s + 127) (m + 1))) ++ B));
      auto; try lia.
    - rewrite Hf. rewrite flat_map_app, <- !app_assoc. reflexivity.
    - rewrite len_flat_le32, app_length, He. reflexivity. }
  cbn [difat_chain difat_owned zseq]. rewrite Hsec. cbn [obind]. rewrite words_le32, map_app.
  cbn [map]. rewrite nth_app_exact by (rewrite map_length; exact He).
  rewrite firstn_app_exact by (rewrite map_length; exact He).
  assert (Hem : map u32 e = zseq s (Nat.min 127 r) ++ repeat FREESECT (127 - Nat.min 127 r)).
  { unfold e. rewrite map_app, zseq_u32, map_repeat by lia. reflexivity. }
  rewrite Hem. unfold nx.
  destruct (Nat.leb_spec r 127).
  - assert (k = 0)%nat by lia. subst k. cbn [difat_chain difat_owned zseq].
    change (u32 (-2) =? ENDOFCHAIN) with true. cbn [obind].
    split; [|reflexivity]. rewrite app_nil_r. f_equal.
    rewrite Nat.min_r by lia. reflexivity.
  - unfold u32. rewrite Z.mod_small by lia.
    destruct (IHk (r - 127)%nat (s + 127) (m + 1) (A ++ flat_map le32 (e ++ [nx])) B) as [E1 E2]; auto; try lia.
    + rewrite Hf, flat_map_app, <- !app_assoc. reflexivity.
    + rewrite app_length, len_flat_le32, HA, app_length, He. cbn [length]. lia.
    + replace (m + 1 - 1) with m in * by lia. rewrite E1, E2. cbn [obind].
      replace (m - 1 + 1) with m by lia. split; [|reflexivity]. f_equal.
      rewrite Nat.min_l by lia. change (127 - 127)%nat with 0%nat. cbn [repeat]. rewrite app_nil_r.
      rewrite app_assoc. f_equal.
      * replace r with (127 + (r - 127))%nat at 2 by lia. rewrite zseq_app. reflexivity.
      * f_equal. lia.
Qed.

(** ** Directory entries *)
Definition valid_name (n : list Z) : Prop :=
  bytes_ok n /\ (length n <= 30)%nat.

Lemma unicode_name_ok n : valid_name n ->
  unicode_name n = flat_map (fun c => [c; 0]) n ++ [0; 0].
Proof.
  intros [Hb Hl]. unfold unicode_name.
  replace (32 <? zlen n) with false by (unfold zlen; lia).
  f_equal. clear Hl. induction Hb; [reflexivity|]. cbn [flat_map]. rewrite IHHb, byte_k_small by auto. reflexivity.
Qed.
Lemma len_uname (n : list Z) : length (flat_map (fun c => [c; 0]) n ++ [0; 0]) = (2 * length n + 2)%nat.
Proof.
  rewrite app_length. cbn [length].
  assert (length (flat_map (fun c : Z => [c; 0]) n) = (2 * length n)%nat).
  { induction n; [reflexivity|]. cbn [flat_map]. rewrite app_length, IHn. cbn [length]. lia. }
  lia.
Qed.
Lemma units16_name n : units16 (flat_map (fun c => [c; 0]) n) = n.
Proof.
  induction n; [reflexivity|]. cbn [flat_map app units16]. rewrite IHn. f_equal. cbn. lia.
Qed.

Definition node_bytes (p : oprop) : list Z :=
  let nm := flat_map (fun c => [c; 0]) (op_name p) ++ [0; 0] in
  nm ++ repeat 0 (64 - length nm)
  ++ le16 (zlen nm) ++ [byte_k 0 (op_type p); byte_k 0 (op_color p)]
  ++ le32 (op_prev p) ++ le32 (op_next p) ++ le32 (op_child p)
  ++ repeat 0 20 ++ repeat 0 16
  ++ le32 (op_start p) ++ le32 (if op_type p =? PTYPE_FILE then op_size p else 0)
  ++ repeat 0 4.

Lemma dump_node_ok p : valid_name (op_name p) ->
  exists cs, dump_node p = Ok cs /\ concat cs = node_bytes p.
Proof.
  intro Hv. unfold dump_node. rewrite unicode_name_ok by auto.
  pose proof (len_uname (op_name p)) as Hl. destruct Hv as [_ Hv].
  unfold xl_assert.
  replace (zlen (flat_map (fun c : Z => [c; 0]) (op_name p) ++ [0; 0]) <? 64) with true
    by (unfold zlen; rewrite Hl; lia).
  cbn [bind]. eexists. split; [reflexivity|].
  autorewrite with chunks. unfold node_bytes.
  set (nm := flat_map (fun c : Z => [c; 0]) (op_name p) ++ [0; 0]) in *.
  replace (Z.to_nat (64 - zlen nm)) with (64 - length nm)%nat by (unfold zlen; lia).
  reflexivity.
Qed.

Lemma node_bytes_length p : valid_name (op_name p) -> length (node_bytes p) = 128%nat.
Proof.
  intros [_ Hv]. unfold node_bytes. pose proof (len_uname (op_name p)) as Hl.
  set (nm := flat_map (fun c : Z => [c; 0]) (op_name p) ++ [0; 0]) in *.
  rewrite !app_length, !repeat_length, Hl. cbn [length le16 le32]. lia.
Qed.

Definition dentry_of (p : oprop) : dentry :=
  mkDentry (op_name p) (op_type p mod 256) (u32 (op_prev p)) (u32 (op_next p)) (u32 (op_child p))
    (u32 (op_start p)) (u32 (if op_type p =? PTYPE_FILE then op_size p else 0)).

Lemma parse_node p : valid_name (op_name p) -> parse_dentry (node_bytes p) = dentry_of p.
Proof.
  intros [_ Hv]. unfold parse_dentry.
  pose proof (len_uname (op_name p)) as Hl.
  set (nm := flat_map (fun c : Z => [c; 0]) (op_name p) ++ [0; 0]) in *.
  set (pre := nm ++ repeat 0 (64 - length nm)).
  assert (Hpre : length pre = 64%nat) by (unfold pre; rewrite app_length, repeat_length; lia).
  set (tl := le16 (zlen nm) ++ [byte_k 0 (op_type p); byte_k 0 (op_color p)]
    ++ le32 (op_prev p) ++ le32 (op_next p) ++ le32 (op_child p)
    ++ repeat 0 20 ++ repeat 0 16
    ++ le32 (op_start p) ++ le32 (if op_type p =? PTYPE_FILE then op_size p else 0) ++ repeat 0 4).
  assert (E : node_bytes p = pre ++ tl).
  { unfold node_bytes, pre, tl. fold nm. rewrite <- app_assoc. reflexivity. }
  rewrite E.
  assert (G : forall j i n, j = (64 + i)%nat -> slice j n (pre ++ tl) = slice i n tl).
  { intros j i n ->. rewrite slice_app_r by lia. f_equal. lia. }
  unfold get8, get16, get32, dentry_of, u32.
  rewrite (G 64 0)%nat, (G 66 2)%nat, (G 68 4)%nat, (G 72 8)%nat, (G 76 12)%nat,
    (G 116 52)%nat, (G 120 56)%nat by reflexivity.
  rewrite <- !le32_value.
  change (slice 0 2 tl) with (le16 (zlen nm)). rewrite le16_value.
  assert (Hz : zlen nm = 2 * zlen (op_name p) + 2) by (unfold zlen; lia).
  f_equal.
  - rewrite Z.mod_small by (rewrite Hz; unfold zlen; lia). rewrite Hz.
    unfold pre, nm. rewrite <- !app_assoc. rewrite firstn_app_exact.
    + apply units16_name.
    + clear -Hv.
      assert (length (flat_map (fun c : Z => [c; 0]) (op_name p)) = (2 * length (op_name p))%nat).
      { clear. induction (op_name p); [reflexivity|]. cbn [flat_map]. rewrite app_length, IHl. cbn [length]. lia. }
      unfold zlen. lia.
  - change (slice 2 1 tl) with [byte_k 0 (op_type p)]. cbn [le_value]. rewrite byte_k0. lia.
Qed.

Lemma name_compare_refl n : name_compare n n = Eq.
Proof.
  unfold name_compare. rewrite Nat.compare_refl.
  induction n; cbn [lex]; [reflexivity|]. rewrite Z.compare_refl. exact IHn.
Qed.
Lemma lex_antisym : forall a b, lex b a = CompOpp (lex a b).
Proof.
  induction a; destruct b; cbn [lex]; try reflexivity.
  rewrite (Z.compare_antisym (upcase a) (upcase z)).
  destruct (upcase a ?= upcase z); cbn; auto.
Qed.
Lemma name_compare_antisym a b : name_compare b a = CompOpp (name_compare a b).
Proof.
  unfold name_compare. rewrite (Nat.compare_antisym (length a) (length b)).
  destruct (Nat.compare (length a) (length b)); cbn; auto. apply lex_antisym.
Qed.
Lemma lex_trans : forall a b c, length a = length b -> length b = length c ->
  lex a b = Lt -> lex b c = Lt -> lex a c = Lt.
Proof.
  induction a; destruct b, c; cbn [lex length]; intros L1 L2 H1 H2; try discriminate.
  destruct (Z.compare_spec (upcase a) (upcase z)); try discriminate;
  destruct (Z.compare_spec (upcase z) (upcase z0)); try discriminate.
  - replace (upcase a ?= upcase z0) with Eq by (symmetry; apply Z.compare_eq_iff; lia).
    apply (IHa b c); try assumption; lia.
  - replace (upcase a ?= upcase z0) with Lt by (symmetry; apply Z.compare_lt_iff; lia). reflexivity.
  - replace (upcase a ?= upcase z0) with Lt by (symmetry; apply Z.compare_lt_iff; lia). reflexivity.
  - replace (upcase a ?= upcase z0) with Lt by (symmetry; apply Z.compare_lt_iff; lia). reflexivity.
Qed.
Lemma name_compare_trans a b c : name_compare a b = Lt -> name_compare b c = Lt -> name_compare a c = Lt.
Proof.
  unfold name_compare.
  destruct (Nat.compare_spec (length a) (length b)); try discriminate;
  destruct (Nat.compare_spec (length b) (length c)); try discriminate; intros H1 H2.
  - replace (Nat.compare (length a) (length c)) with Eq by (symmetry; apply Nat.compare_eq_iff; lia).
    eapply lex_trans; eauto.
  - replace (Nat.compare (length a) (length c)) with Lt by (symmetry; apply Nat.compare_lt_iff; lia). reflexivity.
  - replace (Nat.compare (length a) (length c)) with Lt by (symmetry; apply Nat.compare_lt_iff; lia). reflexivity.
  - replace (Nat.compare (length a) (length c)) with Lt by (symmetry; apply Nat.compare_lt_iff; lia). reflexivity.
Qed.
Lemma name_compare_neq a b : name_compare a b = Lt -> a <> b.
Proof. intros H ->. rewrite name_compare_refl in H. discriminate. Qed.
