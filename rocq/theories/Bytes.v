(** Bytes, little-endian values and list helpers shared by the model and the
    specification readers. *)
From Coq Require Import ZArith List Lia Bool.
From Coq Require Import ZifyBool ZifyNat.
Import ListNotations.
Local Open Scope Z_scope.

Definition byte := Z.
Definition is_byte (b : Z) : Prop := 0 <= b < 256.
Definition bytes_ok (l : list Z) : Prop := Forall is_byte l.

Definition zlen {A} (l : list A) : Z := Z.of_nat (length l).

(** /repo/xlslib/src/common/systype.h lines 142-150: BYTE_k(x) is
    [(x >> 8k) & 0xff]. *)
Definition byte_k (k : Z) (v : Z) : Z := Z.land (Z.shiftr v (8 * k)) 255.

(** Little-endian byte strings of fixed width, as written by a sequence of
    BYTE_0, BYTE_1, ... appends (/repo/xlslib/src/xlslib/unit.cpp lines 152-189). *)
Definition le16 (v : Z) : list Z := [byte_k 0 v; byte_k 1 v].
Definition le32 (v : Z) : list Z := [byte_k 0 v; byte_k 1 v; byte_k 2 v; byte_k 3 v].
Definition le64 (v : Z) : list Z :=
  [byte_k 0 v; byte_k 1 v; byte_k 2 v; byte_k 3 v;
   byte_k 4 v; byte_k 5 v; byte_k 6 v; byte_k 7 v].

(** Specification side: value of a little-endian byte string. *)
Fixpoint le_value (l : list Z) : Z :=
  match l with
  | [] => 0
  | b :: t => b + 256 * le_value t
  end.

(** Specification side: [n] bytes of [l] from position [i]. *)
Definition slice {A} (i n : nat) (l : list A) : list A := firstn n (skipn i l).

Definition rd (n : nat) (l : list Z) (i : nat) : option Z :=
  let s := slice i n l in
  if Nat.eqb (length s) n then Some (le_value s) else None.
Definition rd8  := rd 1.
Definition rd16 := rd 2.
Definition rd32 := rd 4.
Definition rd64 := rd 8.

(** In-place replacement of one element. *)
Fixpoint upd {A} (i : nat) (v : A) (l : list A) : list A :=
  match l, i with
  | [], _ => []
  | _ :: t, O => v :: t
  | h :: t, S i => h :: upd i v t
  end.

Arguments byte_k : simpl never.
Arguments zlen : simpl never.

(** Bounds and conversion lemmas. *)
Ltac Zify.zify_post_hook ::= Z.div_mod_to_equations.

Lemma byte_k_spec : forall k v, 0 <= k -> byte_k k v = (v / 2 ^ (8 * k)) mod 256.
Proof.
  intros k v Hk. unfold byte_k.
  change 255 with (Z.ones 8). rewrite Z.land_ones by lia.
  rewrite Z.shiftr_div_pow2 by lia. reflexivity.
Qed.

Lemma byte_k_byte : forall k v, 0 <= k -> is_byte (byte_k k v).
Proof.
  intros k v Hk. rewrite byte_k_spec by exact Hk. unfold is_byte.
  apply Z.mod_pos_bound. lia.
Qed.

Lemma byte_k0 : forall v, byte_k 0 v = v mod 256.
Proof. intros v. rewrite byte_k_spec by lia. change (2 ^ (8 * 0)) with 1. rewrite Z.div_1_r. reflexivity. Qed.
Lemma byte_k1 : forall v, byte_k 1 v = (v / 256) mod 256.
Proof. intros v. rewrite byte_k_spec by lia. reflexivity. Qed.
Lemma byte_k2 : forall v, byte_k 2 v = (v / 65536) mod 256.
Proof. intros v. rewrite byte_k_spec by lia. reflexivity. Qed.
Lemma byte_k3 : forall v, byte_k 3 v = (v / 16777216) mod 256.
Proof. intros v. rewrite byte_k_spec by lia. reflexivity. Qed.
Lemma byte_k4 : forall v, byte_k 4 v = (v / 4294967296) mod 256.
Proof. intros v. rewrite byte_k_spec by lia. reflexivity. Qed.
Lemma byte_k5 : forall v, byte_k 5 v = (v / 1099511627776) mod 256.
Proof. intros v. rewrite byte_k_spec by lia. reflexivity. Qed.
Lemma byte_k6 : forall v, byte_k 6 v = (v / 281474976710656) mod 256.
Proof. intros v. rewrite byte_k_spec by lia. reflexivity. Qed.
Lemma byte_k7 : forall v, byte_k 7 v = (v / 72057594037927936) mod 256.
Proof. intros v. rewrite byte_k_spec by lia. reflexivity. Qed.

Lemma byte_k_small : forall v, is_byte v -> byte_k 0 v = v.
Proof. intros v H. rewrite byte_k0. unfold is_byte in H. apply Z.mod_small. lia. Qed.

Lemma le16_ok : forall v, bytes_ok (le16 v).
Proof. intros v. unfold le16. repeat constructor; apply byte_k_byte; lia. Qed.
Lemma le32_ok : forall v, bytes_ok (le32 v).
Proof. intros v. unfold le32. repeat constructor; apply byte_k_byte; lia. Qed.
Lemma le64_ok : forall v, bytes_ok (le64 v).
Proof. intros v. unfold le64. repeat constructor; apply byte_k_byte; lia. Qed.

Lemma le16_value : forall v, le_value (le16 v) = v mod 65536.
Proof. intros v. unfold le16, le_value. rewrite byte_k0, byte_k1. lia. Qed.
Lemma le32_value : forall v, le_value (le32 v) = v mod 4294967296.
Proof. intros v. unfold le32, le_value. rewrite byte_k0, byte_k1, byte_k2, byte_k3. lia. Qed.
Lemma le64_value : forall v, le_value (le64 v) = v mod 18446744073709551616.
Proof.
  intros v. unfold le64, le_value.
  rewrite byte_k0, byte_k1, byte_k2, byte_k3, byte_k4, byte_k5, byte_k6, byte_k7. lia.
Qed.

Lemma le16_length : forall v, length (le16 v) = 2%nat.
Proof. reflexivity. Qed.
Lemma le32_length : forall v, length (le32 v) = 4%nat.
Proof. reflexivity. Qed.
Lemma le64_length : forall v, length (le64 v) = 8%nat.
Proof. reflexivity. Qed.

(** [zlen] *)
Lemma zlen_nil : forall A, zlen (@nil A) = 0.
Proof. reflexivity. Qed.
Lemma zlen_cons : forall A (a : A) l, zlen (a :: l) = zlen l + 1.
Proof. intros A a l. unfold zlen. cbn [length]. lia. Qed.
Lemma zlen_app : forall A (a b : list A), zlen (a ++ b) = zlen a + zlen b.
Proof. intros A a b. unfold zlen. rewrite app_length. lia. Qed.
Lemma zlen_nonneg : forall A (l : list A), 0 <= zlen l.
Proof. intros A l. unfold zlen. lia. Qed.
Lemma zlen_repeat : forall A (a : A) n, zlen (repeat a n) = Z.of_nat n.
Proof. intros A a n. unfold zlen. rewrite repeat_length. reflexivity. Qed.
Lemma zlen_map : forall A B (f : A -> B) l, zlen (map f l) = zlen l.
Proof. intros A B f l. unfold zlen. rewrite map_length. reflexivity. Qed.
Lemma zlen_le16 : forall v, zlen (le16 v) = 2. Proof. reflexivity. Qed.
Lemma zlen_le32 : forall v, zlen (le32 v) = 4. Proof. reflexivity. Qed.
Lemma zlen_le64 : forall v, zlen (le64 v) = 8. Proof. reflexivity. Qed.
Lemma zlen_0_nil : forall A (l : list A), zlen l = 0 -> l = [].
Proof. intros A [|a l] H; [reflexivity|]. unfold zlen in H. cbn in H. lia. Qed.

#[export] Hint Rewrite zlen_nil zlen_cons zlen_app zlen_repeat zlen_map zlen_le16 zlen_le32 zlen_le64 : zlen.

(** [upd] *)
Lemma upd_length : forall A i (v : A) l, length (upd i v l) = length l.
Proof. intros A i v l. revert i. induction l as [|h t IH]; intros [|i]; cbn; auto. Qed.

Lemma upd_nth_same : forall A i (v d : A) l, (i < length l)%nat -> nth i (upd i v l) d = v.
Proof.
  intros A i v d l. revert i. induction l as [|h t IH]; intros [|i] H; cbn in *; try lia; auto.
  apply IH. lia.
Qed.

Lemma upd_nth_other : forall A i j (v d : A) l, i <> j -> nth j (upd i v l) d = nth j l d.
Proof.
  intros A i j v d l. revert i j.
  induction l as [|h t IH]; intros [|i] [|j] H; cbn; auto; try lia.
Qed.

Lemma upd_app_l : forall A i (v : A) a b, (i < length a)%nat -> upd i v (a ++ b) = upd i v a ++ b.
Proof.
  intros A i v a. revert i. induction a as [|h t IH]; intros [|i] b H; cbn in *; try lia; auto.
  rewrite IH by lia. reflexivity.
Qed.

Lemma upd_app_r : forall A i (v : A) a b, (length a <= i)%nat ->
  upd i v (a ++ b) = a ++ upd (i - length a) v b.
Proof.
  intros A i v a. revert i. induction a as [|h t IH]; intros i b H; cbn in *.
  - rewrite Nat.sub_0_r. reflexivity.
  - destruct i as [|i]; [lia|]. cbn. rewrite IH by lia. reflexivity.
Qed.

Lemma upd_firstn : forall A i n (v : A) l, (i < n)%nat ->
  firstn n (upd i v l) = upd i v (firstn n l).
Proof.
  intros A i n v l. revert i n.
  induction l as [|h t IH]; intros [|i] [|n] H; cbn; auto; try lia.
  rewrite IH by lia. reflexivity.
Qed.

Lemma upd_Forall : forall A (P : A -> Prop) i v l, Forall P l -> P v -> Forall P (upd i v l).
Proof.
  intros A P i v l H Hv. revert i. induction H as [|h t Hh Ht IH]; intros [|i]; cbn; constructor; auto.
Qed.

(** [slice] and reads *)
Lemma slice_app_r : forall A i n (a b : list A), (length a <= i)%nat ->
  slice i n (a ++ b) = slice (i - length a) n b.
Proof.
  intros A i n a b H. unfold slice. rewrite skipn_app.
  rewrite skipn_all2 by exact H. reflexivity.
Qed.

Lemma slice_app_l : forall A i n (a b : list A), (i + n <= length a)%nat ->
  slice i n (a ++ b) = slice i n a.
Proof.
  intros A i n a b H. unfold slice. rewrite skipn_app, firstn_app.
  rewrite skipn_length. replace (n - (length a - i))%nat with O by lia.
  cbn [firstn]. apply app_nil_r.
Qed.

Lemma slice_exact : forall A (a b c : list A), slice (length a) (length b) (a ++ b ++ c) = b.
Proof.
  intros A a b c. rewrite slice_app_r by lia. rewrite Nat.sub_diag.
  unfold slice. cbn [skipn]. rewrite firstn_app, Nat.sub_diag, firstn_all. cbn. apply app_nil_r.
Qed.

Lemma slice_at : forall A (l a b c : list A) i n,
  l = a ++ b ++ c -> i = length a -> n = length b -> slice i n l = b.
Proof. intros A l a b c i n -> -> ->. apply slice_exact. Qed.

Lemma slice_length : forall A i n (l : list A), (i + n <= length l)%nat -> length (slice i n l) = n.
Proof. intros A i n l H. unfold slice. rewrite firstn_length, skipn_length. lia. Qed.

Lemma rd_at : forall n l a b c i, l = a ++ b ++ c -> i = length a -> n = length b ->
  rd n l i = Some (le_value b).
Proof.
  intros n l a b c i Hl Hi Hn. unfold rd. rewrite (slice_at _ l a b c i n Hl Hi Hn).
  subst n. rewrite Nat.eqb_refl. reflexivity.
Qed.

Lemma bytes_ok_app : forall a b, bytes_ok (a ++ b) <-> bytes_ok a /\ bytes_ok b.
Proof. intros a b. unfold bytes_ok. apply Forall_app. Qed.

Lemma bytes_ok_repeat : forall n b, is_byte b -> bytes_ok (repeat b n).
Proof. intros n b H. induction n; cbn; constructor; auto. Qed.

Lemma le_value_bound : forall l, bytes_ok l -> 0 <= le_value l < 256 ^ zlen l.
Proof.
  intros l H. induction H as [|b t Hb Ht IH].
  - rewrite zlen_nil. cbn. lia.
  - cbn [le_value]. rewrite zlen_cons. rewrite Z.pow_add_r by (try apply zlen_nonneg; lia).
    unfold is_byte in Hb. rewrite Z.pow_1_r. nia.
Qed.

Lemma skipn_skipn : forall A n m (l : list A), skipn n (skipn m l) = skipn (m + n) l.
Proof.
  intros A n m. induction m; intro l; cbn [skipn Nat.add]; [reflexivity|].
  destruct l; [destruct n; reflexivity|]. apply IHm.
Qed.
