(** The column, row, note and colour tables as maps of the calls. *)
From Coq Require Import ZArith List Bool Lia ZifyBool ZifyNat Sorted.
From Verif Require Import Bytes UnitModel RecModel SheetModel XfModel WbModel XfInv ApiModel ApiInv SpecApi ApiEff.
Import ListNotations.
Local Open Scope Z_scope.

Lemma rh_put_iff x y l : StronglySorted (fun a b => rh_row a < rh_row b) l ->
  In y (rh_put x l) <-> y = x \/ (In y l /\ rh_row y <> rh_row x).
Proof.
  induction l as [|z t IH]; cbn [rh_put]; intro S; [cbn; intuition|].
  apply StronglySorted_inv in S. destruct S as [S F]. rewrite Forall_forall in F.
  assert (L : forall u, In u t -> rh_row z < rh_row u) by auto.
  destruct (rh_row x <? rh_row z) eqn:E1.
  - cbn [In]. split; [intros [<-|[<-|H]]|intros [->|[[->|H] _]]]; auto.
    + right. split; [auto|lia].
    + right. split; [auto|]. specialize (L y H). lia.
  - destruct (rh_row z <? rh_row x) eqn:E2; cbn [In].
    + rewrite IH by exact S. split; [intros [<-|[->|[H N]]]|intros [->|[[->|H] N]]]; auto. right. split; [auto|lia].
    + split; [intros [<-|H]|intros [->|[[->|H] N]]]; auto; [|lia]. right. split; [auto|]. specialize (L y H). lia.
Qed.
Lemma col_put_iff x y l : StronglySorted (fun a b => ci_col a < ci_col b) l ->
  In y (col_put x l) <-> y = x \/ (In y l /\ ci_col y <> ci_col x).
Proof.
  induction l as [|z t IH]; cbn [col_put]; intro S; [cbn; intuition|].
  apply StronglySorted_inv in S. destruct S as [S F]. rewrite Forall_forall in F.
  assert (L : forall u, In u t -> ci_col z < ci_col u) by auto.
  destruct (ci_col x <? ci_col z) eqn:E1.
  - cbn [In]. split; [intros [<-|[<-|H]]|intros [->|[[->|H] _]]]; auto.
    + right. split; [auto|lia].
    + right. split; [auto|]. specialize (L y H). lia.
  - destruct (ci_col z <? ci_col x) eqn:E2; cbn [In].
    + rewrite IH by exact S. split; [intros [<-|[->|[H N]]]|intros [->|[[->|H] N]]]; auto. right. split; [auto|lia].
    + split; [intros [<-|H]|intros [->|[[->|H] N]]]; auto; [|lia]. right. split; [auto|]. specialize (L y H). lia.
Qed.
Lemma note_put_iff x y l : StronglySorted nlt l ->
  In y (note_put x l) <-> y = x \/ (In y l /\ (no_row y, no_col y) <> (no_row x, no_col x)).
Proof.
  induction l as [|z t IH]; cbn [note_put]; intro S; [cbn; intuition|].
  apply StronglySorted_inv in S. destruct S as [S F]. rewrite Forall_forall in F.
  assert (N0 : forall a b c d, key_lt a b c d = true -> (a, b) <> (c, d)).
  { intros a b c d H E. injection E as -> ->. rewrite key_lt_irr in H. discriminate. }
  destruct (key_lt (no_row x) (no_col x) (no_row z) (no_col z)) eqn:E1.
  - cbn [In]. split; [intros [<-|[<-|H]]|intros [->|[[->|H] _]]]; auto.
    + right. split; [auto|]. apply N0 in E1. congruence.
    + right. split; [auto|]. pose proof (key_lt_trans _ _ _ _ _ _ E1 (F y H)) as K. apply N0 in K. congruence.
  - destruct (key_lt (no_row z) (no_col z) (no_row x) (no_col x)) eqn:E2; cbn [In].
    + rewrite IH by exact S. split; [intros [<-|[->|[H N]]]|intros [->|[[->|H] N]]]; auto.
    + destruct (key_tri _ _ _ _ E1 E2) as [K1 K2]. split; [intros [<-|H]|intros [->|[[->|H] N]]]; auto; [|congruence]. right. split; [auto|].
      specialize (F y H). apply N0 in F. congruence.
Qed.

Lemma rows_snoc k calls q : fold_left (rows_step k) (calls ++ [q]) [] = rows_step k (fold_left (rows_step k) calls []) q.
Proof. rewrite fold_left_app. reflexivity. Qed.
Lemma rows_sorted k calls : StronglySorted (fun a b => rh_row a < rh_row b) (fold_left (rows_step k) calls []).
Proof.
  induction calls as [|q calls IH] using rev_ind; [constructor|]. rewrite rows_snoc. destruct q; cbn [rows_step]; auto.
  destruct (Nat.eqb k k0); auto. apply rh_put_sorted. exact IH.
Qed.
Lemma heights_iff k calls : forall h, In h (fold_left (rows_step k) calls []) <-> height_of k calls (rh_row h) = Some (rh_height h, rh_xf h).
Proof.
  induction calls as [|q calls IH] using rev_ind; intro h; [cbn; split; [tauto|discriminate]|].
  rewrite rows_snoc. unfold height_of. rewrite fold_left_app. fold (height_of k calls (rh_row h)). cbn [fold_left].
  destruct q; cbn [rows_step height_step]; auto. destruct (Nat.eqb k k0) eqn:Ek; cbn [andb]; [|apply IH].
  rewrite rh_put_iff by apply rows_sorted. rewrite IH. cbn [rh_row]. destruct (row =? rh_row h) eqn:Er.
  - split; [intros [->|[_ N]]; [reflexivity|lia]|]. intro H. left. destruct h as [a b c]. cbn [rh_row rh_height rh_xf] in *. injection H as -> ->. f_equal. lia.
  - split; [intros [->|[H _]]; [cbn in Er; lia|exact H]|]. intro H. right. split; [exact H|lia].
Qed.
Lemma cols_snoc k calls q : fold_left (cols_step k) (calls ++ [q]) [] = cols_step k (fold_left (cols_step k) calls []) q.
Proof. rewrite fold_left_app. reflexivity. Qed.
Lemma cols_sorted k calls : StronglySorted (fun a b => ci_col a < ci_col b) (fold_left (cols_step k) calls []).
Proof.
  induction calls as [|q calls IH] using rev_ind; [constructor|]. rewrite cols_snoc. destruct q; cbn [cols_step]; auto.
  destruct (Nat.eqb k k0); auto. apply col_put_sorted. exact IH.
Qed.
Lemma cols_iff k calls : forall h, In h (fold_left (cols_step k) calls []) <-> width_of k calls (ci_col h) = Some (ci_width h, ci_xf h).
Proof.
  induction calls as [|q calls IH] using rev_ind; intro h; [cbn; split; [tauto|discriminate]|].
  rewrite cols_snoc. unfold width_of. rewrite fold_left_app. fold (width_of k calls (ci_col h)). cbn [fold_left].
  destruct q; cbn [cols_step width_step]; auto. destruct (Nat.eqb k k0) eqn:Ek; cbn [andb]; [|apply IH].
  rewrite col_put_iff by apply cols_sorted. rewrite IH. cbn [ci_col]. destruct (col =? ci_col h) eqn:Er.
  - split; [intros [->|[_ N]]; [reflexivity|lia]|]. intro H. left. destruct h as [a b c]. cbn [ci_col ci_width ci_xf] in *. injection H as -> ->. f_equal. lia.
  - split; [intros [->|[H _]]; [cbn in Er; lia|exact H]|]. intro H. right. split; [exact H|lia].
Qed.
Lemma notes_snoc k calls q : fold_left (notes_step k) (calls ++ [q]) [] = notes_step k (fold_left (notes_step k) calls []) q.
Proof. rewrite fold_left_app. reflexivity. Qed.
Lemma notes_sorted k calls : StronglySorted nlt (fold_left (notes_step k) calls []).
Proof.
  induction calls as [|q calls IH] using rev_ind; [constructor|]. rewrite notes_snoc. destruct q; cbn [notes_step]; auto.
  destruct (Nat.eqb k k0); auto. apply note_put_sorted. exact IH.
Qed.
Lemma note_new_pos r c a t : no_row (note_new r c a t) = r /\ no_col (note_new r c a t) = c.
Proof. apply note_new_texts. Qed.
Lemma notes_iff k calls : forall n, In n (fold_left (notes_step k) calls []) <->
  exists a t, note_of k calls (no_row n) (no_col n) = Some (a, t) /\ n = note_new (no_row n) (no_col n) (to16 a) (to16 t).
Proof.
  induction calls as [|q calls IH] using rev_ind; intro n; [cbn; split; [tauto|intros (a & t & H & _); discriminate]|].
  rewrite notes_snoc. unfold note_of. rewrite fold_left_app. fold (note_of k calls (no_row n) (no_col n)). cbn [fold_left].
  destruct q; cbn [notes_step note_step]; auto. destruct (Nat.eqb k k0) eqn:Ek; cbn [andb]; [|apply IH].
  rewrite note_put_iff by apply notes_sorted. rewrite IH. destruct (note_new_pos row col (to16 author) (to16 remark)) as [P1 P2]. rewrite P1, P2.
  destruct ((row =? no_row n) && (col =? no_col n))%bool eqn:Er.
  - assert (row = no_row n /\ col = no_col n) as [Q1 Q2] by lia. split.
    + intros [->|[_ N]]; [|congruence]. exists author, remark. rewrite P1, P2. auto.
    + intros (a & t & H & K). left. apply (f_equal (fun o => match o with Some (x, y) => (x, y) | None => (a, t) end)) in H. cbn in H. injection H as -> ->.
      rewrite Q1, Q2. exact K.
  - split.
    + intros [->|[H _]]; [rewrite P1, P2, !Z.eqb_refl in Er; discriminate|exact H].
    + intro H. right. split; [exact H|]. intro E. injection E as E1 E2. lia.
Qed.
