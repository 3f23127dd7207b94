(** C59: the rows of the index record. *)
From Coq Require Import ZArith List Bool Lia ZifyBool ZifyNat.
From Verif Require Import Bytes UnitModel UnitProofs SpecBuf BufProofs RecModel RecProofs RecFrames SheetModel SpecApi SpecBiff SaveRead BookRecs PropsRows EditModel SpecEdit PropsEdit IdxModel SpecIdx.
Import ListNotations.
Local Open Scope Z_scope.

Lemma aset_code bs : forall e i l, 0 <= i -> i + zlen bs <= zlen l -> zlen l < 4294967296 -> fst (aset_bytes e bs i l) = e.
Proof.
  induction bs as [|b t IH]; intros e i l A B C; cbn [aset_bytes]; [reflexivity|]. rewrite zlen_cons in B. pose proof (zlen_nonneg _ t).
  unfold aset8. rewrite Z.mod_small by (change (2 ^ 32) with 4294967296; lia). replace (i <? zlen l) with true by lia.
  change (NO_ERRORS =? NO_ERRORS) with true. cbn iota. apply IH; try lia; unfold zlen in *; rewrite upd_length; lia.
Qed.
(** The bytes of the record. *)
Definition ibytes (a b : Z) (offs : list Z) : list Z := frame 523 (le32 0 ++ le32 a ++ le32 b ++ offs32 offs).
Lemma over_at (p x r bs : list Z) i : i = length p -> length bs = length x -> overwrite (p ++ x ++ r) i bs = p ++ bs ++ r.
Proof.
  intros -> L. rewrite overwrite_spec by (rewrite !app_length; lia). rewrite firstn_app, Nat.sub_diag, firstn_all. cbn [firstn]. rewrite app_nil_r. do 2 f_equal.
  rewrite app_assoc, skipn_app, skipn_all2 by (rewrite app_length; lia). rewrite app_length, L, Nat.sub_diag. reflexivity.
Qed.
Lemma ilen a b offs : zlen (ibytes a b offs) = 16 + zlen (offs32 offs).
Proof. unfold ibytes, frame. rewrite !zlen_app, !zlen_le32, !zlen_le16. lia. Qed.
Lemma ihead a b offs : ibytes a b offs = (le16 523 ++ le16 (12 + zlen (offs32 offs)) ++ le32 0) ++ le32 a ++ (le32 b ++ offs32 offs).
Proof. unfold ibytes, frame. rewrite !zlen_app, !zlen_le32, <- !app_assoc. replace (4 + (4 + (4 + zlen (offs32 offs)))) with (12 + zlen (offs32 offs)) by lia. reflexivity. Qed.
Lemma ihead2 a b offs : ibytes a b offs = (le16 523 ++ le16 (12 + zlen (offs32 offs)) ++ le32 0 ++ le32 a) ++ le32 b ++ offs32 offs.
Proof. rewrite ihead, <- !app_assoc. reflexivity. Qed.
Lemma over_first a b offs v : overwrite (ibytes a b offs) 8 (digits 4 v) = ibytes v b offs.
Proof. rewrite digits4, (ihead a), over_at by reflexivity. symmetry. apply ihead. Qed.
Lemma over_last a b offs v : overwrite (ibytes a b offs) 12 (digits 4 v) = ibytes a v offs.
Proof. rewrite digits4, (ihead2 a b), over_at by reflexivity. symmetry. apply ihead2. Qed.
Lemma rd_first a b offs : u32 a -> rd 4 (ibytes a b offs) 8 = Some a.
Proof. intro A. rewrite <- (over_first a b offs a), rd_overwrite by (pose proof (ilen a b offs); pose proof (zlen_nonneg _ (offs32 offs)); unfold zlen in *; lia). f_equal. apply Z.mod_small. exact A. Qed.
Lemma rd_last a b offs : u32 b -> rd 4 (ibytes a b offs) 12 = Some b.
Proof. intro A. rewrite <- (over_last a b offs b), rd_overwrite by (pose proof (ilen a b offs); pose proof (zlen_nonneg _ (offs32 offs)); unfold zlen in *; lia). f_equal. apply Z.mod_small. exact A. Qed.
Lemma offs_bytes offs : Forall is_byte (offs32 offs).
Proof. unfold offs32. induction offs as [|o t IH]; cbn [flat_map]; [constructor|]. apply Forall_app. split; [apply le32_ok|exact IH]. Qed.
Lemma ibytes_ok a b offs : Forall is_byte (ibytes a b offs).
Proof. unfold ibytes, frame. repeat (apply Forall_app; split); try apply le16_ok; try apply le32_ok. apply offs_bytes. Qed.

Section Idx.
Variable orc : nat -> option (nat -> Z).
Hypothesis total : orc_total orc.
Lemma store_shown u l v i : R u (Some l) -> 0 <= i -> i + 4 <= zlen l -> zlen l < 536870912 ->
  exists u1, store32 orc u v i = Ok u1 /\ R u1 (Some (overwrite l (Z.to_nat i) (digits 4 v))).
Proof.
  intros H A B L. destruct (op_shown orc total u l (OSet32 v i) H) as (e & u1 & K & K2 & K3); [cbn [op_typed]; lia|cbn [spec_op]; unfold zlen in *; rewrite overwrite_length; exact L|].
  cbn [spec_op] in K2. exists u1. split; [|exact K2]. unfold store32. rewrite K. unfold verified. cbn [bind]. cbn [arun_op amap] in K3.
  pose proof (aset_code (le32 v) NO_ERRORS i l A ltac:(rewrite zlen_le32; lia) ltac:(lia)) as C. destruct (aset_bytes NO_ERRORS (le32 v) i l) as [e1 l1]. cbn [fst] in C. subst e1.
  injection K3 as <- _. reflexivity.
Qed.
Lemma load_shown u l i v : R u (Some l) -> Forall is_byte l -> 0 <= i < 4294967292 -> rd 4 l (Z.to_nat i) = Some v -> zlen l < 536870912 -> load32 u i = Ok v.
Proof.
  intros H F A E L. pose proof (get32_shown orc u l i H F A) as G. unfold as_edit in G. cbn [edit run_eop] in G. rewrite E in G. destruct (G L) as (u1 & G1 & _).
  unfold load32. destruct (unit_get32 u i) as [a| |]; cbn [bind] in *; try discriminate. injection G1 as -> _. reflexivity.
Qed.
Lemma xops_shown offs ops : zlen (offs32 offs) < 536870000 -> Forall xop_ok ops -> forall u f l, row_ok f -> row_ok l -> R u (Some (ibytes f (l + 1) offs)) ->
  exists u1, run_xops orc u ops = Ok (answers (fun x => x + 1) (f, l) ops, u1)
    /\ R u1 (Some (ibytes (fst (rows_after (f, l) ops)) (snd (rows_after (f, l) ops) + 1) offs))
    /\ row_ok (fst (rows_after (f, l) ops)) /\ row_ok (snd (rows_after (f, l) ops)).
Proof.
  intros Lo T. unfold row_ok. induction T as [|o t To T IH]; intros u f l Rf Rl H; cbn [run_xops answers rows_after]; [eauto|].
  assert (Len : forall a b, zlen (ibytes a b offs) < 536870912) by (intros; rewrite ilen; lia). pose proof (zlen_nonneg _ (offs32 offs)) as Nn. unfold row_ok in *. destruct o as [f1 l1| |]; cbn [run_xop].
  - destruct To as (T1 & T2). unfold row_ok in *. destruct (store_shown u _ f1 8 H) as (u1 & -> & H1); [lia|rewrite ilen; lia|apply Len|]. cbn [bind].
    change (Z.to_nat 8) with 8%nat in H1. rewrite over_first in H1. rewrite Z.mod_small by (change (2 ^ 32) with 4294967296; lia).
    destruct (store_shown u1 _ (l1 + 1) 12 H1) as (u2 & -> & H2); [lia|rewrite ilen; lia|apply Len|]. cbn [bind]. change (Z.to_nat 12) with 12%nat in H2. rewrite over_last in H2.
    destruct (IH u2 f1 l1 T1 T2 H2) as (u3 & -> & K). cbn [bind]. exists u3. split; [reflexivity|exact K].
  - rewrite (load_shown u _ 8 f H (ibytes_ok _ _ _) ltac:(lia)); [|change (Z.to_nat 8) with 8%nat; apply rd_first; unfold u32; lia|apply Len]. cbn [bind].
    destruct (IH u f l Rf Rl H) as (u3 & -> & K). cbn [bind fst]. exists u3. split; [reflexivity|exact K].
  - rewrite (load_shown u _ 12 (l + 1) H (ibytes_ok _ _ _) ltac:(lia)); [|change (Z.to_nat 12) with 12%nat; apply rd_last; unfold u32; lia|apply Len]. cbn [bind].
    destruct (IH u f l Rf Rl H) as (u3 & -> & K). cbn [bind snd]. exists u3. split; [reflexivity|exact K].
Qed.
Lemma index_shown f l offs : zlen (offs32 offs) < 536870000 -> exists codes u, run_ops orc unit_new (rec_index f l offs) = Ok (codes, u) /\ R u (Some (ibytes f (l + 1) offs)).
Proof.
  intro Lo. pose proof (build_index f l offs) as B. unfold build in B. destruct (arun_ops None (rec_index f l offs)) as [[es [x|]]| |] eqn:E; try discriminate.
  assert (X : x = ibytes f (l + 1) offs) by (apply ok_inj in B; exact (f_equal bu_bytes B)). clear B.
  assert (A : alen (Some x) < LIM) by (cbn [alen]; rewrite X, ilen, LIM_val; lia).
  pose proof (ops_sim orc (rec_index f l offs) unit_new None es (Some x) I E A) as S.
  destruct (run_ops orc unit_new (rec_index f l offs)) as [[es' u]| |]; [|exfalso; auto|contradiction].
  destruct S as ([->|N] & S2); [|contradiction]. exists es, u. split; [reflexivity|]. rewrite <- X. auto.
Qed.
End Idx.

(** C59, what holds of the code: after any calls the record shows the rows last set and the block
    positions it was made with; the first row is answered as set, and the last row is answered as
    one more than set.  The full claim, with the last row answered as set, is refuted below. *)
Theorem C59_rows_partial :
  forall orc f l d offs ops, (forall k, orc k <> None) ->
    row_ok f -> row_ok l -> Forall u32 offs -> Forall xop_ok ops -> zlen offs < 16000 ->
    exists u b, index_made orc f l (d :: offs) ops = Ok (answers (fun x => x + 1) (f, l) ops, u) /\ content u = Some b
      /\ read_index (skipn 4 b) = Some (mkRI (fst (rows_after (f, l) ops)) (snd (rows_after (f, l) ops) + 1) offs).
Proof.
  intros orc f l d offs ops T Rf Rl Uo To Lo.
  assert (L : zlen (offs32 (d :: offs)) < 536870000).
  { assert (E : forall x, zlen (offs32 x) = 4 * zlen x) by (unfold offs32; induction x as [|y x IH]; cbn [flat_map]; [reflexivity|]; rewrite zlen_app, zlen_le32, zlen_cons, IH; lia).
    rewrite E, zlen_cons. lia. }
  unfold index_made. destruct (index_shown orc T f l (d :: offs) L) as (codes & u & -> & H). cbn [bind].
  destruct (xops_shown orc T (d :: offs) ops L To u f l Rf Rl H) as (u1 & -> & K & K1 & K2). unfold row_ok in *. eexists u1, _. split; [reflexivity|]. split; [apply R_content; exact K|].
  unfold ibytes, frame. rewrite app_assoc, skipn_app, skipn_all2 by (rewrite app_length; reflexivity). cbn [app]. rewrite app_length. change (length (le16 523)) with 2%nat. 
  replace (4 - (2 + length (le16 _)))%nat with 0%nat by reflexivity. cbn [skipn]. apply index_read; [unfold u32; lia|unfold u32; lia|exact Uo].
Qed.
Print Assumptions C59_rows_partial.
Example C59_case : row_ok 3 /\ row_ok 40 /\ Forall u32 [500; 900] /\ Forall xop_ok [XFirst; XSetRows 5 70; XLast; XFirst] /\ zlen [500; 900] < 16000
  /\ answers (fun x => x + 1) (3, 40) [XFirst; XSetRows 5 70; XLast; XFirst] = [[3]; []; [71]; [5]].
Proof. unfold row_ok, u32. repeat split; try lia; repeat (constructor; cbn; unfold row_ok; try lia). Qed.

Theorem C59_rows_refuted :
  exists orc f l offs ops a u, (forall k, orc k <> None) /\ row_ok f /\ row_ok l /\ Forall xop_ok ops
    /\ index_made orc f l offs ops = Ok (a, u) /\ a <> answers (fun x => x) (f, l) ops.
Proof.
  exists (fun _ => Some (fun _ => 0)), 3, 40, [500], [XLast]. do 2 eexists. split; [discriminate|]. unfold row_ok. split; [lia|]. split; [lia|].
  split; [constructor; [exact I|constructor]|]. split; [vm_compute; reflexivity|]. vm_compute. discriminate.
Qed.
Print Assumptions C59_rows_refuted.
