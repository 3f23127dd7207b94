(** Saving to a device that may fail: binfile.cpp (std::ofstream m_File) and the
    error handling of oledoc.cpp 65-353 and workbook::Dump (workbook.cpp 300-334). *)
From Coq Require Import ZArith List Lia Bool.
From Verif Require Import Bytes UnitModel OleModel.
Import ListNotations.
Local Open Scope Z_scope.

(** The output stream: bytes the device accepted, bytes still in the stream buffer, the
    stream's bad bit, and a count of write_service calls. *)
Record ostate := mkO { o_sent : list Z; o_pend : list Z; o_bad : bool; o_calls : nat }.
Definition o_new : ostate := mkO [] [] false 0.

Section Dev.
(** [cap]: how many bytes the device accepts before failing.  [pol k]: how many buffered
    bytes the C++ library decides to hand to the device during the k-th call. *)
Variable cap : nat.
Variable pol : nat -> nat.

(** Hand [n] buffered bytes to the device. *)
Definition o_flush (n : nat) (s : ostate) : ostate :=
  let n := Nat.min n (length (o_pend s)) in
  let fits := (cap - length (o_sent s))%nat in
  if Nat.leb n fits then
    mkO (o_sent s ++ firstn n (o_pend s)) (skipn n (o_pend s)) (o_bad s) (o_calls s)
  else
    mkO (o_sent s ++ firstn fits (o_pend s)) (skipn fits (o_pend s)) true (o_calls s).

(** write_service, binfile.cpp 180-191: no effect once the stream is bad. *)
Definition o_write (s : ostate) (c : list Z) : ostate :=
  if o_bad s then mkO (o_sent s) (o_pend s) true (S (o_calls s)) else
  let s' := o_flush (pol (o_calls s)) (mkO (o_sent s) (o_pend s ++ c) false (o_calls s)) in
  mkO (o_sent s') (o_pend s') (o_bad s') (S (o_calls s')).
Definition o_writes (s : ostate) (cs : chunks) : ostate := fold_left o_write cs s.

(** Position(), binfile.cpp 70-78: tellp() is -1 once the stream is bad. *)
Definition o_pos (s : ostate) : Z :=
  if o_bad s then 2 ^ 32 - 1 else (zlen (o_sent s) + zlen (o_pend s)) mod 2 ^ 32.

(** DumpOleFile with the error codes: DumpData returns the code of the last write
    (oledoc.cpp 197-220), the other parts always return NO_ERRORS. *)
Definition dump_ole_dev (fs : ofs) : res (Z * ostate) :=
  let nodes := get_all_nodes fs in
  let total := total_data_size nodes in
  match get_bat_count total with
  | None => UB
  | Some bks =>
      let* _ := xl_assert (total =? total / BIG_BLOCK_SIZE * BIG_BLOCK_SIZE) in
      let s1 := o_writes o_new (dump_header bks total) in
      let* _ := xl_assert (o_pos s1 =? HEAD_SIZE + msat_count bks * BIG_BLOCK_SIZE) in
      let* _ := xl_assert (o_pos s1 mod 512 =? 0) in
      let s2 := o_writes s1 (dump_data nodes) in
      let e2 := if o_bad s2 then -1 else 0 in
      let* _ := xl_assert (o_pos s2 mod 512 =? 0) in
      let* (dc, ps) := dump_depots bks nodes in
      let s3 := o_writes s2 dc in
      let* _ := xl_assert (o_pos s3 mod 512 =? 0) in
      let* fc := dump_nodes (ot_prop (fs_tree fs) :: ps) in
      let s4 := o_writes s3 fc in
      let* _ := xl_assert (o_pos s4 mod 512 =? 0) in
      Ok (Z.lor 0 e2, s4)
  end.

(** workbook::Dump 316-332: build the file system, dump, close.  Close flushes the
    buffer and ignores the outcome (binfile.cpp 61-68).  Returns the code and the final
    contents of the file. *)
Definition save_dev (q1 q2 q3 : list Z) (us1 us2 us3 : list (list Z)) : res (Z * list Z) :=
  let* fs := add_three_at q1 q2 q3 us1 us2 us3 in
  let* (e, s) := dump_ole_dev fs in
  Ok (e, o_sent (o_flush (length (o_pend s)) s)).
End Dev.

Lemma o_writes_bad cap pol cs : forall s, o_bad s = true -> o_bad (o_writes cap pol s cs) = true.
Proof.
  induction cs; intros s H; cbn [o_writes fold_left]; auto.
  apply IHcs. unfold o_write. rewrite H. reflexivity.
Qed.

Lemma o_flush_app cap n s : o_sent (o_flush cap n s) ++ o_pend (o_flush cap n s) = o_sent s ++ o_pend s.
Proof.
  unfold o_flush. destruct (Nat.leb _ _); cbn [o_sent o_pend]; rewrite <- app_assoc, firstn_skipn; reflexivity.
Qed.

Lemma o_writes_good cap pol cs : forall s, o_bad (o_writes cap pol s cs) = false ->
  o_bad s = false /\
  o_sent (o_writes cap pol s cs) ++ o_pend (o_writes cap pol s cs) = (o_sent s ++ o_pend s) ++ concat cs.
Proof.
  induction cs as [|c cs IH]; intros s H; cbn [o_writes fold_left concat] in *.
  - rewrite app_nil_r. auto.
  - destruct (o_bad s) eqn:E.
    { exfalso. fold (o_writes cap pol (o_write cap pol s c) cs) in H.
      rewrite o_writes_bad in H; [discriminate|]. unfold o_write. rewrite E. reflexivity. }
    split; [reflexivity|]. destruct (IH _ H) as [_ IH2]. unfold o_writes in IH2. rewrite IH2.
    unfold o_write. rewrite E. cbn [o_sent o_pend].
    rewrite o_flush_app. cbn [o_sent o_pend]. rewrite !app_assoc. reflexivity.
Qed.

Lemma o_pos_good s : o_pos s mod 512 = 0 -> o_bad s = false.
Proof. unfold o_pos. destruct (o_bad s); [|reflexivity]. intro H. vm_compute in H. discriminate. Qed.

(** Success of the modelled save implies that every byte entered the stream, and that no
    error occurred up to Close. *)
Lemma dump_dev_complete cap pol fs e s :
  dump_ole_dev cap pol fs = Ok (e, s) ->
  e = 0 /\ o_bad s = false /\ dump_ole fs = Ok (o_sent s ++ o_pend s).
Proof.
  unfold dump_ole_dev, dump_ole, dump_ole_chunks.
  destruct (get_bat_count _) as [bks|]; [|discriminate].
  set (nodes := get_all_nodes fs). set (total := total_data_size nodes).
  destruct (xl_assert (total =? _)) as [[]| |]; cbn [bind]; try discriminate.
  set (h := dump_header bks total). set (s1 := o_writes cap pol o_new h).
  unfold xl_assert at 1. destruct (o_pos s1 =? _) eqn:P0; cbn [bind]; [|discriminate].
  unfold xl_assert at 1. destruct (o_pos s1 mod 512 =? 0) eqn:P1; cbn [bind]; [|discriminate].
  apply Z.eqb_eq in P1. pose proof (o_pos_good _ P1) as B1.
  destruct (o_writes_good cap pol h o_new B1) as [_ C1]. fold s1 in C1. cbn [o_new o_sent o_pend app] in C1.
  assert (G : forall s cs, o_bad s = false -> o_sent s ++ o_pend s = concat cs -> o_pos s = pos_of cs).
  { intros s0 cs Hb Hc. unfold o_pos, pos_of. rewrite Hb, <- Hc, zlen_app. reflexivity. }
  rewrite <- (G s1 h B1 C1), P0. unfold xl_assert at 1. cbn [bind]. rewrite P1. cbn [Z.eqb].
  unfold xl_assert at 3. cbn [bind].
  set (d := dump_data nodes). set (s2 := o_writes cap pol s1 d).
  unfold xl_assert at 1. destruct (o_pos s2 mod 512 =? 0) eqn:P2; cbn [bind]; [|discriminate].
  apply Z.eqb_eq in P2. pose proof (o_pos_good _ P2) as B2.
  destruct (o_writes_good cap pol d s1 B2) as [_ C2]. fold s2 in C2. rewrite C1, <- concat_app in C2.
  rewrite <- (G s2 (h ++ d) B2 C2), P2. cbn [Z.eqb]. unfold xl_assert at 3. cbn [bind].
  destruct (dump_depots bks nodes) as [[dc ps]| |]; cbn [bind]; try discriminate.
  set (s3 := o_writes cap pol s2 dc).
  unfold xl_assert at 1. destruct (o_pos s3 mod 512 =? 0) eqn:P3; cbn [bind]; [|discriminate].
  apply Z.eqb_eq in P3. pose proof (o_pos_good _ P3) as B3.
  destruct (o_writes_good cap pol dc s2 B3) as [_ C3]. fold s3 in C3. rewrite C2, <- concat_app in C3.
  rewrite <- (G s3 ((h ++ d) ++ dc) B3 C3), P3. cbn [Z.eqb]. unfold xl_assert at 2. cbn [bind].
  destruct (dump_nodes _) as [fc| |]; cbn [bind]; try discriminate.
  set (s4 := o_writes cap pol s3 fc).
  unfold xl_assert at 1. destruct (o_pos s4 mod 512 =? 0) eqn:P4; cbn [bind]; [|discriminate].
  apply Z.eqb_eq in P4. pose proof (o_pos_good _ P4) as B4.
  destruct (o_writes_good cap pol fc s3 B4) as [_ C4]. fold s4 in C4. rewrite C3, <- concat_app in C4.
  rewrite <- (G s4 (((h ++ d) ++ dc) ++ fc) B4 C4), P4. cbn [Z.eqb]. unfold xl_assert. cbn [bind].
  intro H. injection H as <- <-. rewrite B2. split; [reflexivity|]. split; [exact B4|].
  rewrite C4. reflexivity.
Qed.

Lemma o_flush_all cap s : (length (o_sent s) + length (o_pend s) <= cap)%nat ->
  o_sent (o_flush cap (length (o_pend s)) s) = o_sent s ++ o_pend s.
Proof.
  intro H. unfold o_flush. rewrite Nat.min_id.
  replace (Nat.leb _ _) with true by (symmetry; apply Nat.leb_le; lia).
  cbn [o_sent]. rewrite firstn_all. reflexivity.
Qed.

(** A stream that never holds bytes back. *)
Lemma o_flush_drain cap n s : (length (o_pend s) <= n)%nat ->
  o_bad (o_flush cap n s) = false -> o_bad s = false /\ o_pend (o_flush cap n s) = [].
Proof.
  intros Hn. unfold o_flush. rewrite Nat.min_r by lia. destruct (Nat.leb _ _); cbn [o_bad o_pend]; [|discriminate].
  intro H. split; [exact H|apply skipn_all].
Qed.
Lemma o_writes_drain cap pol L cs : (forall k, L <= pol k)%nat -> forall s,
  o_pend s = [] -> o_bad (o_writes cap pol s cs) = false ->
  (length (o_sent s) + length (concat cs) <= L)%nat ->
  o_pend (o_writes cap pol s cs) = [].
Proof.
  intros Hp. induction cs as [|c cs IH]; intros s Hs Hb Hl; [exact Hs|].
  cbn [o_writes fold_left concat] in *. fold (o_writes cap pol (o_write cap pol s c) cs) in *.
  destruct (o_writes_good cap pol cs _ Hb) as [Hb1 _].
  rewrite app_length in Hl. unfold o_write in Hb1 |- *.
  unfold o_write in Hb. destruct (o_bad s) eqn:E; [discriminate Hb1|].
  set (s0 := mkO (o_sent s) (o_pend s ++ c) false (o_calls s)) in *.
  cbn [o_bad] in Hb1. 
  destruct (o_flush_drain cap (pol (o_calls s)) s0) as [_ Hd]; [|exact Hb1|].
  { cbn [s0 o_pend]. rewrite Hs. cbn [app]. specialize (Hp (o_calls s)). lia. }
  apply IH; [exact Hd|exact Hb|].
  pose proof (f_equal (@length Z) (o_flush_app cap (pol (o_calls s)) s0)) as HL.
  cbn [o_sent]. rewrite Hd in HL. cbn [s0 o_sent o_pend] in HL. rewrite Hs in HL.
  rewrite !app_length in HL. cbn [length app] in HL. fold s0 in HL. lia.
Qed.
Lemma o_writes_app cap pol a b s : o_writes cap pol s (a ++ b) = o_writes cap pol (o_writes cap pol s a) b.
Proof. apply fold_left_app. Qed.
Lemma dump_dev_writes cap pol fs e s : dump_ole_dev cap pol fs = Ok (e, s) ->
  exists cs, s = o_writes cap pol o_new cs.
Proof.
  unfold dump_ole_dev. destruct (get_bat_count _) as [bks|]; [|discriminate].
  destruct (xl_assert _) as [[]| |]; cbn [bind]; try discriminate.
  do 3 (destruct (xl_assert _) as [[]| |]; cbn [bind]; try discriminate).
  destruct (dump_depots _ _) as [[dc ps]| |]; cbn [bind]; try discriminate.
  destruct (xl_assert _) as [[]| |]; cbn [bind]; try discriminate.
  destruct (dump_nodes _) as [fc| |]; cbn [bind]; try discriminate.
  destruct (xl_assert _) as [[]| |]; cbn [bind]; try discriminate.
  intro H. injection H as <- <-. 
  exists (((dump_header bks (total_data_size (get_all_nodes fs)) ++ dump_data (get_all_nodes fs)) ++ dc) ++ fc).
  rewrite (o_writes_app _ _ _ fc), (o_writes_app _ _ _ dc), (o_writes_app _ _ _ (dump_data _)). reflexivity.
Qed.
Lemma dump_dev_drained cap pol fs e s : dump_ole_dev cap pol fs = Ok (e, s) ->
  (forall k, length (o_sent s ++ o_pend s) <= pol k)%nat -> o_pend s = [].
Proof.
  intros H Hp. destruct (dump_dev_complete cap pol fs e s H) as (_ & Hb & _).
  destruct (dump_dev_writes cap pol fs e s H) as [cs ->].
  destruct (o_writes_good cap pol cs o_new Hb) as [_ Hc]. cbn [o_new o_sent o_pend app] in Hc.
  eapply o_writes_drain; [exact Hp|reflexivity|exact Hb|]. rewrite Hc. cbn. lia.
Qed.
