(** C49 for documents: the records of every workbook that can be saved are such as PropsFlush
    asks for. *)
From Coq Require Import ZArith List Bool Arith Lia ZifyBool ZifyNat Sorted.
From Verif Require Import Bytes UnitModel SpecBuf RecModel SheetModel XfModel WbModel RecProofs RecFrames SheetProofs SheetTrace GlobTrace WbProofs ApiModel ApiInv SpecBiff SpecApi SpecSaved ApiEff
  SpecView SpecObj SpecSheet SpecBook SpecOrder RowBlocks BookRecs SaveRecs SaveRead SaveOk SaveMeans SavedView ViewPay PropsSheet PropsRows DemoDoc PropsOrder MemModel MemProof FlushModel PropsFlush.
Import ListNotations.
Local Open Scope Z_scope.

(** The kind of a record, by its type in the file; the object of a record that is continued
    has the CONTINUE records behind it. *)
Definition kind_of (t : Z) : rkind := if t =? T_BOUNDSHEET then RBound else if t =? T_INDEX then RIndex else if t =? T_DBCELL then RDbcell else RPlain.
Fixpoint with_continues (rs : list brec) : nat * list (rkind * nat) :=
  match rs with
  | [] => (O, [])
  | r :: t => let (n, l) := with_continues t in if fst r =? T_CONTINUE then (S n, l) else (O, (kind_of (fst r), n) :: l)
  end.
Definition objects_for (rs : list brec) : list (rkind * nat) := snd (with_continues rs).

Lemma objects_in rs x : In x (objects_for rs) -> exists r, In r rs /\ fst r <> T_CONTINUE /\ fst x = kind_of (fst r).
Proof.
  unfold objects_for. induction rs as [|r rs IH]; cbn [with_continues]; [intros []|]. destruct (with_continues rs) as [n l]. cbn [snd] in *. destruct (Z.eqb_spec (fst r) T_CONTINUE) as [E|E]; cbn [snd].
  - intro J. destruct (IH J) as (r' & J' & K). exists r'. split; [right; exact J'|exact K].
  - intros [<-|J]; [exists r; split; [left; reflexivity|split; [exact E|reflexivity]]|]. destruct (IH J) as (r' & J' & K). exists r'. split; [right; exact J'|exact K].
Qed.
Definition is_bound (r : rkind * nat) : bool := match fst r with RBound => true | _ => false end.
Lemma objects_bounds rs : length (filter is_bound (objects_for rs)) = length (filter (fun r => fst r =? T_BOUNDSHEET) rs).
Proof.
  unfold objects_for. induction rs as [|r rs IH]; cbn [with_continues filter]; [reflexivity|]. destruct (with_continues rs) as [n l]. cbn [snd] in *. destruct (Z.eqb_spec (fst r) T_CONTINUE) as [E|E]; cbn [snd].
  - rewrite E. exact IH.
  - assert (K : is_bound (kind_of (fst r), n) = (fst r =? T_BOUNDSHEET)) by (unfold is_bound, kind_of; cbn [fst]; destruct (fst r =? T_BOUNDSHEET); [reflexivity|]; destruct (fst r =? T_INDEX); [reflexivity|]; destruct (fst r =? T_DBCELL); reflexivity).
    cbn [filter]. rewrite K. destruct (fst r =? T_BOUNDSHEET); [cbn [length]; rewrite IH; reflexivity|exact IH].
Qed.
Lemma ordered_types skip order rs r : follows skip order rs -> In r rs -> existsb (Z.eqb (fst r)) skip = true \/ exists i, slot order (fst r) = Some i.
Proof.
  intros (l & E & _). revert l E. induction rs as [|x rs IH]; intros l E J; [destruct J|]. cbn [map filter] in E. destruct (existsb (Z.eqb (fst x)) skip) eqn:Q; cbn [negb] in E.
  - destruct J as [<-|J]; [left; exact Q|exact (IH l E J)].
  - cbn [traverse] in E. destruct (slot order (fst x)) as [i|] eqn:Si; [|discriminate E]. destruct (traverse (slot order) _) as [m|] eqn:Em; [|discriminate E]. destruct J as [<-|J]; [right; exists i; exact Si|exact (IH m eq_refl J)].
Qed.
Lemma no_type skip order t rs : follows skip order rs -> existsb (Z.eqb t) skip = false -> slot order t = None -> forall r, In r rs -> fst r <> t.
Proof. intros F N S r J E. destruct (ordered_types skip order rs r F J) as [K|[i K]]; rewrite E in K; congruence. Qed.
Lemma slots_not lo hi rs t i : in_slots [T_CONTINUE] GLOBALS_ORDER lo hi rs -> slot GLOBALS_ORDER t = Some i -> ~ (lo <= i <= hi)%nat -> t <> T_CONTINUE -> filter (fun r : brec => fst r =? t) rs = [].
Proof.
  intros F S N C. induction F as [|r rs Hr F IH]; [reflexivity|]. cbn [filter]. destruct (Z.eqb_spec (fst r) t) as [E|E]; [exfalso|exact IH]. rewrite E in Hr. destruct Hr as [Hr|(j & Hj & L)].
  - cbn [existsb] in Hr. rewrite orb_false_r in Hr. apply Z.eqb_eq in Hr. contradiction.
  - rewrite S in Hj. injection Hj as <-. contradiction.
Qed.
Lemma ghead_slots g : seg [T_CONTINUE] GLOBALS_ORDER 0 7 (flat_map rx (ghead_in g)).
Proof.
  unfold ghead_in, ghead_recs. cbn [tl app]. nx 0%nat [RT_CODEPAGE]. nx 1%nat [RT_WINDOW1]. nx 2%nat [RT_DATEMODE]. nx 3%nat [RT_FONT]. nx 3%nat [RT_FONT].
  nx 4%nat [RT_FORMAT]. nx 5%nat [RT_XF]. nx 5%nat [RT_XF]. nx 6%nat [RT_STYLE]. lst 7%nat [RT_PALETTE].
Qed.
Lemma gtail_slots g : seg [T_CONTINUE] GLOBALS_ORDER 9 12 (flat_map rx (gtail_in g)).
Proof.
  unfold gtail_in. cbn [app]. nx 9%nat [RT_SUPBOOK]. nx 10%nat [RT_EXTERNSHEET]. nx 11%nat [RT_MSODRAWINGGROUP]; [destruct (noted_sheets _ _); ut 11%nat [RT_MSODRAWINGGROUP]|].
  lst 12%nat [RT_SST]. apply (u_types _ _ 12 [RT_SST; RT_CONTINUE]); [reflexivity| |reflexivity]. destruct (WbModel.g_labels g); [constructor|]. apply Forall_cons; [|apply Forall_nil]. apply sst_types. hin.
Qed.
Lemma filter_all {A} (f : A -> bool) l : (forall x, In x l -> f x = true) -> filter f l = l.
Proof. induction l as [|x l IH]; intro H; [reflexivity|]. cbn [filter]. rewrite (H x (or_introl eq_refl)), IH by (intros y J; apply H; right; exact J). reflexivity. Qed.
Lemma view_bounds R calls stream w g : view R calls stream w -> globals_in stream g -> length (filter (fun r => fst r =? T_BOUNDSHEET) g) = length (sheet_names calls).
Proof.
  intros V Hg. rewrite (view_globals _ _ _ _ V _ Hg). unfold globals_body. rewrite !filter_app, !app_length. pose proof (vw_means _ _ _ _ V) as M.
  rewrite (slots_not 0 7 _ T_BOUNDSHEET 8 (proj2 (ghead_slots _))) by (first [reflexivity|lia|discriminate]).
  rewrite (slots_not 9 12 _ T_BOUNDSHEET 8 (proj2 (gtail_slots _))) by (first [reflexivity|lia|discriminate]). cbn [length]. rewrite Nat.add_0_r, Nat.add_0_l.
  rewrite filter_all by (intros x J; unfold bs_recs in J; apply in_map_iff in J; destruct J as (pn & <- & _); reflexivity).
  unfold bs_recs. rewrite map_length, combine_length. assert (Ls : length (dstarts w) = length (sheet_names calls)) by (unfold dstarts, dg, dac; rewrite starts_len, (mn_len _ _ M); reflexivity).
  assert (Ln : length (names_of (dg w)) = length (sheet_names calls)) by (unfold names_of; rewrite map_length; change (g_bs (dg w)) with (wb_bs w); rewrite <- (map_length bs_name), (mn_names _ _ M), map_length; reflexivity).
  rewrite Ls, Ln. apply Nat.min_id.
Qed.

(** Every document: its records, with their objects made, used and deleted as a save does it,
    leave exactly the objects that were there before. *)
Theorem C49_every_document : forall R moves calls stream g bodies h old, saved_ok R moves calls stream -> globals_in stream g ->
  length bodies = length (sheet_names calls) -> (forall k body, nth_error bodies k = Some body -> sheet_in stream k body) -> hv h ->
  plain_globals (objects_for g) /\ no_bounds (map objects_for bodies)
  /\ exists h', save_records h old (objects_for g) (map objects_for bodies) = Ok h' /\ forall p, In p (h_live h') <-> In p (h_live h).
Proof.
  intros R moves calls stream g bodies h old S Hg L B V. split; [|split].
  - intros x J. destruct (objects_in g x J) as (r & Jr & _ & ->). pose proof (C44_globals_order _ _ _ _ _ S Hg) as F. unfold kind_of. destruct (fst r =? T_BOUNDSHEET); [right; reflexivity|left].
    rewrite (proj2 (Z.eqb_neq _ _) (no_type _ _ T_INDEX g F eq_refl eq_refl r Jr)), (proj2 (Z.eqb_neq _ _) (no_type _ _ T_DBCELL g F eq_refl eq_refl r Jr)). reflexivity.
  - intros s x Js Jx. apply in_map_iff in Js. destruct Js as (body & <- & Jb). apply In_nth_error in Jb. destruct Jb as (k & Jb). pose proof (C44_sheet_order_partial _ _ _ _ _ _ S (B k body Jb)) as F.
    destruct (objects_in body x Jx) as (r & Jr & _ & ->). unfold kind_of. rewrite (proj2 (Z.eqb_neq _ _) (no_type _ _ T_BOUNDSHEET body F eq_refl eq_refl r Jr)). destruct (fst r =? T_INDEX); [discriminate|]. destruct (fst r =? T_DBCELL); discriminate.
  - apply C49_save_deletes_each_record_once; [exact V|]. unfold one_bound_each. destruct (saved_view _ _ _ _ S) as (w & W). rewrite map_length, L, <- (view_bounds _ _ _ _ _ W Hg). exact (objects_bounds g).
Qed.
Example C49_document_case : exists stream g bodies, saved_ok 40 (fun _ _ => false) demo stream /\ globals_in stream g /\ length bodies = length (sheet_names demo)
  /\ (forall k body, nth_error bodies k = Some body -> sheet_in stream k body) /\ bodies <> [].
Proof.
  destruct (demo_saved (fun _ _ => false)) as (stream & S). destruct (saved_view _ _ _ _ S) as (w & V). exists stream, (globals_body (dg w) (dstarts w)).
  assert (X : forall n, (n <= length (sheet_names demo))%nat -> exists bs, length bs = n /\ forall k body, nth_error bs k = Some body -> sheet_in stream k body).
  { induction n as [|n IH]; intro Ln; [exists []; split; [reflexivity|intros [|k] b H; discriminate H]|]. destruct IH as (bs & Lb & Hb); [lia|]. destruct (proj1 (view_has_sheet _ _ _ _ V n) ltac:(lia)) as (b & Kb).
    exists (bs ++ [b]). split; [rewrite app_length, Lb; cbn; lia|]. intros k x E. destruct (lt_dec k n) as [Lk|Lk]; [rewrite nth_error_app1 in E by lia; exact (Hb k x E)|]. rewrite nth_error_app2 in E by lia. rewrite Lb in E. destruct (k - n)%nat as [|m] eqn:D; cbn in E; [injection E as <-; replace k with n by lia; exact Kb|destruct m; discriminate E]. }
  destruct (X _ (le_n _)) as (bs & Lb & Hb). exists bs. split; [exact S|]. split; [exact (view_has_globals _ _ _ _ V)|]. split; [exact Lb|]. split; [exact Hb|]. intros ->. vm_compute in Lb. discriminate Lb.
Qed.
Print Assumptions C49_every_document.
