(** C35: reading a saved file gives back what was written. *)
From Coq Require Import ZArith List Bool Lia ZifyBool ZifyNat Sorted.
From Verif Require Import Bytes UnitModel SpecBuf OleModel SpecCFB PropsOle RecModel SheetModel XfModel WbModel RecProofs RecFrames SheetProofs SheetTrace GlobTrace WbProofs ApiModel SpecBiff BookRecs ApiInv ApiEff
  SpecApi SpecSaved SaveOk SaveRecs SaveRead SaveMeans DocLimits SavedView DemoDoc PropsCells SpecSheet PropsSheet SpecFile.
Import ListNotations.
Local Open Scope Z_scope.

Lemma next_frame t p rest : 0 <= t < 65536 -> zlen p <= 8224 -> next_record (frame t p ++ rest) = Some ((t, p), rest).
Proof.
  intros Ht Hp. pose proof (zlen_nonneg _ p). pose proof (zlen_nonneg _ rest). unfold frame, le16. cbn [app next_record]. rewrite !le_value2 by lia. rewrite zlen_app.
  replace ((8224 <? zlen p) || (zlen p + zlen rest <? zlen p))%bool with false by lia.
  unfold zlen. rewrite Nat2Z.id, skipn_app, skipn_all, Nat.sub_diag, skipn_O. cbn [app]. rewrite firstn_app, firstn_all, Nat.sub_diag, firstn_O, app_nil_r. reflexivity.
Qed.
Lemma body_frames body rest : Forall rec_fits body -> Forall (fun r : brec => fst r <> T_EOF /\ fst r <> T_BOF) body ->
  forall f, (length body < f)%nat -> body_from f (frame_all (body ++ [(RT_EOF, [])]) ++ rest) = Some body.
Proof.
  intro F. induction F as [|[t p] body (Ht & Hp) F IH]; intros N f Hf; (destruct f as [|f]; [cbn in Hf; lia|]); cbn [body_from app].
  - rewrite frame_all_cons, <- app_assoc. cbn [fst snd]. rewrite next_frame; [reflexivity|unfold RT_EOF; lia|rewrite zlen_nil; lia].
  - rewrite frame_all_cons, <- app_assoc. cbn [fst snd] in *. rewrite next_frame by assumption. inversion N as [|? ? [A B] N']; subst. cbn [fst] in A, B.
    destruct (t =? T_EOF) eqn:E1; [lia|]. destruct (t =? T_BOF) eqn:E2; [lia|]. rewrite IH; [reflexivity|exact N'|cbn in Hf; lia].
Qed.
Lemma frames_long rs : (length rs <= length (frame_all rs))%nat.
Proof.
  induction rs as [|[t p] rs IH]; [cbn; lia|]. rewrite frame_all_cons, app_length. pose proof (frame_length t p). pose proof (zlen_nonneg _ p). unfold zlen in *. cbn [fst snd length]. lia.
Qed.
(** A wrapped substream inside a stream that goes on with anything. *)
Lemma substream_wrap b pos k body rest : 0 <= pos < zlen b -> skipn (Z.to_nat pos) b = frame_all (wrap k body) ++ rest -> 0 <= k < 65536 ->
  Forall rec_fits (wrap k body) -> Forall (fun r : brec => fst r <> T_EOF /\ fst r <> T_BOF) body -> substream_at b pos = Some (k, body).
Proof.
  intros Hp Es Hk F N. unfold substream_at. replace ((pos <? 0) || (zlen b <=? pos))%bool with false by lia. rewrite Es. unfold wrap in *.
  inversion F as [|? ? [A B] F']; subst. cbn [fst snd] in A, B. rewrite frame_all_cons, <- app_assoc. cbn [fst snd]. rewrite next_frame by assumption.
  change (RT_BOF =? T_BOF) with true. rewrite biff8_bof. cbv iota. apply Forall_app in F'. destruct F' as [F' _].
  rewrite body_frames; [|exact F'|exact N|rewrite app_length; pose proof (frames_long (body ++ [(RT_EOF, [])])) as Lf; rewrite app_length in Lf; cbn [length] in Lf; lia].
  assert (E : fld 2 (bof_bytes k) 2 = Some k) by (unfold fld, bof_bytes, le16; cbn [app length Nat.leb Nat.add skipn firstn]; f_equal; apply le_value2; exact Hk).
  rewrite E. reflexivity.
Qed.

Section Book.
Variables (R : Z) (calls : list call) (stream : list Z) (w : wb).
Hypothesis V : view R calls stream w.
Hypothesis HR : R <= 32819.
Let I2 : winv2 w := mn_inv _ _ (vw_means _ _ _ _ V).
Lemma lim8 : limits 8228 w.
Proof. pose proof (vw_limits _ _ _ _ V) as L. rewrite Bof_small in L by (pose proof (vw_rows _ _ _ _ V); lia). exact L. Qed.

Lemma rec_book : Forall rec_fits (wrap 5 (globals_body (dg w) (dstarts w)) ++ concat (map (wrap 16) (dbodies w))).
Proof.
  pose proof (limits_ok 8228 (li_B _ _ lim8) w I2 lim8) as LK. cbv zeta in LK. destruct LK as (Bk & Ft & _).
  destruct (book_frames _ _ _ Bk Ft) as [_ Rf]. unfold book_records in Rf. rewrite globals_shape, sheets_recs_bodies in Rf. exact Rf.
Qed.
Lemma globals_read pad : substream_at (stream ++ pad) 0 = Some (K_GLOBALS, globals_body (dg w) (dstarts w)).
Proof.
  pose proof rec_book as F. apply Forall_app in F. destruct F as [F _].
  assert (E : stream = frame_all (wrap 5 (globals_body (dg w) (dstarts w))) ++ frame_all (concat (map (wrap 16) (dbodies w)))).
  { rewrite (vw_stream _ _ _ _ V). destruct (store_records 8228 w I2 lim8) as [-> _]. unfold book_records. rewrite globals_shape, sheets_recs_bodies, frame_all_app. reflexivity. }
  apply (substream_wrap _ 0 5 _ (frame_all (concat (map (wrap 16) (dbodies w))) ++ pad)).
  - split; [lia|]. rewrite E. unfold wrap at 1. rewrite frame_all_cons, !zlen_app, frame_length. pose proof (zlen_nonneg _ pad).
    pose proof (zlen_nonneg _ (snd (RT_BOF, bof_bytes 5))). pose proof (zlen_nonneg _ (frame_all (globals_body (dg w) (dstarts w) ++ [(RT_EOF, [])]))).
    pose proof (zlen_nonneg _ (frame_all (concat (map (wrap 16) (dbodies w))))). cbn [fst snd] in *. lia.
  - cbn [Z.to_nat skipn]. rewrite E, <- app_assoc. reflexivity.
  - lia.
  - exact F.
  - apply globals_types_in, globals_body_types.
Qed.
Lemma sheet_read k p pad : nth_error (dstarts w) k = Some p -> exists body, sheet_in stream k body /\ substream_at (stream ++ pad) p = Some (K_SHEET, body).
Proof.
  intro H. destruct (stream_from w I2 lim8 k p H) as (P0 & P1 & Pf). fold (dg w) (dac w) in Pf. fold (dbodies w) in Pf.
  assert (Hk : (k < length (dbodies w))%nat).
  { unfold dbodies. rewrite bodies_len, <- (starts_len w (wb_sheets w) (g_size (dg w))). apply nth_error_Some. fold (dg w) (dac w) (dstarts w). congruence. }
  destruct (nth_error (dbodies w) k) as [body|] eqn:Eb; [|apply nth_error_None in Eb; lia].
  assert (Sk : skipn k (dbodies w) = body :: skipn (S k) (dbodies w)) by (apply skip_nth; exact Eb).
  exists body. split.
  - unfold sheet_in. rewrite (vw_stream _ _ _ _ V), (substream_eq 8228 w (S k) I2 lim8). cbn [nth_error]. rewrite nth_error_map, Eb. reflexivity.
  - pose proof rec_book as F. apply Forall_app in F. destruct F as [_ F]. rewrite <- (firstn_skipn k (dbodies w)), map_app, concat_app in F. apply Forall_app in F. destruct F as [_ F].
    rewrite Sk in F, Pf. cbn [map concat] in F, Pf. apply Forall_app in F. destruct F as [F _].
    assert (Pl : (Z.to_nat p <= length stream)%nat) by (rewrite (vw_stream _ _ _ _ V); unfold zlen in P1; lia).
    apply (substream_wrap _ p 16 _ (frame_all (concat (map (wrap 16) (skipn (S k) (dbodies w)))) ++ pad)).
    + rewrite zlen_app. rewrite <- (vw_stream _ _ _ _ V) in P1. pose proof (zlen_nonneg _ pad). lia.
    + rewrite skipn_app. replace (Z.to_nat p - length stream)%nat with 0%nat by lia. cbn [skipn]. rewrite (vw_stream _ _ _ _ V), Pf, frame_all_app, app_assoc. reflexivity.
    + lia.
    + exact F.
    + pose proof (bodies_types (dg w) (dac w) (wb_sheets w) (g_size (dg w))) as Tb. apply sheet_types_in. rewrite Forall_forall in Tb. apply Tb. eapply nth_error_In. exact Eb.
Qed.
End Book.

(* ------------------------------------------------------------------ *)
(** * C35 *)

Lemma traverse_nth {A B} (f : A -> option B) (P : nat -> B -> Prop) : forall l k0,
  (forall k x, nth_error l k = Some x -> exists y, f x = Some y /\ P (k0 + k)%nat y) ->
  exists ys, traverse f l = Some ys /\ length ys = length l /\ forall k y, nth_error ys k = Some y -> P (k0 + k)%nat y.
Proof.
  induction l as [|x l IH]; intros k0 H.
  - exists []. split; [reflexivity|]. split; [reflexivity|]. intros [|k] y E; discriminate E.
  - destruct (H 0%nat x eq_refl) as (y & Ey & Py). destruct (IH (S k0)) as (ys & Eys & Ly & Pys).
    { intros k z E. destruct (H (S k) z E) as (v & Ev & Pv). exists v. split; [exact Ev|]. replace (S k0 + k)%nat with (k0 + S k)%nat by lia. exact Pv. }
    exists (y :: ys). cbn [traverse]. rewrite Ey, Eys. split; [reflexivity|]. split; [cbn [length]; lia|]. intros [|k] v E.
    + cbn in E. apply some_inj in E. subst v. exact Py.
    + replace (k0 + S k)%nat with (S k0 + k)%nat by lia. apply Pys. exact E.
Qed.

(** For every history of calls within the limits: the units [us] of the saved Workbook stream
    and any two other streams make a compound file; reading that file back, with a reader
    that knows only the two published formats, yields the sheets created, in order, with
    their names, and in each sheet exactly the cells last written, with their values. *)
Theorem C35_end_to_end R moves calls stream us us2 us3 names : saved_ok R moves calls stream -> R <= 32819 -> concat us = stream ->
  zlen stream + zlen (concat us2) + zlen (concat us3) <= 4294955000 ->
  map units (sheet_names calls) = map Some names -> Forall (fun n => zlen n <= 255) names ->
  exists f sheets, ole_image us us2 us3 = Ok f /\ read_file f = Some sheets /\ map rs_name sheets = names
    /\ forall k sh, nth_error sheets k = Some sh -> StronglySorted before (rs_cells sh) /\ same_cells (cells_of k calls) (rs_cells sh).
Proof.
  intros H HR Eu Hz Hn Hl. destruct (saved_view _ _ _ _ H) as [w V].
  destruct (C07_compound_file_reads_back us us2 us3) as (f & b & b2 & b3 & Ef & Eb & (k0 & Ep & _) & _); [rewrite Eu; exact Hz|].
  rewrite Eu in Ep.
  assert (Hz' : zlen stream < 4294967296) by (pose proof (zlen_nonneg _ (concat us2)); pose proof (zlen_nonneg _ (concat us3)); lia).
  pose proof (view_has_globals _ _ _ _ V) as Hg. destruct (view_entries _ _ _ _ _ _ V HR Hg Hz' Hn Hl) as [Ls Er].
  pose (P := fun k sh => nth_error names k = Some (rs_name sh) /\ StronglySorted before (rs_cells sh) /\ same_cells (cells_of k calls) (rs_cells sh)).
  pose proof (view_has_sheet _ _ _ _ V) as Vs.
  assert (St : exists sst, read_sst (globals_body (dg w) (dstarts w)) = Some sst /\ forall k e,
     nth_error (map (fun pn => mkRSE (fst pn) 0 (snd pn)) (combine (dstarts w) names)) k = Some e -> exists sh, sheet_from b sst e = Some sh /\ P k sh).
  { assert (Rd : exists sst, read_sst (globals_body (dg w) (dstarts w)) = Some sst).
    { destruct (proj1 (Vs 0%nat)) as [body Hb].
      - pose proof (ft_sheets _ _ (vw_fits _ _ _ _ V)) as Fs. unfold zlen in Fs. lia.
      - destruct (view_cells _ _ _ _ V 0%nat _ body Hg Hb) as (s & _ & Rs & _). eauto. }
    destruct Rd as [sst Rd]. exists sst. split; [exact Rd|]. intros k e J. rewrite nth_error_map in J.
    destruct (nth_error (combine (dstarts w) names) k) as [[p n]|] eqn:Ec; [|discriminate J]. apply some_inj in J. subst e. cbn [fst snd] in *.
    assert (Epn : nth_error (dstarts w) k = Some p /\ nth_error names k = Some n).
    { clear - Ec. revert names k Ec. induction (dstarts w) as [|a l IH]; intros [|m ms] [|k] Ec; cbn in *; try discriminate Ec; [apply some_inj, pair_equal_spec in Ec; destruct Ec; subst; auto|apply IH; exact Ec]. }
    destruct Epn as [Epp Enn]. destruct (sheet_read _ _ _ _ V HR k p (repeat 0 k0) Epp) as (body & Hb & Eb2). rewrite <- Ep in Eb2.
    destruct (C13_cells_saved _ _ _ _ k _ body H Hg Hb) as (sst' & cells & Rs & Rc & So & Sa). rewrite Rd in Rs. apply some_inj in Rs. subst sst'.
    exists (mkRSh n body cells). split; [|repeat split; auto; apply Sa]. unfold sheet_from. cbn [se_pos se_name]. rewrite Eb2, Z.eqb_refl, Rc. reflexivity. }
  destruct St as (sst & Rd & St). destruct (traverse_nth (sheet_from b sst) P _ 0%nat St) as (sheets & Et & Lt & Pt).
  exists f, sheets. split; [exact Ef|]. split; [|split].
  - unfold read_file. change WORKBOOK with name_workbook. rewrite Eb. unfold read_book. rewrite Ep, (globals_read _ _ _ _ V HR), Z.eqb_refl, Rd, Er, <- Ep. exact Et.
  - rewrite map_length, combine_length, Ls, Nat.min_id in Lt. clear - Lt Pt. revert names Lt P Pt. 
    assert (G : forall (names : list (list Z)), length sheets = length names -> (forall k sh, nth_error sheets k = Some sh -> nth_error names k = Some (rs_name sh)) -> map rs_name sheets = names).
    { induction sheets as [|s sheets IH]; intros [|n names] L H; try discriminate L; [reflexivity|]. cbn [map]. f_equal.
      - pose proof (H 0%nat s eq_refl) as H0. cbn in H0. apply some_inj in H0. auto.
      - apply IH; [injection L; auto|]. intros k sh E. exact (H (S k) sh E). }
    intros names Lt P Pt. apply G; [exact Lt|]. intros k sh E. apply (Pt k sh E).
  - intros k sh E. apply (Pt k sh E).
Qed.
Print Assumptions C35_end_to_end.
Example C35_case : exists stream us, saved_ok 40 (fun _ _ => false) demo stream /\ concat us = stream
  /\ zlen stream + zlen (concat [[1; 2]]) + zlen (concat [[3]]) <= 4294955000 /\ map units (sheet_names demo) = map Some [[65]; [1041; 66]].
Proof.
  assert (K : match stream_of 400 demo with Some s => zlen s <=? 100000 | None => false end = true) by (vm_compute; reflexivity).
  destruct (stream_of 400 demo) as [s|] eqn:E; [|discriminate K]. exists s, [s]. split.
  - constructor; [lia|apply demo_typed|apply demo_fits|left; lia|exact (stream_of_saved _ _ _ E)].
  - split; [apply app_nil_r|]. split; [unfold zlen in *; cbn [concat app length]; lia|reflexivity].
Qed.
