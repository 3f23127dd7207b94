(** C16: the fields of INDEX and DBCELL records that do not depend on sizes guessed in advance. *)
From Coq Require Import ZArith List Bool Lia ZifyBool ZifyNat.
From Verif Require Import Bytes UnitModel SpecBuf BufProofs RecModel RecProofs RecFrames SheetModel SheetProofs SheetTrace XfModel WbModel XfInv ApiModel ApiInv SpecBiff BookRecs SpecApi SpecSaved SpecSheet SpecView
  ApiEff RowBlocks SaveOk SaveRecs SaveRead SaveMeans SavedView ViewPay PropsSheet PropsRows DemoDoc.
Import ListNotations.
Local Open Scope Z_scope.

Lemma positions_any t pos a b : record_positions t pos (a ++ b) = record_positions t pos a ++ record_positions t (pos + rsz a) b.
Proof.
  revert pos. induction a as [|[u p] a IH]; intro pos; cbn [app record_positions].
  - change (rsz []) with 0. rewrite Z.add_0_r. reflexivity.
  - rewrite IH, rsz_cons, <- app_assoc. do 2 f_equal. f_equal. lia.
Qed.
Lemma positions_none t ts rs : has_types ts rs -> ~ In t ts -> forall pos, record_positions t pos rs = [].
Proof.
  intros H N. unfold has_types in H. induction H as [|[u p] a J F IH]; intro pos; [reflexivity|]. cbn [record_positions fst] in *.
  replace (u =? t) with false; [apply IH|]. symmetry. apply Z.eqb_neq. intros ->. contradiction.
Qed.
Lemma size_rsz rs : records_size rs = rsz rs.
Proof. induction rs as [|[t p] rs IH]; [reflexivity|]. cbn [records_size]. rewrite rsz_cons, IH. reflexivity. Qed.
(** A sheet lies within the stream. *)
Lemma body_within R calls stream w k body p : view R calls stream w -> R <= 32819 -> sheet_in stream k body -> nth_error (dstarts w) k = Some p ->
  0 <= p /\ rsz body + p + 20 <= zlen stream.
Proof.
  intros V HR Hk Ep. pose proof (mn_inv _ _ (vw_means _ _ _ _ V)) as I2. pose proof (vw_limits _ _ _ _ V) as L. rewrite Bof_small in L by (pose proof (vw_rows _ _ _ _ V); lia).
  destruct (stream_from w I2 L k p Ep) as (P0 & P1 & Pf). split; [lia|]. fold (dg w) (dac w) in Pf. fold (dbodies w) in Pf.
  assert (Eb3 : nth_error (dbodies w) k = Some body).
  { unfold sheet_in in Hk. rewrite (vw_stream _ _ _ _ V), (substream_eq 8228 w (S k) I2 L) in Hk. cbn [nth_error] in Hk. rewrite nth_error_map in Hk.
    destruct (nth_error (dbodies w) k) as [x|]; [|discriminate Hk]. apply some_inj in Hk. congruence. }
  rewrite (skip_nth body _ _ Eb3) in Pf. cbn [map concat] in Pf. rewrite frame_all_app in Pf.
  assert (Q : zlen (skipn (Z.to_nat p) stream) >= 20 + rsz body).
  { rewrite (vw_stream _ _ _ _ V), Pf, zlen_app. unfold wrap. fold (rsz ((RT_BOF, bof_bytes 16) :: body ++ [(RT_EOF, [])])). rewrite rsz_cons, rsz_app.
    change (zlen (bof_bytes 16)) with 16. change (rsz [(RT_EOF, [])]) with 4. match goal with |- _ + zlen ?l >= _ => pose proof (zlen_nonneg _ l) end. lia. }
  rewrite <- (vw_stream _ _ _ _ V) in P1. unfold zlen in Q, P1 |- *. rewrite skipn_length in Q. lia.
Qed.

Lemma front_types ls bl : has_types [T_ROW; RT_BLANK; RT_BOOLERR; RT_RK; RT_NUMBER; RT_LABEL; RT_LABELSST; RT_FORMULA; RT_ARRAY; RT_STRING; T_DBCELL] (concat (flat_map (block_recs ls) bl)).
Proof.
  apply ht_concat, Forall_flat_map, Forall_forall. intros b _. unfold block_recs. apply Forall_app. split; [|apply Forall_app; split].
  - apply Forall_map, Forall_forall. intros r _. hone.
  - apply Forall_map, Forall_forall. intros c _. eapply ht_weaken; [|apply cell_types]. intros t. cbn. tauto.
  - constructor; [hone|constructor].
Qed.
Lemma cols_size (l : list colinfo) : rsz (concat (map (fun c => [(RT_COLINFO, colinfo_bytes c)]) l)) = 16 * zlen l.
Proof. induction l as [|x l IH]; [reflexivity|]. cbn [map concat app]. rewrite rsz_cons, IH, zlen_cons. change (zlen (colinfo_bytes x)) with 12. lia. Qed.
Lemma index_size pos s : zlen (index_bytes pos s) = 16 + 4 * zlen (sblocks (sh_cells s)).
Proof.
  unfold index_bytes, offs32. cbv zeta. rewrite !zlen_app, !zlen_le32, (flat_len _ 4) by reflexivity. rewrite zlen_cons.
  replace (zlen (index_offs _ _ _)) with (zlen (sblocks (sh_cells s))); [lia|].
  generalize (pos + (20 + 4 * zlen (sblocks (sh_cells s))) + 8 + 16 * zlen (sh_cols s) + 6 + 18). generalize 0 at 1.
  induction (sblocks (sh_cells s)); intros; cbn [index_offs]; [reflexivity|]. rewrite !zlen_cons. f_equal. apply IHl.
Qed.

(** Whatever the cells, the INDEX record of a stream below 4 GB states the position of the record
    with the sheet's default column width (the fourth field, at byte 12).  Sheets so large
    that their INDEX record is continued are covered by the limit on [R]. *)
Theorem C16_default_width_found R moves calls stream k body : saved_ok R moves calls stream -> R <= 32819 -> sheet_in stream k body -> zlen stream < 4294967296 ->
  exists pos p d, sheet_begins stream k pos /\ payloads T_INDEX body = [p] /\ fld 4 p 12 = Some d
    /\ record_positions T_DEFCOLWIDTH (pos + 20) body = [d].
Proof.
  intros H HR Hk Hz. destruct (saved_view _ _ _ _ H) as [w V].
  pose proof (mn_inv _ _ (vw_means _ _ _ _ V)) as I2. pose proof (vw_limits _ _ _ _ V) as L. rewrite Bof_small in L by (pose proof (vw_rows _ _ _ _ V); lia).
  destruct (view_blocks _ _ _ _ k body V Hk) as (s & p & bl & _ & _ & Es & Ep & Is & Me & Eb & _ & _ & _ & Pl).
  destruct (view_sheet _ _ _ _ V k body Hk) as (s' & p' & Es' & Ep' & _ & _ & _ & _ & Eb2). specialize (Eb2 HR).
  rewrite Es in Es'. apply some_inj in Es'. subst s'. rewrite Ep in Ep'. apply some_inj in Ep'. subst p'.
  destruct (body_within _ _ _ _ _ _ _ V HR Hk Ep) as [P0 Sz].
  assert (Beg : sheet_begins stream k p) by (rewrite (vw_stream _ _ _ _ V); apply starts_begin; auto).
  set (cs := concat (map (fun c => [(RT_COLINFO, colinfo_bytes c)]) (sh_cols s))) in *.
  assert (Ebd : body = [(RT_INDEX, index_bytes (p + 20) s); (RT_DEFAULTROWHEIGHT, le16 (if sh_defrh s =? 15 then 0 else 1) ++ le16 (sh_defrh s * 20))]
      ++ cs ++ [(RT_DEFCOLWIDTH, le16 (sh_defcw s)); (RT_DIMENSIONS, dim_bytes s)]
      ++ concat (flat_map (block_recs (wb_labels w)) bl) ++ concat (tail_in (dac w) s)).
  { rewrite Eb2. unfold inner, body_recs, head_in. rewrite Eb, !concat_app. cbn [concat app]. rewrite <- app_assoc. reflexivity. }
  assert (Tl : has_types (remove Z.eq_dec T_DEFCOLWIDTH (remove Z.eq_dec T_INDEX outer_types)) (concat (tail_in (dac w) s))).
  { apply ht_concat. unfold tail_in. repeat (apply Forall_app; split); try hm; try hgl.
    - eapply Forall_impl; [|apply drawings_types]. intros rs. apply ht_weaken. intros t. cbn. tauto.
    - destruct ((sh_rsplit s =? 0) && (sh_csplit s =? 0))%bool; [constructor|hgl].
    - destruct (sh_dvs s); [constructor|]. apply Forall_cons; [hone|]. hm. }
  set (d := p + 20 + (20 + 4 * zlen (sblocks (sh_cells s))) + 8 + 16 * zlen (sh_cols s)) in *.
  assert (Cs : has_types [RT_COLINFO] cs) by (unfold cs; apply ht_concat; hm).
  assert (Ps : record_positions T_DEFCOLWIDTH (p + 20) body = [d]).
  { rewrite Ebd, !positions_any. rewrite (positions_none _ _ _ Cs), (positions_none _ _ _ (front_types _ _)), (positions_none _ _ _ Tl) by not_in.
    cbn [record_positions app]. change (RT_INDEX =? T_DEFCOLWIDTH) with false. change (RT_DEFAULTROWHEIGHT =? T_DEFCOLWIDTH) with false.
    change (RT_DEFCOLWIDTH =? T_DEFCOLWIDTH) with true. change (RT_DIMENSIONS =? T_DEFCOLWIDTH) with false. cbn [app]. f_equal.
    rewrite !rsz_cons, index_size. change (rsz []) with 0. unfold cs. rewrite cols_size, zlen_app, !zlen_le16. subst d. lia. }
  exists p, (index_bytes (p + 20) s), d. split; [exact Beg|]. split; [|split; [|exact Ps]].
  - rewrite Ebd, !pay_app, (pay_none _ T_INDEX _ Cs), (pay_none _ T_INDEX _ (front_types _ _)), (pay_none _ T_INDEX _ Tl) by not_in. reflexivity.
  - unfold index_bytes. cbv zeta. fold d. unfold offs32. cbn [flat_map]. rewrite 2 app_assoc. etransitivity; [apply fld32; reflexivity|]. f_equal. apply Z.mod_small.
    assert (Q : rsz body >= d - (p + 20)).
    { rewrite Ebd, !rsz_app, !rsz_cons, index_size. change (rsz []) with 0. unfold cs. rewrite cols_size, zlen_app, !zlen_le16.
      pose proof (zlen_nonneg _ (frame_all (concat (flat_map (block_recs (wb_labels w)) bl)))). pose proof (zlen_nonneg _ (frame_all (concat (tail_in (dac w) s)))).
      pose proof (zlen_nonneg _ (dim_bytes s)). unfold rsz. subst d. lia. }
    assert (0 <= d) by (pose proof (zlen_nonneg _ (sblocks (sh_cells s))); pose proof (zlen_nonneg _ (sh_cols s)); subst d; lia). lia.
Qed.
Print Assumptions C16_default_width_found.

Lemma rows_some n c t rh rs rest rh1 : rows_of (S n) (c :: t) rh = (rs, rest, rh1) -> rs <> [].
Proof.
  cbn [rows_of]. destruct (span_row _ _) as [here rest0]. destruct (row_at _ here rh) as [r rh0]. destruct (rows_of n rest0 rh0) as [[rs0 rest2] rh2].
  intro H. apply pair_equal_spec in H. destruct H as [H _]. apply pair_equal_spec in H. destruct H as [H _]. subst rs. discriminate.
Qed.
Lemma blocks_have_rows fuel : forall cells rh bl, blocks_of fuel cells rh = Some bl -> Forall (fun b => k_rows b <> []) bl.
Proof.
  induction fuel as [|fuel IH]; intros cells rh bl H; cbn [blocks_of] in H; [discriminate H|]. destruct cells as [|c t]; [apply some_inj in H; subst; constructor|].
  destruct (rows_of 16 (c :: t) rh) as [[rs rest] rh1] eqn:Er. pose proof (rows_some _ _ _ _ _ _ _ Er) as N. cbv zeta in H.
  destruct (Nat.eqb _ 0); [discriminate H|]. destruct (at_last rest); [apply some_inj in H; subst bl; constructor; [exact N|constructor]|].
  destruct (blocks_of fuel rest rh1) as [l|] eqn:E; [|discriminate H]. apply some_inj in H. subst bl. constructor; [exact N|]. eapply IH. exact E.
Qed.
Lemma first_row_skip a b : (forall t p, In (t, p) a -> t <> T_ROW) -> from_first_row (a ++ b) = from_first_row b.
Proof.
  induction a as [|[t p] a IH]; intro H; [reflexivity|]. cbn [app from_first_row]. replace (t =? T_ROW) with false.
  - apply IH. intros u q J. apply (H u q). right. exact J.
  - symmetry. apply Z.eqb_neq. apply (H t p). left. reflexivity.
Qed.
Lemma pay_blocks ls bl : payloads T_DBCELL (concat (flat_map (block_recs ls) bl)) = map (dbcell_bytes ls) bl.
Proof.
  induction bl as [|b bl IH]; [reflexivity|]. cbn [flat_map map]. rewrite concat_app, pay_app, block_recs_front, pay_app, IH. unfold block_front. rewrite pay_app.
  rewrite (pay_none [RT_ROW] T_DBCELL (map _ _)); [|apply Forall_map, Forall_forall; intros; left; reflexivity|not_in].
  rewrite (pay_none [RT_BLANK; RT_BOOLERR; RT_RK; RT_NUMBER; RT_LABEL; RT_LABELSST; RT_FORMULA; RT_ARRAY; RT_STRING] T_DBCELL (concat (map (cell_recs ls) (k_cells b)))); [reflexivity| |not_in].
  apply ht_concat. apply Forall_map, Forall_forall. intros c _. apply cell_types.
Qed.
Lemma rows_size (l : list rowspec) : rsz (map (fun r => (RT_ROW, row_bytes r)) l) = 20 * zlen l.
Proof. induction l as [|r l IH]; [reflexivity|]. cbn [map]. rewrite rsz_cons, IH, zlen_cons. unfold row_bytes. rewrite !zlen_app, !zlen_le16. lia. Qed.
Lemma sizes_rsz ls cs : (forall c, In c cs -> bu_size (cu ls c) = rsz (cell_recs ls c)) -> rsz (concat (map (cell_recs ls) cs)) = sizes ls cs.
Proof.
  induction cs as [|c cs IH]; intro H; [reflexivity|]. cbn [map concat sizes fold_right]. rewrite rsz_app, (H c (or_introl eq_refl)). f_equal. apply IH. intros x J. apply H. right. exact J.
Qed.

(** The DBCELL record that closes a row block states, in its first field, how many bytes
    before it the first row record of the block begins. *)
Theorem C16_block_start R moves calls stream k body j p g : saved_ok R moves calls stream -> R <= 32819 -> sheet_in stream k body -> zlen stream < 4294967296 ->
  nth_error (payloads T_DBCELL body) j = Some p -> nth_error (row_groups body) j = Some g ->
  exists d, fld 4 p 0 = Some d /\ from_first_row g = Some d.
Proof.
  intros H HR Hk Hz Hp Hg. destruct (saved_view _ _ _ _ H) as [w V].
  pose proof (mn_inv _ _ (vw_means _ _ _ _ V)) as I2.
  destruct (view_blocks _ _ _ _ k body V Hk) as (s & q & bl & a & b & Es & Ep & Is & Me & Eb & Ebody & Ta & Tb & Pl).
  destruct (body_within _ _ _ _ _ _ _ V HR Hk Ep) as [P0 Sz].
  assert (Ca : calm_recs a) by (eapply types_calm; [exact Ta|not_in]). assert (Cb : calm_recs b) by (eapply types_calm; [exact Tb|not_in]).
  assert (Pb : payloads T_DBCELL body = map (dbcell_bytes (wb_labels w)) bl).
  { rewrite Ebody, !pay_app, (pay_none outer_types T_DBCELL a Ta), (pay_none outer_types T_DBCELL b Tb), pay_blocks by not_in. cbn [app]. apply app_nil_r. }
  rewrite Pb, nth_error_map in Hp. destruct (nth_error bl j) as [x|] eqn:Ex; [|discriminate Hp]. apply some_inj in Hp. subst p.
  assert (Jx : In x bl) by (eapply nth_error_In; exact Ex).
  rewrite Ebody in Hg. pose proof (groups_body _ _ _ _ _ _ Ca Cb Hg) as G. rewrite Ex in G. destruct G as (h & Hh & ->).
  assert (Th : forall t p, In (t, p) h -> t <> T_ROW).
  { destruct Hh as [->| ->]; [|intros t p []]. intros t p J. unfold has_types in Ta. rewrite Forall_forall in Ta. specialize (Ta _ J). cbn [fst] in Ta. intros ->. revert Ta. not_in. }
  pose proof (nth_sheet_in _ _ _ Es) as Js.
  assert (Cu : forall c, In c (sh_cells s) -> bu_size (cu (wb_labels w) c) = rsz (cell_recs (wb_labels w) c)).
  { intros c J. pose proof (sheets_limits (Bof R) (li_B _ _ (vw_limits _ _ _ _ V)) w I2 (vw_limits _ _ _ _ V)) as Q. rewrite Forall_forall in Q.
    destruct (Q s Js) as ((_ & O & _) & (Fi & _) & _). rewrite Forall_forall in O, Fi. 
    destruct (cell_is_unit _ _ (O c J)) as [U _].
    - intros arr toks n e Ev. specialize (Fi c J). unfold cell_fits in Fi. rewrite Ev in Fi. apply Fi.
    - unfold bu_size. unfold is_unit in U. rewrite U. reflexivity. }
  assert (Jc : forall c, In c (k_cells x) -> In c (sh_cells s)).
  { intros c J. unfold sheet_blocks in Eb. rewrite <- (blocks_cells _ _ _ _ Eb). eapply flat_map_In; eauto. }
  assert (Fs : rsz (block_front (wb_labels w) x) = 20 * zlen (k_rows x) + sizes (wb_labels w) (k_cells x)).
  { unfold block_front. rewrite rsz_app, rows_size, sizes_rsz by auto. reflexivity. }
  exists (rsz (block_front (wb_labels w) x)). split.
  - unfold dbcell_bytes. rewrite <- Fs. etransitivity; [apply (fld32 []); reflexivity|]. f_equal. apply Z.mod_small. split; [apply zlen_nonneg|].
    assert (Q : rsz (block_front (wb_labels w) x) <= rsz body).
    { rewrite Ebody, !rsz_app. apply in_split in Jx. destruct Jx as (b1 & b2 & ->). rewrite flat_map_app. cbn [flat_map]. rewrite !concat_app, block_recs_front, !rsz_app.
      repeat match goal with |- context [rsz ?l] => lazymatch goal with K : 0 <= rsz l |- _ => fail | _ => assert (0 <= rsz l) by apply zlen_nonneg end end. lia. }
    lia.
  - rewrite first_row_skip by exact Th. unfold sheet_blocks in Eb. pose proof (blocks_have_rows _ _ _ _ Eb) as Rw. rewrite Forall_forall in Rw. specialize (Rw x Jx).
    rewrite <- size_rsz. unfold block_front. destruct (k_rows x) as [|r l]; [congruence|]. cbn [map app from_first_row]. reflexivity.
Qed.
Print Assumptions C16_block_start.
Example C16_block_case : exists stream body p g, saved_ok 40 (fun _ _ => false) grid stream /\ sheet_in stream 0 body /\ zlen stream < 4294967296
  /\ nth_error (payloads T_DBCELL body) 0 = Some p /\ nth_error (row_groups body) 0 = Some g /\ from_first_row g <> None.
Proof.
  assert (K : match body_of 0 grid with Some (s, b) => match payloads T_DBCELL b, row_groups b with p :: _, g :: _ => match from_first_row g with Some _ => zlen s <? 4294967296 | None => false end | _, _ => false end
              | None => false end = true) by (vm_compute; reflexivity).
  destruct (body_of 0 grid) as [[s b]|] eqn:E; [|discriminate K]. destruct (payloads T_DBCELL b) as [|p l] eqn:Ep; [discriminate K|]. destruct (row_groups b) as [|g m] eqn:Eg; [discriminate K|].
  destruct (from_first_row g) eqn:Ef; [|discriminate K]. apply Z.ltb_lt in K. destruct (body_of_in _ _ _ _ E) as [Es Hb]. exists s, b, p, g.
  split; [exact (small_saved _ _ _ grid_typed grid_fits Es)|]. split; [exact Hb|]. split; [exact K|]. split; [rewrite Ep; reflexivity|]. split; [rewrite Eg; reflexivity|]. congruence.
Qed.

(** The other fields of DBCELL records are not what the format wants: there is one for each
    cell instead of one for each row (four instead of three here), and the first is measured
    from the first ROW record instead of the second; each of the others is the size of a cell record. *)
Theorem C16_row_offsets_refuted : exists calls stream body p g offs, saved_ok 40 (fun _ _ => false) calls stream /\ sheet_in stream 0 body
  /\ payloads T_DBCELL body = [p] /\ nth_error (row_groups body) 0 = Some g /\ read_offsets p = Some offs
  /\ offs = [60; 14; 18; 33] /\ wanted_offsets (drop_to_row g) = [40; 29; 18].
Proof.
  assert (K : match body_of 0 grid with Some (s, b) => match payloads T_DBCELL b, row_groups b with [p], g :: _ => match read_offsets p with Some o =>
     if list_eq_dec Z.eq_dec o [60; 14; 18; 33] then if list_eq_dec Z.eq_dec (wanted_offsets (drop_to_row g)) [40; 29; 18] then true else false else false | None => false end | _, _ => false end
              | None => false end = true) by (vm_compute; reflexivity).
  destruct (body_of 0 grid) as [[s b]|] eqn:E; [|discriminate K]. destruct (payloads T_DBCELL b) as [|p [|]] eqn:Ep; try discriminate K. destruct (row_groups b) as [|g m] eqn:Eg; [discriminate K|].
  destruct (read_offsets p) as [o|] eqn:Eo; [|discriminate K]. destruct (list_eq_dec _ o _) as [Q|]; [|discriminate K]. destruct (list_eq_dec _ (wanted_offsets _) _) as [Q2|]; [|discriminate K].
  destruct (body_of_in _ _ _ _ E) as [Es Hb]. exists grid, s, b, p, g, o.
  split; [exact (small_saved _ _ _ grid_typed grid_fits Es)|]. split; [exact Hb|]. split; [exact Ep|]. split; [rewrite Eg; reflexivity|]. split; [exact Eo|]. split; [exact Q|exact Q2].
Qed.
Print Assumptions C16_row_offsets_refuted.
