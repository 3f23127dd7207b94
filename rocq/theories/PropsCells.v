(** C12, C13, C18, C19 (values), C20, C33, C39: the cells of a saved document. *)
From Coq Require Import ZArith List Bool Lia ZifyBool ZifyNat Sorted Permutation.
From Verif Require Import Bytes UnitModel SpecBuf BufProofs RecModel SheetModel XfModel WbModel XfInv ApiModel SpecBiff BookRecs ApiInv SpecApi ApiEff
  RecFrames SheetProofs SheetTrace GlobTrace WbProofs SaveOk SaveRecs SaveRead SpecSaved FsBound Lookups SaveMeans DocLimits SavedView DemoDoc XfTrace.
Import ListNotations.
Local Open Scope Z_scope.

(* ------------------------------------------------------------------ *)
(** * C12: last write wins *)

(** For every history, the worksheet holds at every position the value of the last call
    that addressed it ([cells_of], SpecApi) and nothing elsewhere; looking a position up
    finds it. *)
Theorem C12_last_write_wins calls w k s r c : Forall typed calls -> document calls = Ok w -> nth_error (wb_sheets w) k = Some s ->
  match cells_of k calls r c with
  | Some u => exists x id, find_cell s r c = Some x /\ c_row x = r /\ c_col x = c /\ c_val x = make_val id u
  | None => find_cell s r c = None
  end.
Proof.
  intros T D E. pose proof (run_means calls w T D) as M. pose proof (me_vals _ _ _ (mn_sheet _ _ M k s E) r c) as V. unfold fv in V.
  destruct (find_cell s r c) as [x|] eqn:F; cbn [option_map vm] in V; destruct (cells_of k calls r c) as [u|]; try destruct V; auto.
  apply find_cell_in in F. destruct F as (_ & R & C). exists x, x0. auto.
Qed.
Print Assumptions C12_last_write_wins.
Example C12_case : cells_of 0 demo 0 0 = Some (ULabel (TChar [119; 105; 110])) /\ cells_of 0 demo 3 1 = Some UBlank /\ cells_of 0 demo 9 9 = None.
Proof. repeat split. Qed.

(* ------------------------------------------------------------------ *)
(** * C13: all cells, once, in row-major order *)

(** The BIFF8 reader finds in the k-th sheet's substream exactly the cells of the history,
    each once, row by row. *)
Theorem C13_cells_saved R moves calls stream k globals body : saved_ok R moves calls stream ->
  globals_in stream globals -> sheet_in stream k body ->
  exists sst cells, read_sst globals = Some sst /\ read_cells sst body = Some cells
    /\ StronglySorted before cells /\ same_cells (cells_of k calls) cells.
Proof.
  intros H Hg Hk. destruct (saved_view _ _ _ _ H) as [w V]. destruct (view_cells _ _ _ _ V k globals body Hg Hk) as (s & Es & Rs & Rc).
  destruct (view_sheet _ _ _ _ V k body Hk) as (s' & p & Es' & _ & Is & Me & _). rewrite Es in Es'. apply some_inj in Es'. subst s'.
  eexists. eexists. split; [exact Rs|]. split; [exact Rc|]. split; [apply before_sorted; exact Is|].
  apply same_read; [apply (vw_typed _ _ _ _ V)|exact Is|exact Me].
Qed.
Print Assumptions C13_cells_saved.
Example C13_case moves : exists stream globals body, saved_ok 40 moves demo stream /\ globals_in stream globals /\ sheet_in stream 0 body.
Proof.
  destruct (demo_saved moves) as [stream H]. destruct (saved_view _ _ _ _ H) as [w V]. exists stream.
  destruct (proj1 (view_has_sheet _ _ _ _ V 0%nat)) as [body Hb]; [cbn; lia|].
  eexists. exists body. split; [exact H|]. split; [apply (view_has_globals _ _ _ _ V)|exact Hb].
Qed.

(* ------------------------------------------------------------------ *)
(** * C18: integers *)

Lemma cell_read R moves calls stream k globals body r c u : saved_ok R moves calls stream -> globals_in stream globals -> sheet_in stream k body ->
  cells_of k calls r c = Some u ->
  exists sst cells x, read_sst globals = Some sst /\ read_cells sst body = Some cells /\ In x cells /\ rc_row x = r /\ rc_col x = c /\ reads_as u (rc_val x).
Proof.
  intros H Hg Hk Hc. destruct (C13_cells_saved _ _ _ _ _ _ _ H Hg Hk) as (sst & cells & A & B & _ & S1 & S2).
  destruct (S2 r c u Hc) as (x & J & Er & Ec). exists sst, cells, x. repeat (split; [assumption|]).
  destruct (S1 x J) as (u' & E & Q). rewrite Er, Ec, Hc in E. apply some_inj in E. rewrite E. exact Q.
Qed.
(** Every signed 32-bit integer is read back as a number denoting that integer. *)
Theorem C18_signed_integers_exact R moves calls stream k globals body r c n : saved_ok R moves calls stream ->
  globals_in stream globals -> sheet_in stream k body -> cells_of k calls r c = Some (UInt n) ->
  exists sst cells x, read_sst globals = Some sst /\ read_cells sst body = Some cells
    /\ In (mkRC r c (rc_xf x) (rc_val x)) cells /\ exists v, rc_val x = RNum v /\ denotes v n.
Proof.
  intros H Hg Hk Hc. destruct (cell_read _ _ _ _ _ _ _ _ _ _ H Hg Hk Hc) as (sst & cells & x & A & B & J & Er & Ec & Q).
  exists sst, cells, x. split; [exact A|]. split; [exact B|]. split; [|exact Q]. destruct x. cbn in *. subst. exact J.
Qed.
Print Assumptions C18_signed_integers_exact.
(** Unsigned integers below 0xE0000000 likewise. *)
Theorem C18_unsigned_integers_partial R moves calls stream k globals body r c n : saved_ok R moves calls stream ->
  globals_in stream globals -> sheet_in stream k body -> cells_of k calls r c = Some (UUnsigned n) -> n < 3758096384 ->
  exists sst cells x, read_sst globals = Some sst /\ read_cells sst body = Some cells
    /\ In (mkRC r c (rc_xf x) (rc_val x)) cells /\ exists v, rc_val x = RNum v /\ denotes v n.
Proof.
  intros H Hg Hk Hc L. destruct (cell_read _ _ _ _ _ _ _ _ _ _ H Hg Hk Hc) as (sst & cells & x & A & B & J & Er & Ec & v & Ev & Q).
  exists sst, cells, x. split; [exact A|]. split; [exact B|]. split; [destruct x; cbn in *; subst; exact J|]. exists v. auto.
Qed.
Print Assumptions C18_unsigned_integers_partial.
Example C18_case : cells_of 0 demo 0 1 = Some (UInt (-5)) /\ cells_of 0 demo 0 2 = Some (UInt 2000000000) /\ cells_of 1 demo 7 7 = Some (UUnsigned 12).
Proof. repeat split. Qed.

(** Above, the number read is negative: the statement of C18 fails for the unsigned call. *)
Definition big_unsigned : list call := [KSheet (TChar [65]); KCell 0 0 0 (UUnsigned 3758096384) None].
Lemma one_sheet_saved moves calls : is_ok (document calls) = true -> Forall typed calls -> fits 40 calls ->
  exists stream w, saved_ok 40 moves calls stream /\ view 40 calls stream w.
Proof.
  intros K T F. destruct (is_ok_ex _ K) as [w D]. exists (concat (store_of w)). 
  assert (H : saved_ok 40 moves calls (concat (store_of w))) by (apply view_saved; auto; lia).
  destruct (saved_view _ _ _ _ H) as [w' V]. eauto.
Qed.
Lemma big_fits : Forall typed big_unsigned /\ fits 40 big_unsigned.
Proof.
  split; [repeat constructor; cbn; unfold u8, u32; repeat constructor; lia|]. constructor.
  - repeat constructor; vm_compute; discriminate.
  - vm_compute. split; discriminate.
  - vm_compute. discriminate.
  - intro k. exists []. split; [cbn; lia|]. intros r H. cbn in H. congruence.
Qed.
Theorem C18_unsigned_integers_refuted moves : exists calls stream globals body sst cells n v,
  saved_ok 40 moves calls stream /\ globals_in stream globals /\ sheet_in stream 0 body
  /\ cells_of 0 calls 0 0 = Some (UUnsigned n) /\ u32 n
  /\ read_sst globals = Some sst /\ read_cells sst body = Some cells
  /\ map (fun x => (rc_row x, rc_col x, rc_val x)) cells = [(0, 0, RNum v)] /\ ~ denotes v n /\ denotes v (-536870912).
Proof.
  destruct big_fits as [T F].
  destruct (is_ok_ex (document big_unsigned)) as [w D]; [vm_compute; reflexivity|].
  assert (H : saved_ok 40 moves big_unsigned (concat (store_of w))) by (apply view_saved; auto; lia).
  destruct (saved_view _ _ _ _ H) as [w' V]. assert (w' = w) by (pose proof (vw_doc _ _ _ _ V) as D'; rewrite D in D'; apply ok_inj in D'; auto). subst w'.
  destruct (proj1 (view_has_sheet _ _ _ _ V 0%nat)) as [body Hb]; [cbn; lia|].
  pose proof (view_has_globals _ _ _ _ V) as Hg. destruct (view_cells _ _ _ _ V 0%nat _ body Hg Hb) as (s & Es & Rs & Rc).
  exists big_unsigned, (concat (store_of w)). eexists. exists body. eexists. eexists. exists 3758096384, (NInt (-536870912)).
  split; [exact H|]. split; [exact Hg|]. split; [exact Hb|]. split; [reflexivity|]. split; [unfold u32; lia|]. split; [exact Rs|]. split; [exact Rc|].
  split; [|split; [cbn; lia|reflexivity]].
  assert (K : match document big_unsigned with Ok w => match nth_error (wb_sheets w) 0 with Some s => map (fun c => (c_row c, c_col c, c_val c)) (sh_cells s) | None => [] end | _ => [] end
     = [(0, 0, VInt (-536870912))]) by (vm_compute; reflexivity). rewrite D, Es in K.
  destruct (sh_cells s) as [|x [|y l]]; cbn in K; try discriminate K. injection K as Er Ec Ev. cbn. rewrite Er, Ec, Ev. reflexivity.
Qed.
Print Assumptions C18_unsigned_integers_refuted.

(* ------------------------------------------------------------------ *)
(** * C19: kind, position and value of every cell *)

(** Every cell of the history is read back with its kind, position and value, and, as long as
    the user assigned its format by index, with that index. *)
Theorem C19_cell_reads_back R moves calls stream k globals body r c u : saved_ok R moves calls stream ->
  globals_in stream globals -> sheet_in stream k body -> cells_of k calls r c = Some u ->
  exists sst cells x, read_sst globals = Some sst /\ read_cells sst body = Some cells
    /\ In x cells /\ rc_row x = r /\ rc_col x = c /\ reads_as u (rc_val x)
    /\ (forall i, fmt_of k calls r c = Known i -> i < 65536 -> rc_xf x = i).
Proof.
  intros H Hg Hk Hc. destruct (saved_view _ _ _ _ H) as [w V]. destruct (view_cells _ _ _ _ V k globals body Hg Hk) as (s & Es & Rs & Rc).
  pose proof (vw_typed _ _ _ _ V) as T. pose proof (vw_means _ _ _ _ V) as M. pose proof (mn_sheet _ _ M k s Es) as Me.
  pose proof (me_vals _ _ _ Me r c) as Vm. rewrite Hc in Vm. unfold fv in Vm. destruct (find_cell s r c) as [x|] eqn:Fx; [|destruct Vm].
  cbn [option_map vm] in Vm. destruct Vm as [id Vx]. pose proof (find_cell_in _ _ _ _ Fx) as (J & Er & Ec).
  exists (map sst_str (map snd (wb_labels w))), (map SaveRead.cell_as (sh_cells s)), (SaveRead.cell_as x). split; [exact Rs|]. split; [exact Rc|].
  split; [apply in_map; exact J|]. cbn [SaveRead.cell_as rc_row rc_col rc_val rc_xf]. split; [exact Er|]. split; [exact Ec|]. split.
  - rewrite Vx. apply make_reads. eapply cells_typed; [exact T|exact Hc].
  - intros i Hf Li. pose proof (formats_tracked calls w T (vw_doc _ _ _ _ V) k r c) as A. rewrite Hf in A. cbn [fmt_agrees] in A.
    unfold xfat in A. rewrite Es, Fx in A. cbn [option_map] in A. apply some_inj in A. rewrite A. apply Z.mod_small. split; [|exact Li].
    pose proof (w2_inv _ (mn_inv _ _ M)) as I. destruct (winv_nth _ _ _ I Es) as [_ (X1 & _)]. rewrite Forall_forall in X1. specialize (X1 x J).
    unfold valid, xf_at in X1. rewrite A in X1. destruct (i <? 0) eqn:E; [|lia]. congruence.
Qed.
Print Assumptions C19_cell_reads_back.
Example C19_case : cells_of 0 demo 2 1 = Some (UDouble 4607182418800017408) /\ cells_of 0 demo 2 3 = Some (UBool true)
  /\ cells_of 0 demo 2 4 = Some (UErr 7) /\ cells_of 0 demo 3 0 = Some UBlank /\ (exists t, cells_of 0 demo 5 0 = Some (ULabel t))
  /\ fmt_of 0 demo 0 1 = Known 21 /\ fmt_of 0 demo 0 2 = Known 15 /\ fmt_of 0 demo 0 0 = Derived.
Proof. repeat split. eexists. reflexivity. Qed.

(* ------------------------------------------------------------------ *)
(** * C20: shared strings *)

Lemma in_rx_small t p us : In [(t, p)] us -> zlen p <= 8224 -> In (t, p) (flat_map rx us).
Proof. intros H L. apply in_flat_map. exists [(t, p)]. split; [exact H|]. unfold rx. replace (8224 <? zlen p) with false by lia. left. reflexivity. Qed.
Lemma cell_in_inner ls ac pos s c : sheet_blocks s <> None -> In c (sh_cells s) -> In (cell_recs ls c) (inner ls ac pos s).
Proof.
  intros N J. unfold inner. apply in_or_app. right. apply in_or_app. left. unfold body_recs. unfold sheet_blocks in *.
  destruct (blocks_of _ _ _) as [bl|] eqn:E; [|congruence]. apply blocks_cells in E. rewrite <- E in J.
  apply in_flat_map in J. destruct J as (b & Jb & J). apply in_flat_map. exists b. split; [exact Jb|]. unfold block_recs.
  apply in_or_app. right. apply in_or_app. left. apply in_map. exact J.
Qed.
Lemma sst_str_stored us : Forall u16 us -> sst_str us = stored_text us.
Proof.
  intro U. unfold sst_str, stored_text, storable, unicode_string_length. rewrite is_ascii_compressible by exact U. unfold MAX_RECORD_SIZE, too_long.
  destruct (compressible us); match goal with |- (if ?a then _ else _) = (if ?b then _ else _) => destruct a eqn:E1, b eqn:E2 end; try lia; reflexivity.
Qed.

(** Every cell holding a text of more than 255 characters is saved as a LABELSST record at its
    position, whose index designates in the table exactly that text (or the placeholder,
    when no record could hold it).  The reader of the table ([read_sst]) succeeds only if
    no string crosses a record and both announced counts are right; [records], below it,
    only if no record exceeds 8224 bytes. *)
Theorem C20_shared_strings R moves calls stream k globals body r c t us : saved_ok R moves calls stream ->
  globals_in stream globals -> sheet_in stream k body ->
  cells_of k calls r c = Some (ULabel t) -> units t = Some us -> 255 < zlen us ->
  exists sst p i, read_sst globals = Some sst /\ In (T_LABELSST, p) body
    /\ fld 2 p 0 = Some r /\ fld 2 p 2 = Some c /\ fld 4 p 6 = Some i /\ nth_error sst (Z.to_nat i) = Some (stored_text us).
Proof.
  intros H Hg Hk Hc Hu Hl. pose proof (so_typed _ _ _ _ H) as T.
  pose proof (cells_placed R k calls r c _ T (ft_calls _ _ (so_fits _ _ _ _ H)) Hc) as (P1 & P2 & _).
  pose proof (cells_typed calls k _ _ _ T Hc) as Tt. cbn [val_typed] in Tt. pose proof (to16_units t us Tt Hu) as Et.
  destruct (saved_view _ _ _ _ H) as [w V].
  destruct (view_cells _ _ _ _ V k globals body Hg Hk) as (s & Es & Rs & _).
  destruct (view_sheet _ _ _ _ V k body Hk) as (s' & p & Es' & _ & Is & Me & Ls & Eb & _). rewrite Es in Es'. apply some_inj in Es'. subst s'.
  pose proof (me_vals _ _ _ Me r c) as Vm. rewrite Hc in Vm. unfold fv in Vm. destruct (find_cell s r c) as [x|] eqn:Fx; [|destruct Vm].
  cbn [option_map vm] in Vm. destruct Vm as [id Vx]. cbn [make_val] in Vx. rewrite Et in Vx.
  apply find_cell_in in Fx. destruct Fx as (J & Er & Ec).
  pose proof (mn_inv _ _ (vw_means _ _ _ _ V)) as I2. pose proof (w2_inv _ I2) as I.
  assert (In (id, us) (wb_labels w)) as Jl.
  { apply (Permutation_in _ (wi_labels _ I)). apply in_flat_map. exists s. split; [eapply nth_error_In; exact Es|].
    apply in_flat_map. exists x. split; [exact J|]. unfold cell_label. rewrite Vx. unfold in_sst. replace (255 <? zlen us) with true by lia. left. reflexivity. }
  destruct (label_index_in _ _ _ 0 (wi_nodup _ I) Jl) as (i & Ei & En). rewrite Z.add_0_l in Ei.
  assert (Li : Z.of_nat i < 4294967296).
  { pose proof (li_labels _ _ (vw_limits _ _ _ _ V)). assert (i < length (wb_labels w))%nat by (apply nth_error_Some; congruence). unfold zlen in *. lia. }
  exists (map sst_str (map snd (wb_labels w))), (cell_head x ++ le32 (Z.of_nat i)), (Z.of_nat i).
  split; [exact Rs|]. pose proof (vw_rows _ _ _ _ V) as HR. split.
  - rewrite Eb. apply in_rx_small; [|rewrite zlen_app, zlen_le32; unfold cell_head; rewrite !zlen_app, !zlen_le16; lia].
    replace [(T_LABELSST, cell_head x ++ le32 (Z.of_nat i))] with (cell_recs (wb_labels w) x).
    + apply cell_in_inner; [|exact J].
      pose proof (sheets_limits (Bof R) (li_B _ _ (vw_limits _ _ _ _ V)) w I2 (vw_limits _ _ _ _ V)) as Q. rewrite Forall_forall in Q.
      destruct (Q s (nth_error_In _ _ Es)) as (O & _). apply O.
    + unfold cell_recs. rewrite Vx. unfold in_sst. replace (255 <? zlen us) with true by lia. unfold sst_pos. rewrite Ei. reflexivity.
  - unfold cell_head. rewrite <- !app_assoc. split; [etransitivity; [apply (fld16 [] (c_row x)); reflexivity|]; rewrite Er; f_equal; apply Z.mod_small; lia|].
    split; [rewrite (fld16 (le16 (c_row x))) by reflexivity; rewrite Ec; f_equal; apply Z.mod_small; lia|]. split.
    + rewrite 2 app_assoc, <- (app_nil_r (le32 _)), fld32 by reflexivity. f_equal. apply Z.mod_small. lia.
    + rewrite Nat2Z.id, nth_error_map, nth_error_map, En. cbn [option_map snd]. f_equal. apply sst_str_stored. rewrite <- Et. apply to16_typed. exact Tt.
Qed.
Print Assumptions C20_shared_strings.
Example C20_case : cells_of 0 demo 5 0 = Some (ULabel (T16 (repeat 1041 300))) /\ units (T16 (repeat 1041 300)) = Some (repeat 1041 300)
  /\ 255 < zlen (repeat 1041 300) /\ cells_of 0 demo 5 1 = Some (ULabel (TChar (repeat 97 256))).
Proof. repeat split. Qed.

(* ------------------------------------------------------------------ *)
(** * C33: the substreams, and termination *)

(** The stream splits into records, and these into one globals substream and one substream
    per sheet; the k-th has the cells of the k-th sheet created (C13). *)
Theorem C33_substreams R moves calls stream : saved_ok R moves calls stream ->
  exists rs globals bodies, records stream = Some rs
    /\ substreams (length rs) rs = Some ((K_GLOBALS, globals) :: map (fun b => (K_SHEET, b)) bodies)
    /\ length bodies = length (sheet_names calls).
Proof.
  intro H. destruct (saved_view _ _ _ _ H) as [w V]. destruct (view_parts _ _ _ _ V) as (rs & bodies & A & B & C).
  exists rs. eexists. exists bodies. split; [exact A|]. split; [exact B|exact C].
Qed.
Print Assumptions C33_substreams.
(** Saving ends: the model's loops run out of no fuel, whatever the store does, and all
    sufficiently large fuels give the same stream. *)
Theorem C33_saving_ends R moves calls w : 0 <= R <= 65535 -> Forall typed calls -> fits R calls ->
  (R <= 32819 \/ forall e n, moves e n = false) -> document calls = Ok w ->
  exists stream, saved moves calls stream /\ forall stream', saved moves calls stream' -> stream' = stream.
Proof.
  intros HR T F C D. assert (H : saved_ok R moves calls (concat (store_of w))) by (apply view_saved; auto).
  exists (concat (store_of w)). split; [apply (so_saved _ _ _ _ H)|]. intros st S.
  assert (H' : saved_ok R moves calls st) by (constructor; auto). destruct (saved_view _ _ _ _ H') as [w' V].
  pose proof (vw_doc _ _ _ _ V) as D'. rewrite D in D'. apply ok_inj in D'. subst w'. apply (vw_stream _ _ _ _ V).
Qed.
Print Assumptions C33_saving_ends.
Example C33_case moves : exists stream, saved_ok 40 moves demo stream.
Proof. apply demo_saved. Qed.

(* ------------------------------------------------------------------ *)
(** * C39: text conversion (build without iconv) *)

Theorem C39_ascii_identity b : Forall (fun c => 0 <= c < 128) b -> to16 (TChar b) = b.
Proof.
  intro H. apply to16_units; [cbn; eapply Forall_impl; [|exact H]; cbn; unfold u8; lia|]. cbn [units].
  replace (forallb (fun c => c <? 128) b) with true; [reflexivity|]. symmetry. apply forallb_forall. intros x J. rewrite Forall_forall in H. specialize (H x J). lia.
Qed.
Print Assumptions C39_ascii_identity.
(** Wide text below U+10000 is encoded in UTF-16 as the standard says... *)
Theorem C39_wide_utf16_partial w : Forall scalar w -> Forall (fun c => c < 65536) w -> to16 (TWide w) = utf16 w.
Proof.
  intros S B. rewrite (to16_units (TWide w) w).
  - induction B as [|c l Hc B IH]; [reflexivity|]. inversion S; subst. cbn [utf16 flat_map]. replace (c <? 65536) with true by lia. cbn [app]. f_equal. apply IH. assumption.
  - cbn. eapply Forall_impl; [|exact S]. unfold scalar, u32. lia.
  - cbn [units]. replace (forallb (fun c => c <? 65536) w) with true; [reflexivity|]. symmetry. apply forallb_forall. intros x J. rewrite Forall_forall in B. specialize (B x J). lia.
Qed.
Print Assumptions C39_wide_utf16_partial.
(** ... and every character above is not. *)
Theorem C39_wide_utf16_refuted c : scalar c -> 65536 <= c -> to16 (TWide [c]) <> utf16 [c].
Proof.
  intros S H. cbn [utf16 flat_map]. replace (c <? 65536) with false by lia. cbn. intro K. discriminate.
Qed.
Print Assumptions C39_wide_utf16_refuted.
Example C39_case : to16 (TWide [233; 8364]) = [233; 8364] /\ to16 (TChar [104; 105]) = [104; 105].
Proof. repeat split. Qed.
