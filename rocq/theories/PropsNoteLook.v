(** The fill colour and the place of notes in a saved document (C52). *)
From Coq Require Import ZArith List Bool Lia ZifyBool ZifyNat Sorted Permutation.
From Verif Require Import Bytes UnitModel UnitProofs SpecBuf BufProofs RecModel SheetModel XfModel WbModel XfInv ApiModel SpecBiff BookRecs ApiInv SpecApi ApiEff
  RecFrames RecProofs SheetProofs SheetTrace GlobTrace WbProofs SaveOk SaveRecs SaveRead SpecSaved SaveMeans DocLimits SavedView Lookups DemoDoc ViewPay
  PropsSheet RowBlocks PropsRows SpecObj PropsObj PropsNotes NoteModel SpecNote NoteProofs.
Import ListNotations.
Local Open Scope Z_scope.

(* ------------------------------------------------------------------ *)
(** * Streams that differ in the drawings *)

Lemma bd_refl a : but_drawing a a.
Proof. repeat split; auto. Qed.
Lemma bds_refl l : Forall2 but_drawing l l.
Proof. induction l; constructor; auto using bd_refl. Qed.
Lemma bds_rsz l l' : Forall2 but_drawing l l' -> rsz l = rsz l'.
Proof. induction 1 as [|[t p] [t' p'] l l' (E1 & E2 & _) F IH]; [reflexivity|]. cbn [fst snd] in *. rewrite !rsz_cons. lia. Qed.
Lemma alike_eq s s' : alike s s' -> s' = with_notes s (sh_notes s').
Proof. destruct s, s'. intros []. cbn in *. subst. reflexivity. Qed.

Lemma strip_cons n l l' : map strip_note (n :: l) = map strip_note l' -> exists m t, l' = m :: t /\ strip_note n = strip_note m /\ map strip_note l = map strip_note t.
Proof. destruct l' as [|m t]; cbn [map]; intro H; [discriminate H|]. exists m, t. split; [reflexivity|]. split; [exact (f_equal (hd (strip_note n)) H)|exact (f_equal (@tl note) H)]. Qed.
Lemma strip_fields n m : strip_note n = strip_note m -> no_row n = no_row m /\ no_col n = no_col m /\ no_author n = no_author m /\ no_text n = no_text m /\ no_idx n = no_idx m.
Proof. intro H. repeat split; [exact (f_equal no_row H)|exact (f_equal no_col H)|exact (f_equal no_author H)|exact (f_equal no_text H)|exact (f_equal no_idx H)]. Qed.
Lemma number_strip : forall l l' i, map strip_note l = map strip_note l' -> map note_bytes (number_notes l i) = map note_bytes (number_notes l' i).
Proof.
  induction l as [|n l IH]; intros l' i H; [destruct l'; [reflexivity|discriminate H]|]. apply strip_cons in H. destruct H as (m & t & -> & H & Ht).
  cbn [number_notes map]. f_equal; [|apply IH; exact Ht]. apply strip_fields in H. destruct H as (A & B & C & D & E). unfold note_bytes, renote. cbn [no_row no_col no_author no_idx]. rewrite A, B, C. reflexivity.
Qed.
Lemma drawing_strip n m sheet spid count : strip_note n = strip_note m -> Forall2 but_drawing (drawing_recs n sheet spid count) (drawing_recs m sheet spid count).
Proof.
  intro H. apply strip_fields in H. destruct H as (A & B & C & D & E). unfold drawing_recs.
  assert (L : zlen (pl (draw_ops n sheet spid count)) = zlen (pl (draw_ops m sheet spid count))) by (rewrite !draw_length; unfold draw_len; rewrite E; reflexivity).
  unfold note_full. rewrite C, D, E. constructor; [|apply bds_refl]. repeat split; [exact L|]. cbn [fst]. intro N. exfalso. apply N. reflexivity.
Qed.
Lemma drawings_strip : forall l l' sheet count i spid, map strip_note l = map strip_note l' ->
  Forall2 (Forall2 but_drawing) (drawings_recs l sheet count i spid) (drawings_recs l' sheet count i spid).
Proof.
  induction l as [|n l IH]; intros l' sheet count i spid H; [destruct l'; [constructor|discriminate H]|]. apply strip_cons in H. destruct H as (m & t & -> & H & Ht).
  cbn [drawings_recs]. constructor; [|apply IH; exact Ht]. apply drawing_strip. apply strip_fields in H. destruct H as (A & B & C & D & E). unfold strip_note, renote. cbn. rewrite A, B, C, D. reflexivity.
Qed.
Lemma len_strip l l' : map strip_note l = map strip_note l' -> zlen l = zlen l'.
Proof. intro H. unfold zlen. rewrite <- (map_length strip_note l), H, map_length. reflexivity. Qed.
Lemma bd_app a b c d : Forall2 but_drawing a c -> Forall2 but_drawing b d -> Forall2 but_drawing (a ++ b) (c ++ d).
Proof. apply Forall2_app. Qed.
Lemma rx_drawings ns : forall sheet count i spid, flat_map rx (drawings_recs ns sheet count i spid) = concat (drawings_recs ns sheet count i spid).
Proof. induction ns as [|n ns IH]; intros; [reflexivity|]. cbn [drawings_recs flat_map concat]. rewrite IH. reflexivity. Qed.
Lemma concat_2 {A} (R : A -> A -> Prop) l l' : Forall2 (Forall2 R) l l' -> Forall2 R (concat l) (concat l').
Proof. induction 1; cbn [concat]; [constructor|]. apply Forall2_app; assumption. Qed.
Lemma sheet_bd ls ac pos s s' : alike s s' -> Forall2 but_drawing (flat_map rx (sheet_recs ls ac pos s)) (flat_map rx (sheet_recs ls ac pos s')).
Proof.
  intro A. pose proof (al_notes _ _ A) as N. rewrite (alike_eq _ _ A). set (l := sh_notes s') in *. clearbody l. clear A s'. unfold sheet_recs, tail_recs.
  change (head_recs (pos + 20) (with_notes s l)) with (head_recs (pos + 20) s). change (body_recs ls (with_notes s l)) with (body_recs ls s).
  rewrite !flat_map_app. apply bd_app; [apply bds_refl|]. apply bd_app; [apply bds_refl|]. apply bd_app.
  - rewrite !rx_drawings. apply concat_2. cbn [with_notes sh_notes sh_index sh_spid]. rewrite <- (len_strip _ _ N). apply drawings_strip. exact N.
  - cbn [with_notes sh_notes sh_index sh_merged sh_rsplit sh_csplit sh_links sh_dvs].
    replace (map (fun n => [(RT_NOTE, note_bytes n)]) (number_notes l 0)) with (map (fun n => [(RT_NOTE, note_bytes n)]) (number_notes (sh_notes s) 0)); [apply bds_refl|].
    rewrite <- !(map_map note_bytes (fun b => [(RT_NOTE, b)])). f_equal. apply number_strip. exact N.
Qed.
Lemma adv_drawings : forall l l' sheet count i spid, map strip_note l = map strip_note l' ->
  adv_all sadv (drawing_units l sheet count i spid) = adv_all sadv (drawing_units l' sheet count i spid).
Proof.
  induction l as [|n l IH]; intros l' sheet count i spid H; [destruct l'; [reflexivity|discriminate H]|]. apply strip_cons in H. destruct H as (m & t & -> & H & Ht).
  cbn [drawing_units]. rewrite !adv_all_cons. f_equal; [|apply IH; exact Ht]. rewrite !(ubuild_eq _ _ (build_drawing _ _ _ _)).
  assert (E : strip_note (renote n i) = strip_note (renote m i)).
  { apply strip_fields in H. destruct H as (A & B & C & D & E). unfold strip_note, renote. cbn. rewrite A, B, C, D. reflexivity. }
  pose proof (bds_rsz _ _ (drawing_strip _ _ sheet spid count E)) as Z. unfold rsz in Z. unfold sadv, oversized, nfull, bu_size. cbn [bu_bytes]. rewrite Z. reflexivity.
Qed.
Lemma note_units : forall l l' i, map strip_note l = map strip_note l' ->
  map (fun n => ubuild (rec_note n)) (number_notes l i) = map (fun n => ubuild (rec_note n)) (number_notes l' i).
Proof.
  induction l as [|n l IH]; intros l' i H; [destruct l'; [reflexivity|discriminate H]|]. apply strip_cons in H. destruct H as (m & t & -> & H & Ht).
  cbn [number_notes map]. f_equal; [|apply IH; exact Ht]. apply strip_fields in H. destruct H as (A & B & C & D & E). unfold rec_note, renote. cbn [no_row no_col no_author no_idx]. rewrite A, B, C. reflexivity.
Qed.
Lemma sheet_adv_bd ls ac pos s s' : alike s s' -> adv_all sadv (sheet_units ls ac pos s) = adv_all sadv (sheet_units ls ac pos s').
Proof.
  intro A. pose proof (al_notes _ _ A) as N. rewrite (alike_eq _ _ A). set (l := sh_notes s') in *. clearbody l. clear A s'. unfold sheet_units, sheet_tail.
  change (SheetTrace.sheet_head (pos + 20) (with_notes s l)) with (SheetTrace.sheet_head (pos + 20) s). change (SheetTrace.sheet_body ls (with_notes s l)) with (SheetTrace.sheet_body ls s).
  rewrite !adv_all_app. f_equal. f_equal. cbn [with_notes sh_notes sh_index sh_spid sh_merged sh_rsplit sh_csplit sh_links sh_dvs]. rewrite <- (len_strip _ _ N), (note_units _ _ 0 N). f_equal. apply adv_drawings. exact N.
Qed.
Lemma sheets_bd g ac : forall ss ss' pos, Forall2 alike ss ss' ->
  sheet_starts g ac pos ss = sheet_starts g ac pos ss' /\ Forall2 but_drawing (concat (sheets_recs g ac pos ss)) (concat (sheets_recs g ac pos ss')).
Proof.
  intros ss ss' pos F. revert pos. induction F as [|s s' ss ss' A F IH]; intro pos; [split; [reflexivity|constructor]|]. cbn [sheet_starts sheets_recs concat].
  rewrite <- (sheet_adv_bd _ _ _ _ _ A). destruct (IH (pos + adv_all sadv (sheet_units (g_labels g) ac pos s))) as [-> R]. split; [reflexivity|].
  apply bd_app; [apply sheet_bd; exact A|exact R].
Qed.
Lemma strip_dg a b : strip a = strip b -> dg a = dg b /\ dac a = dac b.
Proof.
  intro E. apply strip_eq_wb in E. destruct E as (E1 & E2 & E3 & E4 & E5 & E6 & E7). unfold dg, dac, bactive, wb_book. cbn [bk_g bk_sheets]. rewrite E1, E2, E3, E4, E5. auto.
Qed.
Lemma strip_records a b : strip a = strip b -> dstarts a = dstarts b /\ Forall2 but_drawing (book_records (dg a) (dac a) (wb_sheets a)) (book_records (dg b) (dac b) (wb_sheets b)).
Proof.
  intro E. pose proof (strip_dg _ _ E) as [G A]. unfold dstarts. rewrite G, A. apply strip_eq_wb in E. destruct E as (_ & _ & _ & _ & _ & _ & E). apply sheets_alike in E.
  destruct (sheets_bd (dg b) (dac b) _ _ (g_size (dg b)) E) as [S F]. split; [exact S|]. unfold book_records. rewrite S. apply bd_app; [apply bds_refl|exact F].
Qed.

(* ------------------------------------------------------------------ *)
(** * C52 *)

Record nview (R : Z) (p : list ncall) (stream : list Z) (w w' : wb) : Prop := {
  nv_doc : document (plain p) = Ok w;
  nv_ndoc : ndocument p = Ok w';
  nv_strip : strip w = strip w';
  nv_looks : looks p w';
  nv_means : means (plain p) w;
  nv_limits : limits (Bof R) w;
  nv_inv' : winv2 w';
  nv_limits' : limits (Bof R) w';
  nv_stream : stream = concat (store_of w') }.
Lemma nsaved_view R moves p stream : nsaved_ok R moves p stream -> exists w w', nview R p stream w w'.
Proof.
  intros [HR T F C (w' & after & D & Sv)]. destruct (ndoc_plain _ _ D) as (w & D0 & E). exists w, w'. pose proof (plain_typed _ T) as T0. pose proof (run_means _ _ T0 D0) as M.
  pose proof (doc_limits R _ w HR T0 F D0) as L. fold (Bof R) in L. pose proof (mn_inv _ _ M) as I. destruct (ndoc_looks _ _ T D) as [I' Lk]. pose proof (strip_limits _ _ _ E L) as L'.
  constructor; auto. assert (Sv' : saves moves w' stream after) by exact Sv.
  apply (saves_iff (Bof R)) in Sv'; [apply Sv'|exact I'|exact L'|]. eapply calm_stable; eauto.
Qed.

(** Everything but the drawings is as if only the plain calls had been made: the same records,
    of the same lengths, and outside the drawing records the same bytes.  So the theorems
    about saved documents hold for these programs too, read over their plain calls. *)
Theorem C52_rest_unchanged R moves p stream : nsaved_ok R moves p stream ->
  exists stream0 rs0 rs, saved_ok R moves (plain p) stream0 /\ zlen stream0 = zlen stream
    /\ records stream0 = Some rs0 /\ records stream = Some rs /\ Forall2 but_drawing rs0 rs.
Proof.
  intro H. destruct (nsaved_view _ _ _ _ H) as (w & w' & V). pose proof (ns_rows _ _ _ _ H) as HR. pose proof (plain_typed _ (ns_typed _ _ _ _ H)) as T0.
  pose proof (view_saved R moves (plain p) w HR T0 (ns_fits _ _ _ _ H) (ns_calm _ _ _ _ H) (nv_doc _ _ _ _ _ V)) as S0.
  destruct (store_records (Bof R) w (mn_inv _ _ (nv_means _ _ _ _ _ V)) (nv_limits _ _ _ _ _ V)) as [A1 A2].
  destruct (store_records (Bof R) w' (nv_inv' _ _ _ _ _ V) (nv_limits' _ _ _ _ _ V)) as [B1 B2]. destruct (strip_records _ _ (nv_strip _ _ _ _ _ V)) as [_ F].
  rewrite (nv_stream _ _ _ _ _ V). eexists _, _, _. split; [exact S0|]. split; [|split; [exact A2|split; [exact B2|exact F]]].
  rewrite A1, B1. exact (bds_rsz _ _ F).
Qed.
Print Assumptions C52_rest_unchanged.

(** The colour number. *)
Lemma lor_sum n y x : 0 <= n -> 0 <= x < 2 ^ n -> Z.lor (Z.shiftl y n) x = y * 2 ^ n + x.
Proof.
  intros Hn Hx. assert (P : 0 < 2 ^ n) by lia. apply Z.bits_inj'. intros m Hm. rewrite Z.lor_spec. destruct (Z.lt_ge_cases m n) as [L|L].
  - rewrite Z.shiftl_spec_low by exact L. cbn [orb]. rewrite <- (Z.mod_pow2_bits_low (y * 2 ^ n + x) n m) by exact L.
    rewrite Z.add_comm, Z.mod_add, Z.mod_small by lia. reflexivity.
  - rewrite Z.shiftl_spec by exact Hm. replace (Z.testbit x m) with false; [rewrite orb_false_r|].
    + replace (y * 2 ^ n + x) with (x + y * 2 ^ n) by lia. replace y with ((x + y * 2 ^ n) / 2 ^ n) at 1 by (rewrite Z.div_add, Z.div_small by lia; lia).
      rewrite <- Z.shiftr_div_pow2 by exact Hn. rewrite Z.shiftr_spec by lia. f_equal. lia.
    + symmetry. destruct (Z.eq_dec x 0) as [->|N]; [apply Z.bits_0|]. apply Z.bits_above_log2; [lia|]. assert (Z.log2 x < n) by (apply Z.log2_lt_pow2; lia). lia.
Qed.
Definition colour_typed (x : colour) : Prop := match x with Scheme i => i = 80 | RGB r g b => 0 <= r < 256 /\ 0 <= g < 256 /\ 0 <= b < 256 end.
Lemma fill_typed k p r c : Forall look_typed p -> colour_typed (fill_of k p r c).
Proof.
  induction p as [|x p IH] using rev_ind; intro T; [reflexivity|]. apply Forall_app in T. destruct T as [T Tx]. inversion Tx; subst. specialize (IH T). rewrite fill_snoc.
  destruct x as [q| |]; cbn [fill_step look_typed] in *; auto; [destruct q; auto|]; destruct (same_place _ _ _ _ _ _); auto. reflexivity.
Qed.
Definition rect_typed (x : noterec) : Prop := Forall (fun v => 0 <= v < 65536) (place_numbers x).
Lemma place_typed k p r c x : Forall look_typed p -> place_of k p r c = Some x -> rect_typed x.
Proof.
  revert x. induction p as [|y p IH] using rev_ind; intros x T; [discriminate|]. apply Forall_app in T. destruct T as [T Ty]. inversion Ty; subst. rewrite place_snoc.
  destruct y as [q| |]; cbn [place_step look_typed] in *; auto; [destruct q; auto|]; destruct (same_place _ _ _ _ _ _); auto; [discriminate|]. intro E. apply some_inj in E. subst x. exact H1.
Qed.
Lemma fill_number x : colour_typed x -> u32 (fill_value x) /\ read_colour (fill_value x) = Some x.
Proof.
  destruct x as [i|r g b]; cbn [colour_typed fill_value]; [intros ->; split; [unfold u32; lia|reflexivity]|]. intros (Hr & Hg & Hb).
  assert (E : Z.lor (Z.lor (Z.shiftl b 16) (Z.shiftl g 8)) r = b * 65536 + g * 256 + r).
  { assert (E1 : Z.shiftl g 8 = g * 256) by (rewrite Z.shiftl_mul_pow2 by lia; reflexivity). 
    rewrite <- Z.lor_assoc, (lor_sum 8) by lia. change (2 ^ 8) with 256. rewrite (lor_sum 16) by (change (2 ^ 16) with 65536; lia). change (2 ^ 16) with 65536. lia. }
  rewrite E. split; [unfold u32; lia|]. unfold read_colour. replace ((b * 65536 + g * 256 + r) / 16777216) with 0 by (symmetry; apply Z.div_small; lia). change (0 =? 0) with true. cbv iota. cbv zeta.
  f_equal. f_equal.
  - replace (b * 65536 + g * 256 + r) with (r + (b * 256 + g) * 256) by lia. rewrite Z.mod_add by lia. apply Z.mod_small. lia.
  - replace (b * 65536 + g * 256 + r) with (r + (b * 256 + g) * 256) by lia. rewrite Z.div_add, Z.div_small by lia. cbn [Z.add]. rewrite Z.add_0_l || idtac.
    replace (b * 256 + g) with (g + b * 256) by lia. rewrite Z.mod_add by lia. apply Z.mod_small. lia.
  - replace (b * 65536 + g * 256 + r) with ((g * 256 + r) + b * 65536) by lia. rewrite Z.div_add, Z.div_small by lia. apply Z.mod_small. lia.
Qed.
Lemma shape_fill_read n id : u32 (no_fill n) -> shape_fill (note_shape n id) = read_colour (no_fill n).
Proof.
  intro U. assert (E : shape_fill (note_shape n id) = olet l := properties 8 (options_bytes n) in match filter (fun e => fst e =? FILL_COLOR) l with [(_, v)] => read_colour v | _ => None end) by reflexivity.
  rewrite E. replace (options_bytes n) with (le16 133 ++ le32 1 ++ le16 191 ++ le32 655368 ++ le16 344 ++ le32 0 ++ le16 385 ++ le32 (no_fill n) ++ le16 387 ++ le32 134217808 ++ le16 447 ++ le32 1048592
    ++ le16 575 ++ le32 196611 ++ le16 959 ++ le32 131074 ++ []) by reflexivity.
  cbn [properties]. rewrite !take16 by (unfold u16; lia). rewrite !take32 by (unfold u32 in *; lia). 
  repeat (rewrite take16 by (unfold u16; lia); rewrite take32 by (unfold u32 in *; lia)). reflexivity.
Qed.
Lemma shape_place_read n id : rect_typed (no_rect n) -> shape_place (note_shape n id) = Some (place_numbers (no_rect n)).
Proof.
  intro U. assert (E : shape_place (note_shape n id) = Some (map (fun v => le_value (le16 v)) (place_numbers (no_rect n)))) by reflexivity.
  rewrite E. f_equal. clear E. induction U as [|v l V U IH]; [reflexivity|]. cbn [map]. rewrite IH, le16_value, Z.mod_small by exact V. reflexivity.
Qed.
Lemma shape_cell_read n id : 0 <= no_row n <= 65535 -> 0 <= no_col n <= 255 -> nr_col1 (no_rect n) = (no_col n mod 65536 + 1) mod 65536 -> nr_row1 (no_rect n) = no_row n mod 65536 ->
  shape_cell (note_shape n id) = Some (no_row n, no_col n + 1).
Proof.
  intros A B Q1 Q2. assert (E : shape_cell (note_shape n id) = olet c := fld 2 (anchor_bytes n) 2 in olet r := fld 2 (anchor_bytes n) 6 in Some (r, c)) by reflexivity.
  rewrite E. unfold anchor_bytes. rewrite (fld16 (le16 _)) by reflexivity. rewrite 2 app_assoc, fld16 by reflexivity.
  rewrite Q1, Q2. rewrite !Z.mod_mod by lia. rewrite !(Z.mod_small (no_row n)), !(Z.mod_small (no_col n)), Z.mod_small by lia. reflexivity.
Qed.
Lemma shapes_show k p ns : Forall look_typed p -> Forall (fun n => looked k p n /\ 0 <= no_row n <= 65535 /\ 0 <= no_col n <= 255) ns -> forall sheet spid i,
  Forall2 (shows k p) (notes_as ns i) (shapes ns sheet spid).
Proof.
  intro T. induction 1 as [|n ns ((F & Q) & A & B) Fs IH]; intros sheet spid i; cbn [notes_as shapes]; constructor; [|apply IH]. unfold shows. cbn [rn_row rn_col].
  destruct (fill_number _ (fill_typed k p (no_row n) (no_col n) T)) as [U1 U2]. rewrite shape_fill_read by (rewrite F; exact U1). rewrite F. split; [exact U2|].
  destruct (place_of k p (no_row n) (no_col n)) as [x|] eqn:E; [|apply shape_cell_read; tauto]. subst x. apply shape_place_read. eapply place_typed; eauto.
Qed.

(** What every note of the saved workbook is. *)
Lemma nview_note R p stream w w' : Forall typed (plain p) -> fits R (plain p) -> nview R p stream w w' -> forall k s', nth_error (wb_sheets w') k = Some s' ->
  exists s, alike s s' /\ meaning k (plain p) s
  /\ (forall m, In m (sh_notes s') -> exists a t, note_of k (plain p) (no_row m) (no_col m) = Some (a, t) /\ strip_note m = strip_note (note_new (no_row m) (no_col m) (to16 a) (to16 t))
        /\ text_typed a /\ text_typed t /\ 0 <= no_row m <= 65535 /\ 0 <= no_col m <= 255)
  /\ (forall r c, note_of k (plain p) r c <> None -> exists m, In m (sh_notes s') /\ no_row m = r /\ no_col m = c).
Proof.
  intros Ty Fi V k s' Es'. destruct (nth_2 _ _ _ (sheets_alike _ _ (f_equal wb_sheets (nv_strip _ _ _ _ _ V))) _ _ Es') as (s & Es & Al). exists s.
  pose proof (mn_sheet _ _ (nv_means _ _ _ _ _ V) _ _ Es) as Me. pose proof (ft_calls _ _ Fi) as Fc. split; [exact Al|]. split; [exact Me|]. split.
  - intros m J. assert (J2 : In (strip_note m) (map strip_note (sh_notes s))) by (rewrite (al_notes _ _ Al); apply in_map; exact J). apply in_map_iff in J2. destruct J2 as (m0 & E0 & J0).
    destruct (strip_fields _ _ E0) as (Q1 & Q2 & _). rewrite (me_notes _ _ _ Me) in J0. apply notes_iff in J0. destruct J0 as (a & t & E & Em). rewrite Q1, Q2 in E, Em. exists a, t. split; [exact E|].
    split; [rewrite <- E0, Em; reflexivity|]. destruct (note_typed _ _ _ _ _ _ Ty E) as [Ta Tt]. pose proof (notes_fit _ _ _ _ _ _ _ Ty Fc E). tauto.
  - intros r c N. destruct (note_of k (plain p) r c) as [[a t]|] eqn:E; [|congruence]. destruct (note_new_pos r c (to16 a) (to16 t)) as [P1 P2].
    assert (J : In (note_new r c (to16 a) (to16 t)) (sh_notes s)). { rewrite (me_notes _ _ _ Me). apply notes_iff. exists a, t. rewrite P1, P2. auto. }
    apply (in_map strip_note) in J. rewrite (al_notes _ _ Al) in J. apply in_map_iff in J. destruct J as (m & E0 & J). destruct (strip_fields _ _ E0) as (Q1 & Q2 & _). exists m. split; [exact J|]. split; congruence.
Qed.

(** The looks of the notes of a sheet.  Its drawing has one shape for each NOTE record, in the
    same order; the shape's fill colour is the colour last given to the note at that position
    since it was written (the tool tip colour if none was), and its anchor is the place last
    given to it (if none was, one that starts at the note's row in the column to its right). *)
Theorem C52_note_looks R moves p stream k body : nsaved_ok R moves p stream -> sheet_in stream k body -> zlen (filter (is_note k) (plain p)) <= 65535 ->
  exists ns tree, traverse read_note (payloads T_NOTE body) = Some ns /\ drawing (concat (payloads T_MSODRAWING body)) = Some tree
    /\ looks_drawn k p ns tree
    /\ (forall r c, note_of k (plain p) r c <> None <-> exists n, In n ns /\ rn_row n = r /\ rn_col n = c).
Proof.
  intros H Hk Hn. destruct (nsaved_view _ _ _ _ H) as (w & w' & V). pose proof (ns_typed _ _ _ _ H) as T. pose proof (plain_typed _ T) as Ty. pose proof (ns_fits _ _ _ _ H) as Fi.
  unfold sheet_in in Hk. rewrite (nv_stream _ _ _ _ _ V) in Hk. apply (SaveMeans.sheet_body (Bof R)) in Hk; [|apply V|apply V]. destruct Hk as (_ & s & pos & Es & Ep & Eb).
  destruct (nview_note _ _ _ _ _ Ty Fi V _ _ Es) as (s0 & Al & Me & Ni & Hs).
  pose proof (notes_count k (plain p)) as Nc. rewrite <- (me_notes _ _ _ Me) in Nc.
  assert (Nz : zlen (sh_notes s0) = zlen (sh_notes s)). { unfold zlen. rewrite <- (map_length strip_note (sh_notes s0)), (al_notes _ _ Al), map_length. reflexivity. }
  rewrite Nz in Nc.
  assert (Is : sheet_inv s). { pose proof (wi_sheets _ (w2_inv _ (nv_inv' _ _ _ _ _ V))) as Fs. rewrite Forall_forall in Fs. apply Fs. eapply nth_error_In; eauto. }
  pose proof (si_spid _ Is) as Sp. destruct (body_split (wb_labels w') (dac w') pos s) as (a & b & Ta & Tb & Sb). rewrite <- Eb, Sp in Sb.
  pose proof (pay_rx T_NOTE (inner (wb_labels w') (dac w') pos s)) as Pay. rewrite <- Eb in Pay. specialize (Pay ltac:(discriminate)).
  rewrite pay_inner_flat in Pay by not_in. picks Pay. cbn [app] in Pay. rewrite ?app_nil_r in Pay.
  assert (Au : forall m, In m (sh_notes s) -> Forall u16 (no_author m) /\ zlen (no_author m) <= 54).
  { intros m J. destruct (Ni m J) as (x & t & _ & Em & Tx & _). destruct (strip_fields _ _ Em) as (_ & _ & Q & _). destruct (note_new_texts (no_row m) (no_col m) (to16 x) (to16 t)) as (N1 & _). rewrite Q, N1.
    destruct (note_text_u16 (to16 x) (to16_typed _ Tx)) as (A1 & _ & A2 & _). auto. }
  assert (Lk : Forall (fun n => looked k p n /\ 0 <= no_row n <= 65535 /\ 0 <= no_col n <= 255) (sh_notes s)).
  { apply Forall_forall. intros m J. destruct (Ni m J) as (x & t & _ & _ & _ & _ & P1 & P2). split; [exact (nv_looks _ _ _ _ _ V k s m Es J)|auto]. }
  assert (Lc : forall r c, (exists n, In n (notes_as (sh_notes s) 0) /\ rn_row n = r /\ rn_col n = c) <-> exists m, In m (sh_notes s) /\ no_row m = r /\ no_col m = c).
  { intros r c. split.
    - intros (n & J & <- & <-). assert (G : forall l i, In n (notes_as l i) -> exists m, In m l /\ no_row m = rn_row n /\ no_col m = rn_col n).
      { induction l as [|m l IH]; intros i Jl; [destruct Jl|]. cbn [notes_as] in Jl. destruct Jl as [<-|Jl]; [exists m; cbn; auto|]. destruct (IH _ Jl) as (m' & J' & Q). exists m'. split; [right; exact J'|exact Q]. }
      exact (G _ _ J).
    - intros (m & J & <- & <-). apply notes_as_has. exact J. }
  set (ns := sh_notes s) in *. exists (notes_as ns 0).
  assert (Dr : exists tree, drawing (concat (payloads T_MSODRAWING body)) = Some tree /\ looks_drawn k p (notes_as ns 0) tree).
  { rewrite Sb, !pay_app, (pay_none calm_types T_MSODRAWING a Ta), (pay_none calm_types T_MSODRAWING b Tb) by not_in. cbn [app]. rewrite app_nil_r.
    destruct ns as [|n ns'] eqn:En. { exists []. split; reflexivity. }
    assert (Nl : zlen (n :: ns') <= 65535) by lia.
    eexists. split; [apply parses_drawing, notes_drawing; exact Nl|]. cbn [notes_as looks_drawn]. change (mkRNote (no_row n) (no_col n) (0 + 1) (no_author n) :: notes_as ns' (0 + 1)) with (notes_as (n :: ns') 0).
    eexists _, _, _. split; [reflexivity|]. apply shapes_show; assumption. }
  destruct Dr as (tree & D1 & D2). exists tree. split; [|split; [exact D1|split; [exact D2|]]].
  - rewrite Pay.
    + apply notes_read; [lia|lia|]. apply Forall_forall. intros m J. destruct (Ni m J) as (x & t & _ & _ & _ & _ & P1 & P2). destruct (Au m J) as (A1 & A2). unfold u16. repeat split; auto; lia.
    + apply Forall_map, Forall_forall. intros m J. destruct (number_in _ _ _ J) as (m' & j & J' & ->). destruct (Au m' J') as (_ & A2).
      unfold note_bytes. rewrite !zlen_app, !zlen_le16. cbn [renote no_author]. pose proof (ustr_le (no_author m') LEN2). change (zlen [0]) with 1. lia.
  - intros r c. rewrite Lc. split; [apply Hs|]. intros (m & J & <- & <-). destruct (Ni m J) as (x & t & E & _). rewrite E. discriminate.
Qed.
Print Assumptions C52_note_looks.

(** When the calls are allowed. *)
Lemma note_there p w' : Forall look_typed p -> ndocument p = Ok w' -> forall k r c, note_of k (plain p) r c <> None <->
  exists s, nth_error (wb_sheets w') k = Some s /\ existsb (note_at r c) (sh_notes s) = true.
Proof.
  intros T D k r c. pose proof (plain_typed _ T) as Ty. destruct (ndoc_plain _ _ D) as (w & D0 & E). pose proof (run_means _ _ Ty D0) as M.
  pose proof (sheets_alike _ _ (f_equal wb_sheets E)) as F2. split.
  - intro N. destruct (nth_error (wb_sheets w') k) as [s'|] eqn:Es'.
    + exists s'. split; [reflexivity|]. destruct (nth_2 _ _ _ F2 _ _ Es') as (s & Es & Al). pose proof (mn_sheet _ _ M _ _ Es) as Me.
      destruct (note_of k (plain p) r c) as [[a t]|] eqn:Q; [|congruence]. destruct (note_new_pos r c (to16 a) (to16 t)) as [P1 P2].
      assert (J : In (note_new r c (to16 a) (to16 t)) (sh_notes s)). { rewrite (me_notes _ _ _ Me). apply notes_iff. exists a, t. rewrite P1, P2. auto. }
      apply (in_map strip_note) in J. rewrite (al_notes _ _ Al) in J. apply in_map_iff in J. destruct J as (m & E0 & J). destruct (strip_fields _ _ E0) as (Q1 & Q2 & _).
      apply existsb_exists. exists m. split; [exact J|]. unfold note_at. rewrite Q1, Q2, P1, P2, !Z.eqb_refl. reflexivity.
    + exfalso. apply N. apply nth_error_None in Es'. rewrite <- (len_2 _ _ _ F2) in Es'. pose proof (mn_silent _ _ M _ Es') as Si. clear - Si. unfold note_of.
      assert (G : forall o, fold_left (note_step k r c) (plain p) o = o); [|apply G]. induction Si as [|q l Nq Si IH]; intro o; [reflexivity|]. cbn [fold_left].
      replace (note_step k r c o q) with o; [apply IH|]. destruct q; try reflexivity. cbn [note_step target] in *. destruct (Nat.eqb k k0) eqn:X; [|reflexivity]. apply Nat.eqb_eq in X. congruence.
  - intros (s' & Es' & X). destruct (nth_2 _ _ _ F2 _ _ Es') as (s & Es & Al). pose proof (mn_sheet _ _ M _ _ Es) as Me. apply existsb_exists in X. destruct X as (m & J & A). apply at_place in A. destruct A as [<- <-].
    apply (in_map strip_note) in J. rewrite <- (al_notes _ _ Al) in J. apply in_map_iff in J. destruct J as (m0 & E0 & J). destruct (strip_fields _ _ E0) as (Q1 & Q2 & _).
    rewrite (me_notes _ _ _ Me) in J. apply notes_iff in J. destruct J as (a & t & E1 & _). rewrite <- Q1, <- Q2, E1. discriminate.
Qed.
Lemma on_note_there w k r c f : (exists w', on_note w k r c f = Ok w') <-> exists s, nth_error (wb_sheets w) k = Some s /\ existsb (note_at r c) (sh_notes s) = true.
Proof.
  unfold on_note, on_sheet. destruct (nth_error (wb_sheets w) k) as [s|].
  - destruct (existsb _ _) eqn:X; cbn [bind]; split; [eauto|eauto|intros (? & Q); discriminate Q|intros (s' & Q & Y); apply some_inj in Q; congruence].
  - split; [intros (? & Q)|intros (? & Q & _)]; discriminate Q.
Qed.
Lemma on_note_not w k r c f : on_note w k r c f = UB \/ exists w', on_note w k r c f = Ok w'.
Proof. unfold on_note, on_sheet. destruct (nth_error (wb_sheets w) k) as [s|]; [|auto]. destruct (existsb _ _); cbn [bind]; eauto. Qed.
Lemma proper_snoc p x : proper_notes (p ++ [x]) <-> proper_notes p /\ proper_step p x.
Proof.
  unfold proper_notes. split.
  - intro H. split; [|apply (H p x []); reflexivity]. intros a y b ->. apply (H a y (b ++ [x])). rewrite <- app_assoc. reflexivity.
  - intros [H Hx] a y b E. destruct b as [|z b _] using rev_ind.
    + apply app_inj_tail in E. destruct E as [-> ->]. exact Hx.
    + rewrite app_comm_cons, app_assoc in E. apply app_inj_tail in E. destruct E as [-> _]. apply (H a y b). reflexivity.
Qed.
(** A program of such calls runs exactly when its plain calls do and every change of looks goes
    to a note that has been written. *)
Theorem C52_calls_valid p : Forall look_typed p ->
  (exists w', ndocument p = Ok w') <-> (exists w, document (plain p) = Ok w) /\ proper_notes p.
Proof.
  induction p as [|x p IH] using rev_ind; intro T.
  { rewrite ndoc_nil. change (plain []) with (@nil call). split; [|intros [A _]; exact A]. intro A. split; [exact A|]. intros a y b E. destruct a; discriminate E. }
  apply Forall_app in T. destruct T as [T Tx]. specialize (IH T). rewrite proper_snoc, plain_snoc.
  assert (Qn : forall k r c f w1, ndocument p = Ok w1 -> ((exists w', on_note w1 k r c f = Ok w') <-> note_of k (plain p) r c <> None)).
  { intros k r c f w1 D. rewrite (note_there p w1 T D k r c). apply on_note_there. }
  split.
  - intros (w' & D). apply ndoc_snoc in D. destruct D as (w1 & D & C). destruct (proj1 IH (ex_intro _ w1 D)) as [(w0 & D0) P]. destruct (ndoc_plain _ _ D) as (w0' & D0' & E).
    destruct x; cbn [ncall_do proper_step] in *; rewrite ?app_nil_r; (split; [|split; [exact P|]]).
    + destruct (ndoc_plain (p ++ [NCall q]) w' (ndoc_app p (NCall q) w1 w' D C)) as (w2 & D2 & _). rewrite plain_snoc in D2. eauto.
    + exact Logic.I.
    + eauto.
    + apply (Qn _ _ _ (note_fill red green blue) _ D). eauto.
    + eauto.
    + apply (Qn _ _ _ (note_rect r) _ D). eauto.
  - intros ((w2 & D2) & P & Px). assert (Pl : exists w, document (plain p) = Ok w). { destruct x; rewrite ?app_nil_r in D2; eauto. apply document_snoc in D2. destruct D2 as (w0 & D0 & _). eauto. }
    destruct (proj2 IH (conj Pl P)) as (w1 & D). destruct x; cbn [proper_step] in Px.
    + apply document_snoc in D2. destruct D2 as (w0 & D0 & C). destruct (ndoc_plain _ _ D) as (w0' & D0' & E). rewrite D0 in D0'. apply ok_inj in D0'. subst w0'.
      pose proof (mapr_eq (fun w => api_call w q) (fun w => call_strip w q) _ _ E) as M. cbn beta in M. rewrite C in M. cbn [mapr] in M.
      destruct (api_call w1 q) as [w3| |] eqn:C1; cbn [mapr] in M; try discriminate M. exists w3. eapply ndoc_app; [exact D|exact C1].
    + apply (Qn _ _ _ (note_fill red green blue) _ D) in Px. destruct Px as (w3 & C). exists w3. eapply ndoc_app; [exact D|exact C].
    + apply (Qn _ _ _ (note_rect r) _ D) in Px. destruct Px as (w3 & C). exists w3. eapply ndoc_app; [exact D|exact C].
Qed.
Print Assumptions C52_calls_valid.
(** Such a program is also saved. *)
Theorem C52_saves R moves p : 0 <= R <= 65535 -> Forall look_typed p -> fits R (plain p) -> (R <= 32819 \/ forall e n, moves e n = false) ->
  (exists w, document (plain p) = Ok w) -> proper_notes p -> exists stream, nsaved_ok R moves p stream.
Proof.
  intros HR T F C D P. destruct (proj2 (C52_calls_valid p T) (conj D P)) as (w' & D'). destruct (ndoc_plain _ _ D') as (w & D0 & E). pose proof (plain_typed _ T) as Ty.
  pose proof (doc_limits R _ w HR Ty F D0) as L. fold (Bof R) in L. pose proof (strip_limits _ _ _ E L) as L'. destruct (ndoc_looks _ _ T D') as [I' _].
  exists (concat (store_of w')). constructor; auto. exists w', (map sheet_after (wb_sheets w')). split; [exact D'|].
  change (saves moves w' (concat (store_of w')) (map sheet_after (wb_sheets w'))). apply (saves_iff (Bof R)); auto. eapply calm_stable; eauto.
Qed.
Print Assumptions C52_saves.

(** The notes of [annotated] with looks: the first coloured, written again and then moved; the
    second coloured twice. *)
Definition coloured : list ncall :=
  [NCall (KSheet (TChar [65])); NCall (KSheet (TChar [66])); NCall (KNote 0 3 2 (TChar [97]) (TChar [98])); NFill 0 3 2 1 2 3;
   NCall (KNote 0 0 0 (T16 [1041]) (T16 [1042; 98])); NFill 0 0 0 255 0 0; NCall (KNote 0 3 2 (TChar [99]) (TChar [100; 101]));
   NRect 0 3 2 (mkNoteRec 2 5 0 6 0 8 0 9 0); NFill 0 0 0 16 32 64; NCall (KNote 1 5 5 (TChar []) (TChar []))].
Example C52_case : plain coloured = annotated /\ Forall look_typed coloured /\ proper_notes coloured
  /\ (exists stream, nsaved_ok 40 (fun _ _ => false) coloured stream)
  /\ fill_of 0 coloured 3 2 = Scheme 80 /\ fill_of 0 coloured 0 0 = RGB 16 32 64 /\ place_of 0 coloured 0 0 = None /\ place_of 0 coloured 3 2 <> None.
Proof.
  assert (P : proper_notes coloured).
  { intros a x b E. unfold coloured in E. do 10 (destruct a as [|? a]; [injection E as <- <-; cbn; first [exact Logic.I|discriminate]|cbn [app] in E; injection E as <- E]). destruct a; discriminate E. }
  assert (T : Forall look_typed coloured).
  { assert (G : forall l : list call, Forall typed l -> Forall look_typed (map NCall l)) by (intros l F; apply Forall_map; exact F).
    pose proof (G _ annotated_typed) as F. unfold annotated in F. cbn [map] in F. repeat (apply Forall_cons_iff in F; destruct F as [? F]). unfold coloured.
    repeat (apply Forall_cons; [first [assumption | cbn [look_typed]; lia | cbn; repeat constructor; lia]|]). constructor. }
  split; [reflexivity|]. split; [exact T|]. split; [exact P|]. split; [|repeat split; discriminate].
  assert (E : plain coloured = annotated) by reflexivity. apply C52_saves; rewrite ?E; [lia|exact T|exact annotated_fits|left; lia| |exact P]. apply is_ok_ex. vm_compute. reflexivity.
Qed.
