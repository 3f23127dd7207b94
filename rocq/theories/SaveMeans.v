(** A saved document read back: every theorem here combines what the calls mean
    (ApiEff.run_means), what is stored (SaveOk, SaveRecs) and what the reader returns
    (SaveRead). *)
From Coq Require Import ZArith List Bool Lia ZifyBool ZifyNat Sorting.Sorted Sorting.Permutation.
From Verif Require Import Bytes UnitModel SpecBuf BufProofs UnitProofs RecModel SheetModel XfModel WbModel
  RecProofs RecFrames XfProofs SheetProofs SheetTrace GlobTrace WbProofs SpecBiff BookRecs XfInv ApiModel ApiInv
  SpecApi SpecSaved ApiEff SaveOk SaveRecs SaveRead.
Import ListNotations.
Local Open Scope Z_scope.

(* ------------------------------------------------------------------ *)
(** * Values *)

Lemma to16_typed t : text_typed t -> Forall u16 (to16 t).
Proof.
  destruct t as [b|w0|u]; cbn [text_typed to16]; intro H; [| |exact H]; apply Forall_map; (eapply Forall_impl; [|exact H]).
  - intros c Hc. unfold u8, u16 in *. destruct (c <? 128) eqn:E; lia.
  - intros c _. unfold u16. apply Z.mod_pos_bound. lia.
Qed.
Lemma to16_units t u : text_typed t -> units t = Some u -> to16 t = u.
Proof.
  destruct t as [b|w0|v]; cbn [text_typed to16 units]; intros T H.
  - destruct (forallb _ b) eqn:E; [|discriminate]. apply some_inj in H. rewrite <- H. rewrite forallb_forall in E.
    rewrite <- (map_id b) at 2. apply map_ext_in. intros c I. rewrite (E c I). reflexivity.
  - destruct (forallb _ w0) eqn:E; [|discriminate]. apply some_inj in H. rewrite <- H. rewrite forallb_forall in E.
    rewrite <- (map_id w0) at 2. apply map_ext_in. intros c I. specialize (E c I). rewrite Forall_forall in T. specialize (T c I).
    unfold u32 in T. apply Z.mod_small. lia.
  - apply some_inj in H. exact H.
Qed.
Lemma shown_storable u : Forall u16 u -> storable u = true -> shown u = u.
Proof.
  intros U H. unfold shown. destruct (in_sst u); [|reflexivity]. unfold sst_str, storable in *. unfold unicode_string_length.
  rewrite is_ascii_compressible by exact U. unfold MAX_RECORD_SIZE.
  destruct (compressible u); (destruct (_ <? _) eqn:E; [lia|reflexivity]).
Qed.

Lemma log2_range a : 0 < a < 4294967296 -> 0 <= Z.log2 a < 32 /\ 2 ^ Z.log2 a <= a < 2 ^ (Z.log2 a + 1).
Proof.
  intro H. pose proof (Z.log2_nonneg a). pose proof (Z.log2_spec a ltac:(lia)) as S. split; [|unfold Z.succ in S; exact S].
  split; [assumption|]. apply Z.log2_lt_pow2; [lia|]. change (2 ^ 32) with 4294967296. lia.
Qed.
Lemma double_mant a e : 0 <= e < 32 -> 2 ^ e <= a < 2 ^ (e + 1) -> 4503599627370496 <= a * 2 ^ (52 - e) < 9007199254740992.
Proof.
  intros E H. assert (P : 0 < 2 ^ (52 - e)) by (apply Z.pow_pos_nonneg; lia).
  assert (A : 2 ^ e * 2 ^ (52 - e) = 4503599627370496) by (rewrite <- Z.pow_add_r by lia; replace (e + (52 - e)) with 52 by lia; reflexivity).
  assert (B : 2 ^ (e + 1) * 2 ^ (52 - e) = 9007199254740992) by (rewrite <- Z.pow_add_r by lia; replace (e + 1 + (52 - e)) with 53 by lia; reflexivity).
  rewrite <- A, <- B. nia.
Qed.
Lemma double_of_int_range n : -4294967296 < n < 4294967296 -> 0 <= double_of_int n < 18446744073709551616.
Proof.
  intro H. unfold double_of_int. destruct (n =? 0) eqn:E0; [lia|]. cbv zeta.
  destruct (log2_range (Z.abs n) ltac:(lia)) as [E P]. pose proof (double_mant _ _ E P). destruct (n <? 0); lia.
Qed.
Lemma double_of_int_denotes n : -4294967296 < n < 4294967296 -> denotes (NDouble (double_of_int n)) n.
Proof.
  intro H. unfold denotes, double_parts. 
  change (2 ^ 63) with 9223372036854775808. change (2 ^ 52) with 4503599627370496.
  unfold double_of_int. destruct (n =? 0) eqn:E0.
  { replace n with 0 by lia. cbn. reflexivity. }
  cbv zeta. destruct (log2_range (Z.abs n) ltac:(lia)) as [E P]. pose proof (double_mant _ _ E P) as Mm.
  set (e := Z.log2 (Z.abs n)) in *. set (m := Z.abs n * 2 ^ (52 - e)) in *.
  set (sg := if n <? 0 then 9223372036854775808 else 0).
  assert (S1 : (sg + (1023 + e) * 4503599627370496 + (m - 4503599627370496)) / 9223372036854775808 = if n <? 0 then 1 else 0).
  { unfold sg. destruct (n <? 0).
    - symmetry. apply Z.div_unique with (r := (1023 + e) * 4503599627370496 + (m - 4503599627370496)); lia.
    - apply Z.div_small. lia. }
  assert (S2 : (sg + (1023 + e) * 4503599627370496 + (m - 4503599627370496)) / 4503599627370496 = (if n <? 0 then 2048 else 0) + (1023 + e)).
  { symmetry. apply Z.div_unique with (r := m - 4503599627370496); [lia|]. unfold sg. destruct (n <? 0); lia. }
  assert (S3 : (sg + (1023 + e) * 4503599627370496 + (m - 4503599627370496)) mod 4503599627370496 = m - 4503599627370496).
  { symmetry. apply Z.mod_unique with (q := (if n <? 0 then 2048 else 0) + (1023 + e)); [lia|]. unfold sg. destruct (n <? 0); lia. }
  rewrite S1, S2, S3.
  assert (S4 : ((if n <? 0 then 2048 else 0) + (1023 + e)) mod 2048 = 1023 + e).
  { destruct (n <? 0).
    - symmetry. apply Z.mod_unique with (q := 1); lia.
    - apply Z.mod_small. lia. }
  rewrite S4. replace (1023 + e =? 2047) with false by lia. replace (1023 + e =? 0) with false by lia.
  replace (m - 4503599627370496 + 4503599627370496) with m by lia.
  replace (0 <=? 1023 + e - 1075) with false by lia. replace (- (1023 + e - 1075)) with (52 - e) by lia.
  unfold m. destruct (n <? 0) eqn:En; cbn [Z.eqb Pos.eqb].
  - replace (Z.abs n) with (- n) by lia. ring.
  - replace (Z.abs n) with n by lia. ring.
Qed.

(** The value of every position was passed by a call, so it has its C++ type. *)
Lemma cells_typed_from calls : Forall typed calls -> forall k m, (forall r c u, m r c = Some u -> val_typed u) ->
  forall r c u, fold_left (cells_step k) calls m r c = Some u -> val_typed u.
Proof.
  induction 1 as [|q calls T F IH]; intros k m Hm r c u H; [eapply Hm; exact H|].
  cbn [fold_left] in H. eapply IH; [|exact H]. clear - T Hm. intros r c u H. unfold cells_step in H. destruct q; try (eapply Hm; exact H).
  - destruct (_ && _)%bool; [|eapply Hm; exact H]. apply some_inj in H. rewrite <- H. apply T.
  - destruct (_ && _)%bool; [|eapply Hm; exact H]. destruct (m r c) eqn:E; [eapply Hm; rewrite <- H; exact E|].
    apply some_inj in H. rewrite <- H. exact I.
Qed.
Lemma cells_typed calls k r c u : Forall typed calls -> cells_of k calls r c = Some u -> val_typed u.
Proof. intros F H. eapply cells_typed_from; [exact F| |exact H]. intros ? ? ? K. discriminate. Qed.

(** A stored value reads as the value passed. *)
Lemma make_reads id u : val_typed u -> reads_as u (read_as (make_val id u)).
Proof.
  destruct u as [|b|e|n|n|bits|t|arr toks fs e]; cbn [val_typed make_val reads_as]; intro T; try reflexivity.
  - destruct (_ && _)%bool eqn:E; cbn [read_as]; eexists; (split; [reflexivity|]).
    + reflexivity.
    + apply double_of_int_denotes. lia.
  - unfold u32 in T. destruct (_ <=? n) eqn:E; cbn [read_as]; eexists; (split; [reflexivity|]); intro K; [lia|].
    apply double_of_int_denotes. lia.
  - cbn [read_as]. eexists. split; [reflexivity|]. intros us Hu Hs. rewrite (to16_units t us T Hu).
    apply shown_storable; [|exact Hs]. rewrite <- (to16_units t us T Hu). apply to16_typed. exact T.
Qed.

(* ------------------------------------------------------------------ *)
(** * The substreams of a saved document *)

Definition dg (w : wb) : globals := bk_g (wb_book w).
Definition dac (w : wb) : Z := bactive (wb_book w).
Definition dstarts (w : wb) : list Z := sheet_starts (dg w) (dac w) (g_size (dg w)) (wb_sheets w).
Definition dbodies (w : wb) : list (list brec) := bodies (dg w) (dac w) (g_size (dg w)) (wb_sheets w).

Lemma substream_eq B w k : winv2 w -> limits B w ->
  substream (concat (store_of w)) k =
  nth_error ((K_GLOBALS, globals_body (dg w) (dstarts w)) :: map (fun b => (K_SHEET, b)) (dbodies w)) k.
Proof.
  intros I L. unfold substream. destruct (store_records B w I L) as [_ ->].
  rewrite book_substreams. reflexivity.
Qed.
Lemma bodies_nth_rx g ac : forall todo pos k b, nth_error (bodies g ac pos todo) k = Some b ->
  exists s p, nth_error todo k = Some s /\ nth_error (sheet_starts g ac pos todo) k = Some p
              /\ b = flat_map rx (inner (g_labels g) ac p s).
Proof.
  induction todo as [|s t IH]; intros pos k b H; [destruct k; discriminate|].
  destruct k as [|k]; cbn [bodies nth_error sheet_starts] in *.
  - apply some_inj in H. rewrite <- H. exists s, pos. auto.
  - apply IH in H. exact H.
Qed.
Lemma sheet_body B w k kind body : winv2 w -> limits B w -> substream (concat (store_of w)) (S k) = Some (kind, body) ->
  kind = K_SHEET /\ exists s p, nth_error (wb_sheets w) k = Some s /\ nth_error (dstarts w) k = Some p
    /\ body = flat_map rx (inner (wb_labels w) (dac w) p s).
Proof.
  intros I L H. rewrite (substream_eq B) in H by assumption. cbn [nth_error] in H. rewrite nth_error_map in H.
  destruct (nth_error (dbodies w) k) as [b|] eqn:E; [|discriminate]. cbn [option_map] in H. apply some_inj in H.
  apply pair_equal_spec in H. destruct H as [<- <-]. split; [reflexivity|]. unfold dbodies in E. apply bodies_nth_rx in E. exact E.
Qed.
Lemma globals_at B w kind body : winv2 w -> limits B w -> substream (concat (store_of w)) 0 = Some (kind, body) ->
  kind = K_GLOBALS /\ body = globals_body (dg w) (dstarts w).
Proof.
  intros I L H. rewrite (substream_eq B) in H by assumption. cbn [nth_error] in H. apply some_inj in H.
  apply pair_equal_spec in H. destruct H as [<- <-]. auto.
Qed.
Lemma small_body w p s : winv2 w -> limits 8228 w -> In s (wb_sheets w) ->
  flat_map rx (inner (wb_labels w) (dac w) p s) = concat (inner (wb_labels w) (dac w) p s).
Proof.
  intros I L J. destruct (sheet_adv w I L p s J) as [_ B]. fold (dac w) in B. rewrite sheet_recs_inner, !flat_map_app, !concat_app in B.
  cbn [flat_map concat app] in B. change (rx [(RT_BOF, bof_bytes 16)]) with [(RT_BOF, bof_bytes 16)] in B. cbn [app] in B.
  apply (f_equal (@tl _)) in B. cbn [tl] in B. apply app_inv_tail in B. exact B.
Qed.

(* ------------------------------------------------------------------ *)
(** * Cells read back *)

Lemma cell_found s c : sheet_inv s -> In c (sh_cells s) -> find_cell s (c_row c) (c_col c) = Some c.
Proof. intros I J. unfold find_cell. fold (at_key (c_row c) (c_col c)). apply find_in; auto. apply I. Qed.
Lemma cell_meaning k calls s c : sheet_inv s -> meaning k calls s -> In c (sh_cells s) ->
  exists u id, cells_of k calls (c_row c) (c_col c) = Some u /\ c_val c = make_val id u.
Proof.
  intros I M J. pose proof (me_vals _ _ _ M (c_row c) (c_col c)) as V. unfold fv in V. rewrite (cell_found s c I J) in V.
  cbn [option_map vm] in V. destruct (cells_of k calls (c_row c) (c_col c)) as [u|]; [|destruct V].
  destruct V as [id V]. exists u, id. auto.
Qed.
Lemma nth_sheet_in w k s : nth_error (wb_sheets w) k = Some s -> In s (wb_sheets w).
Proof. apply nth_error_In. Qed.
Lemma labels_typed calls w : Forall typed calls -> means calls w -> Forall (fun l => Forall u16 (snd l)) (wb_labels w).
Proof.
  intros T M. pose proof (w2_inv _ (mn_inv _ _ M)) as I. apply Forall_forall. intros [id t] J. cbn [snd].
  apply (Permutation_in _ (Permutation_sym (wi_labels _ I))) in J. apply in_flat_map in J. destruct J as (s & Js & J).
  apply in_flat_map in J. destruct J as (c & Jc & J). destruct (In_nth_error _ _ Js) as [k Ek].
  pose proof (wi_sheets _ I) as Fs. rewrite Forall_forall in Fs.
  destruct (cell_meaning k calls s c (Fs s Js) (mn_sheet _ _ M k s Ek) Jc) as (u & id' & Eu & Ev).
  pose proof (cells_typed calls k _ _ u T Eu) as Tu. unfold cell_label in J. rewrite Ev in J.
  destruct u; cbn [make_val] in J; repeat (match type of J with In _ (match (if ?b then _ else _) with _ => _ end) => destruct b end);
    try destruct J. destruct (in_sst (to16 t0)); [|destruct J]. destruct J as [J|[]]. apply pair_equal_spec in J. destruct J as [_ <-].
  apply to16_typed. exact Tu.
Qed.
Lemma limit_more n m v : n <= m -> val_limit n v -> val_limit m v.
Proof. destruct v; cbn [val_limit]; auto. intros L (V1 & V2 & V3). repeat split; auto. lia. Qed.
Lemma limits_more n m l : n <= m -> Forall (fun c => val_limit n (c_val c)) l -> Forall (fun c => val_limit m (c_val c)) l.
Proof. intros L F. eapply Forall_impl; [|exact F]. intros c. apply limit_more. exact L. Qed.
Lemma make_ok ls id u : val_typed u -> val_limit 65561 (make_val id u) -> NoDup (map fst ls) -> zlen ls < 4294967296 ->
  (forall s, make_val id u = VLabel id s -> in_sst s = true -> In (id, s) ls) ->
  val_ok ls (map sst_str (map snd ls)) (make_val id u).
Proof.
  intros T L N Z Hl. destruct u as [|b|e|n|n|bits|t|arr toks fs e]; cbn [val_typed make_val val_ok] in *; auto.
  - destruct (_ && _)%bool eqn:E; cbn [val_ok]; [lia|]. apply double_of_int_range. lia.
  - unfold u32 in T. destruct (_ <=? n) eqn:E; cbn [val_ok]; [lia|]. apply double_of_int_range. lia.
  - split; [apply to16_typed; exact T|]. intro K. specialize (Hl _ eq_refl K). destruct (label_index_in ls id (to16 t) 0 N Hl) as (i & Ei & En).
    exists i. rewrite Z.add_0_l in Ei. split; [exact Ei|]. rewrite map_map, nth_error_map, En. split; [reflexivity|].
    assert (i < length ls)%nat by (apply nth_error_Some; congruence). unfold zlen in Z. lia.
  - destruct T as (T1 & T2 & T3 & T4). cbn [val_limit] in L. destruct L as (L1 & L2 & L3). split; [exact T1|]. split; [lia|]. split; [exact T2|].
    split; [exact T3|]. intros s Hs. rewrite Hs in T4. auto.
Qed.
Lemma make_label id u i s : make_val id u = VLabel i s -> i = id.
Proof. destruct u; cbn [make_val]; try discriminate; repeat match goal with |- context [if ?b then _ else _] => destruct b end; try discriminate. congruence. Qed.
(** Values small enough to need no continuation. *)
Definition small_vals (w : wb) : Prop := Forall (fun s => Forall (fun c => val_limit 8228 (c_val c)) (sh_cells s)) (wb_sheets w).
Lemma cells_good calls w k s : Forall typed calls -> means calls w -> zlen (wb_labels w) < 4294967296 ->
  nth_error (wb_sheets w) k = Some s -> Forall (fun c => u16 (c_row c) /\ u16 (c_col c)) (sh_cells s) ->
  Forall (fun c => val_limit 65561 (c_val c)) (sh_cells s) ->
  Forall (cell_good (wb_labels w) (map sst_str (map snd (wb_labels w)))) (sh_cells s).
Proof.
  intros T M Ll E Pos Vl. pose proof (w2_inv _ (mn_inv _ _ M)) as I. pose proof (nth_sheet_in _ _ _ E) as J.
  pose proof (wi_sheets _ I) as Fs. rewrite Forall_forall in Fs, Pos, Vl. specialize (Fs s J).
  apply Forall_forall. intros c Jc. destruct (Pos c Jc) as [P1 P2]. split; [exact P1|]. split; [exact P2|].
  destruct (cell_meaning k calls s c Fs (mn_sheet _ _ M k s E) Jc) as (u & id & Eu & Ev). rewrite Ev. 
    specialize (Vl c Jc). rewrite Ev in Vl. apply make_ok; auto.
    + eapply cells_typed; [exact T|exact Eu].
    + apply (wi_nodup _ I).
    + intros t Et Hs. apply (Permutation_in _ (wi_labels _ I)). apply in_flat_map. exists s. split; [exact J|].
      apply in_flat_map. exists c. split; [exact Jc|]. unfold cell_label. rewrite Ev, Et, Hs. left. reflexivity.
Qed.

Lemma before_sorted s : sheet_inv s -> StronglySorted before (map cell_as (sh_cells s)).
Proof.
  intro I. pose proof (si_cells _ I) as S. unfold csorted in S. induction S as [|c l S IH F]; cbn [map]; constructor; [exact IH|].
  apply Forall_map. eapply Forall_impl; [|exact F]. intros d H. unfold clt, key_lt in H. unfold before, cell_as. cbn [rc_row rc_col].
  destruct (_ =? _) eqn:E in H; lia.
Qed.
Lemma same_read calls k s : Forall typed calls -> sheet_inv s -> meaning k calls s ->
  same_cells (cells_of k calls) (map cell_as (sh_cells s)).
Proof.
  intros T I M. split.
  - intros x J. apply in_map_iff in J. destruct J as (c & <- & J). destruct (cell_meaning k calls s c I M J) as (u & id & Eu & Ev).
    exists u. cbn [cell_as rc_row rc_col rc_val]. split; [exact Eu|]. rewrite Ev. apply make_reads. eapply cells_typed; [exact T|exact Eu].
  - intros r c u H. pose proof (me_vals _ _ _ M r c) as V. rewrite H in V. unfold fv in V. destruct (find_cell s r c) as [x|] eqn:E; [|destruct V].
    apply find_cell_in in E. destruct E as (J & <- & <-). exists (cell_as x). split; [apply in_map; exact J|]. auto.
Qed.

(** The main statement about cells, for any record bound [B]. *)
Theorem cells_read B calls w moves stream after k kind body gk globals : Forall typed calls -> document calls = Ok w -> limits B w ->
  stable_for moves w -> small_vals w -> Forall (fun s => Forall (fun c => u16 (c_row c) /\ u16 (c_col c)) (sh_cells s)) (wb_sheets w) ->
  saves moves w stream after -> substream stream 0 = Some (gk, globals) -> substream stream (S k) = Some (kind, body) ->
  exists sst cells, read_sst globals = Some sst /\ read_cells sst body = Some cells
    /\ StronglySorted before cells /\ same_cells (cells_of k calls) cells.
Proof.
  intros T D L St Sv Pos Sa Hg Hk. pose proof (run_means calls w T D) as M. pose proof (mn_inv _ _ M) as I.
  apply (saves_iff B) in Sa; [|assumption..]. destruct Sa as [-> _].
  apply (globals_at B) in Hg; [|assumption..]. destruct Hg as [-> ->].
  apply (sheet_body B) in Hk; [|assumption..]. destruct Hk as [-> (s & p & Es & Ep & ->)].
  pose proof (li_labels _ _ L) as Ll.
  pose proof (nth_sheet_in _ _ _ Es) as J. pose proof (wi_sheets _ (w2_inv _ I)) as Fs. unfold small_vals in Sv. rewrite Forall_forall in Fs, Sv, Pos.
  specialize (Fs s J). specialize (Sv s J). specialize (Pos s J).
  exists (map sst_str (map snd (wb_labels w))), (map cell_as (sh_cells s)).
  split; [|split; [|split]].
  - apply globals_sst; [apply (labels_typed calls w T M)|cbn; lia].
  - apply read_inner.
    + pose proof (sheets_limits B (li_B _ _ L) w I L) as Q. rewrite Forall_forall in Q. destruct (Q s J) as (O & _). apply O.
    + apply (cells_good calls w k s T M); auto; [lia|]. apply (limits_more 8228); [lia|auto].
    + eapply Forall_impl; [|exact Sv]. intros c Hc. apply cell_size_le; [lia|exact Hc].
  - apply before_sorted. exact Fs.
  - apply same_read; auto. apply (mn_sheet _ _ M). exact Es.
Qed.
