(** C05, C14, C17, C21, C22, C31: the framing of a saved document, its sheet directory,
    palette, used ranges, merged ranges and column widths. *)
From Coq Require Import ZArith List Bool Lia ZifyBool ZifyNat Sorted.
From Verif Require Import Bytes UnitModel SpecBuf BufProofs RecModel SheetModel XfModel WbModel XfInv ApiModel SpecBiff BookRecs ApiInv SpecApi ApiEff
  RecProofs RecFrames SheetProofs SheetTrace GlobTrace WbProofs SaveOk SaveRecs SaveRead SpecSaved FsBound Lookups SaveMeans DocLimits SavedView DemoDoc
  SpecSheet ViewPay PalTrace.
Import ListNotations.
Local Open Scope Z_scope.

(* ------------------------------------------------------------------ *)
(** * C14: the used range *)

Lemma used_places k calls s r c : sheet_inv s -> meaning k calls s -> used k calls r c <-> In (r, c) (places s).
Proof.
  intros I M. unfold used, places. rewrite in_app_iff, !in_map_iff. apply Morphisms_Prop.or_iff_morphism.
  - split.
    + intro H. pose proof (me_vals _ _ _ M r c) as V. unfold fv in V. destruct (find_cell s r c) as [x|] eqn:F.
      * apply find_cell_in in F. destruct F as (J & <- & <-). exists x. auto.
      * cbn [option_map vm] in V. destruct (cells_of k calls r c); [destruct V|congruence].
    + intros (x & E & J). injection E as <- <-. destruct (cell_meaning k calls s x I M J) as (u & id & E & _). congruence.
  - rewrite (me_notes _ _ _ M). split.
    + intro H. destruct (note_of k calls r c) as [[a t]|] eqn:E; [|congruence]. destruct (note_new_pos r c (to16 a) (to16 t)) as [P1 P2].
      exists (note_new r c (to16 a) (to16 t)). rewrite P1, P2. split; [reflexivity|]. apply notes_iff. exists a, t. rewrite P1, P2. auto.
    + intros (n & E & J). injection E as <- <-. apply notes_iff in J. destruct J as (a & t & J & _). congruence.
Qed.
Lemma notes_fit R k calls r c a t : Forall typed calls -> Forall (call_fits R) calls -> note_of k calls r c = Some (a, t) -> 0 <= r <= 65535 /\ 0 <= c <= 255.
Proof.
  intros T F. unfold note_of. enough (G : forall o, (o <> None -> 0 <= r <= 65535 /\ 0 <= c <= 255) -> fold_left (note_step k r c) calls o <> None -> 0 <= r <= 65535 /\ 0 <= c <= 255).
  { intro H. apply (G None); congruence. }
  revert F. induction T as [|q calls Tq T IH]; intros F o Ho; [exact Ho|]. inversion F as [|? ? Fq Fs]; subst. cbn [fold_left]. apply IH; [exact Fs|].
  destruct q; cbn [note_step]; auto. destruct (_ && _)%bool eqn:E; auto. intros _. cbn [typed call_fits] in *. unfold u32 in *. lia.
Qed.
Lemma used_fit R k calls r c : Forall typed calls -> Forall (call_fits R) calls -> R <= 65535 -> used k calls r c -> 0 <= r <= 65535 /\ 0 <= c <= 255.
Proof.
  intros T F HR [H|H].
  - destruct (cells_of k calls r c) as [u|] eqn:E; [|congruence]. destruct (cells_placed R k calls r c u T F E) as (A & B & _). lia.
  - destruct (note_of k calls r c) as [[a t]|] eqn:E; [|congruence]. eapply notes_fit; eauto.
Qed.
Lemma dims_read a b c d : u32 a -> u32 b -> u16 c -> u16 d -> read_dims (le32 a ++ le32 b ++ le16 c ++ le16 d ++ le16 0) = Some (mkRD a b c d).
Proof.
  intros A B C D. unfold read_dims. rewrite !zlen_app, !zlen_le32, !zlen_le16. change (4 + (4 + (2 + (2 + 2))) =? 14) with true. cbv iota.
  assert (E0 : fld 4 (le32 a ++ le32 b ++ le16 c ++ le16 d ++ le16 0) 0 = Some a).
  { etransitivity; [apply (fld32 [] a); reflexivity|]. rewrite Z.mod_small by exact A. reflexivity. }
  assert (E1 : fld 4 (le32 a ++ le32 b ++ le16 c ++ le16 d ++ le16 0) 4 = Some b).
  { rewrite (fld32 (le32 a)) by reflexivity. rewrite Z.mod_small by exact B. reflexivity. }
  assert (E2 : fld 2 (le32 a ++ le32 b ++ le16 c ++ le16 d ++ le16 0) 8 = Some c).
  { rewrite app_assoc, fld16 by reflexivity. rewrite Z.mod_small by exact C. reflexivity. }
  assert (E3 : fld 2 (le32 a ++ le32 b ++ le16 c ++ le16 d ++ le16 0) 10 = Some d).
  { rewrite 2 app_assoc, fld16 by reflexivity. rewrite Z.mod_small by exact D. reflexivity. }
  rewrite E0, E1, E2, E3. reflexivity.
Qed.

(** A sheet with a position in use has one DIMENSIONS record, and it gives the bounding
    rectangle of these positions. *)
Theorem C14_used_range R moves calls stream k body : saved_ok R moves calls stream -> sheet_in stream k body ->
  (exists r c, used k calls r c) ->
  exists p d, payloads T_DIMENSIONS body = [p] /\ read_dims p = Some d /\ bounding (used k calls) d.
Proof.
  intros H Hk (r0 & c0 & U0). destruct (saved_view _ _ _ _ H) as [w V].
  destruct (view_pay _ _ _ _ V k body T_DIMENSIONS Hk) as (s & p & Es & _ & Is & Me & Pay); [discriminate|].
  rewrite pay_inner_flat in Pay by not_in. picks Pay. cbn [app] in Pay.
  pose proof (mn_inv _ _ (vw_means _ _ _ _ V)) as I2. pose proof (w2_tight _ I2) as Ti. rewrite Forall_forall in Ti.
  specialize (Ti s (nth_error_In _ _ Es)). pose proof (used_places k calls s r0 c0 Is Me) as E0. apply E0 in U0.
  assert (NE : places s <> []) by (destruct (places s); [destruct U0|discriminate]).
  destruct (ti_some _ Ti NE) as (A1 & A2 & A3 & A4). pose proof (ti_in _ Ti) as In0. rewrite Forall_forall in In0.
  assert (Fit : forall r c, In (r, c) (places s) -> 0 <= r <= 65535 /\ 0 <= c <= 255).
  { intros r c J. apply (used_places k calls s r c Is Me) in J. eapply (used_fit R); [apply V|apply V|apply (vw_rows _ _ _ _ V)|exact J]. }
  assert (W : forall z, In z (map fst (places s)) -> exists c, In (z, c) (places s)).
  { intros z J. apply in_map_iff in J. destruct J as ([a b] & <- & J). exists b. exact J. }
  assert (W' : forall z, In z (map snd (places s)) -> exists r, In (r, z) (places s)).
  { intros z J. apply in_map_iff in J. destruct J as ([a b] & <- & J). exists a. exact J. }
  apply W in A1. apply W in A2. apply W' in A3. apply W' in A4.
  destruct A1 as [a1 A1], A2 as [a2 A2], A3 as [a3 A3], A4 as [a4 A4].
  pose proof (Fit _ _ A1). pose proof (Fit _ _ A2). pose proof (Fit _ _ A3). pose proof (Fit _ _ A4).
  exists (dim_bytes s), (mkRD (sh_minr s) (sh_maxr s + 1) (sh_minc s) (sh_maxc s + 1)). split; [|split].
  - apply Pay. repeat constructor. unfold dim_bytes. rewrite !zlen_app, !zlen_le32, !zlen_le16. lia.
  - apply dims_read; unfold u32, u16; lia.
  - constructor; cbn [rd_row0 rd_row1 rd_col0 rd_col1].
    + intros r c J. apply (used_places k calls s r c Is Me) in J. specialize (In0 _ J). cbn [fst snd] in In0. lia.
    + exists a1. apply (used_places k calls s _ _ Is Me). exact A1.
    + exists a2. rewrite Z.add_simpl_r. apply (used_places k calls s _ _ Is Me). exact A2.
    + exists a3. apply (used_places k calls s _ _ Is Me). exact A3.
    + exists a4. rewrite Z.add_simpl_r. apply (used_places k calls s _ _ Is Me). exact A4.
Qed.
Print Assumptions C14_used_range.
Example C14_case : used 0 demo 6 0 /\ used 0 demo 2 4 /\ used 1 demo 7 7.
Proof. repeat split; left; discriminate. Qed.

(* ------------------------------------------------------------------ *)
(** * C21: merged ranges *)

Lemma chunks_concat : forall n l, (length l <= n)%nat -> concat (chunks l) = l.
Proof.
  induction n as [|n IH]; intros [|r t] L; try reflexivity; [cbn in L; lia|]. rewrite chunks_cons. cbn [concat].
  rewrite IH by (rewrite skipn_length; cbn [length] in *; lia). apply firstn_skipn.
Qed.
Definition small_range (r : range) : Prop := u16 (rg_fr r) /\ u16 (rg_lr r) /\ u16 (rg_fc r) /\ u16 (rg_lc r).
Definition range_as (r : range) : rrange := mkRRg (rg_fr r) (rg_lr r) (rg_fc r) (rg_lc r).
Lemma ranges_read rs : Forall small_range rs -> read_ranges (length rs) (flat_map range_bytes rs) = Some (map range_as rs).
Proof.
  induction 1 as [|r rs (A & B & C & D) F IH]; [reflexivity|]. cbn [length read_ranges map].
  set (q := flat_map range_bytes rs) in *.
  replace (flat_map range_bytes (r :: rs)) with (le16 (rg_fr r) ++ le16 (rg_lr r) ++ le16 (rg_fc r) ++ le16 (rg_lc r) ++ q) by reflexivity.
  assert (E0 : fld 2 (le16 (rg_fr r) ++ le16 (rg_lr r) ++ le16 (rg_fc r) ++ le16 (rg_lc r) ++ q) 0 = Some (rg_fr r)).
  { etransitivity; [apply (fld16 [] (rg_fr r)); reflexivity|]. rewrite Z.mod_small by exact A. reflexivity. }
  assert (E1 : fld 2 (le16 (rg_fr r) ++ le16 (rg_lr r) ++ le16 (rg_fc r) ++ le16 (rg_lc r) ++ q) 2 = Some (rg_lr r)).
  { rewrite (fld16 (le16 (rg_fr r))) by reflexivity. rewrite Z.mod_small by exact B. reflexivity. }
  assert (E2 : fld 2 (le16 (rg_fr r) ++ le16 (rg_lr r) ++ le16 (rg_fc r) ++ le16 (rg_lc r) ++ q) 4 = Some (rg_fc r)).
  { rewrite app_assoc, fld16 by reflexivity. rewrite Z.mod_small by exact C. reflexivity. }
  assert (E3 : fld 2 (le16 (rg_fr r) ++ le16 (rg_lr r) ++ le16 (rg_fc r) ++ le16 (rg_lc r) ++ q) 6 = Some (rg_lc r)).
  { rewrite 2 app_assoc, fld16 by reflexivity. rewrite Z.mod_small by exact D. reflexivity. }
  rewrite E0, E1, E2, E3. change (skipn 8 (le16 (rg_fr r) ++ le16 (rg_lr r) ++ le16 (rg_fc r) ++ le16 (rg_lc r) ++ q)) with q.
  rewrite IH. reflexivity.
Qed.
Lemma merged_read rs : (length rs <= 1027)%nat -> Forall small_range rs -> read_merged (merged_bytes rs) = Some (map range_as rs).
Proof.
  intros L F. unfold read_merged, merged_bytes.
  assert (E : fld 2 (le16 (zlen rs) ++ flat_map range_bytes rs) 0 = Some (zlen rs)).
  { etransitivity; [apply (fld16 [] (zlen rs)); reflexivity|]. rewrite Z.mod_small; [reflexivity|]. unfold zlen. lia. }
  rewrite E. change (skipn 2 (le16 (zlen rs) ++ flat_map range_bytes rs)) with (flat_map range_bytes rs). unfold zlen. rewrite Nat2Z.id.
  apply ranges_read. exact F.
Qed.
Lemma merges_small R k calls : Forall typed calls -> Forall (call_fits R) calls -> Forall small_range (map rng (merges_of k calls)).
Proof.
  intros T F. apply Forall_map, Forall_forall. intros x J. apply in_flat_map in J. destruct J as (q & J & Jx).
  rewrite Forall_forall in T, F. specialize (T q J). specialize (F q J). destruct q; cbn [merges_step] in Jx; try destruct Jx.
  destruct (Nat.eqb k k0); [|destruct Jx]. destruct Jx as [<-|[]]. cbn [typed call_fits] in *. unfold small_range, u16, u32 in *. cbn. lia.
Qed.
(** The MERGEDCELLS records hold, in order, exactly the ranges merged, and at most 1027 each. *)
Theorem C21_merged_ranges R moves calls stream k body : saved_ok R moves calls stream -> sheet_in stream k body ->
  exists parts, traverse read_merged (payloads T_MERGEDCELLS body) = Some parts
    /\ concat parts = map as_range (merges_of k calls) /\ Forall (fun l => (length l <= 1027)%nat) parts.
Proof.
  intros H Hk. destruct (saved_view _ _ _ _ H) as [w V].
  destruct (view_pay _ _ _ _ V k body T_MERGEDCELLS Hk) as (s & p & Es & _ & Is & Me & Pay); [discriminate|].
  rewrite pay_inner_flat in Pay by not_in. picks Pay. cbn [app] in Pay. rewrite app_nil_r in Pay.
  pose proof (merges_small R k calls (vw_typed _ _ _ _ V) (ft_calls _ _ (vw_fits _ _ _ _ V))) as Sm. rewrite <- (me_merged _ _ _ Me) in Sm.
  pose proof (chunks_concat _ (sh_merged s) (le_n _)) as Cc. pose proof (chunk_len (S (length (sh_merged s))) (sh_merged s)) as Ln. fold (chunks (sh_merged s)) in Ln.
  rewrite Forall_forall in Ln.
  assert (Sm' : forall rs, In rs (chunks (sh_merged s)) -> Forall small_range rs).
  { intros rs J. rewrite Forall_forall in *. intros x Jx. apply Sm. rewrite <- Cc. apply in_concat. exists rs. auto. }
  exists (map (map range_as) (chunks (sh_merged s))). rewrite Pay.
  - split; [apply traverse_map; intros rs J; apply merged_read; auto|]. split.
    + rewrite <- concat_map, Cc, (me_merged _ _ _ Me), map_map. apply map_ext. intros [[[r1 c1] r2] c2]. reflexivity.
    + apply Forall_map, Forall_forall. intros rs J. rewrite map_length. auto.
  - apply Forall_map, Forall_forall. intros rs J. specialize (Ln rs J). unfold merged_bytes. rewrite zlen_app, zlen_le16, (flat_len range_bytes 8).
    + unfold zlen. lia.
    + intros x. unfold range_bytes. rewrite !zlen_app, !zlen_le16. reflexivity.
Qed.
Print Assumptions C21_merged_ranges.
Example C21_case : merges_of 0 demo = [(10, 0, 11, 3); (12, 0, 13, 3)].
Proof. reflexivity. Qed.

(* ------------------------------------------------------------------ *)
(** * C22: column widths *)

Definition col_as (x : colinfo) : rcolinfo := mkRCol (ci_col x) (ci_col x) (ci_width x) (given (ci_xf x) mod 65536) 0.
Lemma col_read x : u16 (ci_col x) -> u16 (ci_width x) -> read_colinfo (colinfo_bytes x) = Some (col_as x).
Proof.
  intros A B. unfold read_colinfo, colinfo_bytes. rewrite !zlen_app, !zlen_le16. change (2 + (2 + (2 + (2 + (2 + 2)))) =? 12) with true. cbv iota.
  set (i := match ci_xf x with Some i => i | None => 15 end).
  set (P := le16 (ci_col x) ++ le16 (ci_col x) ++ le16 (ci_width x) ++ le16 i ++ le16 0 ++ le16 0).
  assert (E0 : fld 2 P 0 = Some (ci_col x)).
  { etransitivity; [apply (fld16 [] (ci_col x)); reflexivity|]. rewrite Z.mod_small by exact A. reflexivity. }
  assert (E1 : fld 2 P 2 = Some (ci_col x)).
  { unfold P. rewrite (fld16 (le16 (ci_col x))) by reflexivity. rewrite Z.mod_small by exact A. reflexivity. }
  assert (E2 : fld 2 P 4 = Some (ci_width x)).
  { unfold P. rewrite app_assoc, fld16 by reflexivity. rewrite Z.mod_small by exact B. reflexivity. }
  assert (E3 : fld 2 P 6 = Some (i mod 65536)).
  { unfold P. rewrite 2 app_assoc, fld16 by reflexivity. reflexivity. }
  assert (E4 : fld 2 P 8 = Some 0).
  { unfold P. rewrite 3 app_assoc, fld16 by reflexivity. reflexivity. }
  rewrite E0, E1, E2, E3, E4. reflexivity.
Qed.
Lemma widths_fit R k calls c w p : Forall typed calls -> Forall (call_fits R) calls -> width_of k calls c = Some (w, p) -> 0 <= c <= 255 /\ u16 w.
Proof.
  intros T F. unfold width_of. enough (G : forall o, (forall w p, o = Some (w, p) -> 0 <= c <= 255 /\ u16 w) -> fold_left (width_step k c) calls o = Some (w, p) -> 0 <= c <= 255 /\ u16 w).
  { apply G. discriminate. }
  revert F. induction T as [|q calls Tq T IH]; intros F o Ho; [apply Ho|]. inversion F as [|? ? Fq Fs]; subst. cbn [fold_left]. apply IH; [exact Fs|].
  destruct q; cbn [width_step]; auto. destruct (_ && _)%bool eqn:E; auto. intros w2 p2 K. injection K as <- <-. cbn [typed call_fits] in *. unfold u32 in *.
  split; [lia|apply Tq].
Qed.
(** There is one COLINFO record for every column whose width was set, in column order, and it
    carries the width and the format of the last setting. *)
Theorem C22_column_widths R moves calls stream k body : saved_ok R moves calls stream -> sheet_in stream k body ->
  exists cols, read_colinfos body = Some cols /\ StronglySorted (fun a b => rl_first a < rl_first b) cols
    /\ Forall (column_says k calls) cols
    /\ forall c, width_of k calls c <> None -> exists x, In x cols /\ rl_first x = c.
Proof.
  intros H Hk. destruct (saved_view _ _ _ _ H) as [w V].
  destruct (view_pay _ _ _ _ V k body T_COLINFO Hk) as (s & p & Es & _ & Is & Me & Pay); [discriminate|].
  rewrite pay_inner_flat in Pay by not_in. picks Pay. cbn [app] in Pay. rewrite app_nil_r in Pay.
  assert (Wi : forall x, In x (sh_cols s) -> width_of k calls (ci_col x) = Some (ci_width x, ci_xf x)).
  { intros x J. rewrite (me_cols _ _ _ Me) in J. apply cols_iff in J. exact J. }
  assert (Wf : forall x, In x (sh_cols s) -> u16 (ci_col x) /\ u16 (ci_width x)).
  { intros x J. apply Wi in J. apply (widths_fit R) in J; [|apply V|apply V]. unfold u16 in *. lia. }
  exists (map col_as (sh_cols s)). unfold read_colinfos. rewrite Pay.
  - split; [apply traverse_map; intros x J; apply col_read; apply Wf; exact J|]. split; [|split].
    + pose proof (si_cols _ Is) as So. clear - So. induction So as [|x l So IH F]; constructor; auto. apply Forall_map. exact F.
    + apply Forall_map, Forall_forall. intros x J. split; [reflexivity|]. exists (ci_width x), (ci_xf x). split; [apply Wi; exact J|]. repeat split.
    + intros c N. destruct (width_of k calls c) as [[wd i]|] eqn:E; [|congruence]. exists (col_as (mkCol c wd i)). split; [|reflexivity].
      apply in_map. rewrite (me_cols _ _ _ Me). apply cols_iff. exact E.
  - apply Forall_map, Forall_forall. intros x _. unfold colinfo_bytes. rewrite !zlen_app, !zlen_le16. lia.
Qed.
Print Assumptions C22_column_widths.
Example C22_case : width_of 0 demo 2 = Some (5000, Some 21) /\ width_of 0 demo 3 = None.
Proof. split; reflexivity. Qed.

(* ------------------------------------------------------------------ *)
(** * C31: the palette *)

Lemma colours_read l : Forall (fun c => match c with (r, g, b) => u8 r /\ u8 g /\ u8 b end) l ->
  forall fuel, (length l <= fuel)%nat -> read_colors fuel (flat_map (fun c => match c with (r, g, b) => [r; g; b; 0] end) l) = Some l.
Proof.
  induction 1 as [|[[r g] b] l A F IH]; intros fuel L; [destruct fuel; reflexivity|]. destruct fuel; [cbn in L; lia|].
  cbn [flat_map app read_colors]. rewrite IH by (cbn in L; lia). reflexivity.
Qed.
(** setColor accepts exactly the indices 8..63... *)
Theorem C31_accepts p r g b idx : fst (colors_set p r g b idx) = true <-> 8 <= idx <= 63.
Proof. unfold colors_set. destruct (_ || _)%bool eqn:E; cbn [fst]; split; intro; try lia; discriminate. Qed.
Print Assumptions C31_accepts.
(** ... and the saved palette has, at each, the colour last set, or the default. *)
Lemma colours_typed calls i : Forall typed calls -> match colour_at calls i with (r, g, b) => u8 r /\ u8 g /\ u8 b end.
Proof.
  intro T. unfold colour_at, colour_of.
  assert (G : forall o, (forall r g b, o = Some (r, g, b) -> u8 r /\ u8 g /\ u8 b) -> forall r g b, fold_left (colour_step i) calls o = Some (r, g, b) -> u8 r /\ u8 g /\ u8 b).
  { induction T as [|q calls Tq T IH]; intros o Ho; [exact Ho|]. cbn [fold_left]. apply IH. destruct q; cbn [colour_step]; auto.
    destruct (_ && _)%bool; auto. intros r2 g2 b2 K. injection K as <- <- <-. cbn [typed] in Tq. tauto. }
  specialize (G None ltac:(discriminate)). destruct (fold_left (colour_step i) calls None) as [[[r g] b]|]; [apply G; reflexivity|].
  assert (D : forallb (fun c => match c with (r, g, b) => ((0 <=? r) && (r <? 256) && (0 <=? g) && (g <? 256) && (0 <=? b) && (b <? 256))%bool end) default_palette = true) by reflexivity.
  rewrite forallb_forall in D. set (n := Z.to_nat (i - 8)). destruct (nth_in_or_default n default_palette (0, 0, 0)) as [J|E].
  - specialize (D _ J). destruct (nth n default_palette (0, 0, 0)) as [[r g] b]. unfold u8. lia.
  - rewrite E. unfold u8. lia.
Qed.
Theorem C31_palette_saved R moves calls stream globals : saved_ok R moves calls stream -> globals_in stream globals ->
  exists p l, payloads T_PALETTE globals = [p] /\ read_palette p = Some l /\ length l = 56%nat
    /\ forall i, 8 <= i <= 63 -> nth_error l (Z.to_nat (i - 8)) = Some (colour_at calls i).
Proof.
  intros H Hg. destruct (saved_view _ _ _ _ H) as [w V]. destruct (palette_tracked calls w (vw_doc _ _ _ _ V)) as [Ln At].
  assert (Ty : Forall (fun c => match c with (r, g, b) => u8 r /\ u8 g /\ u8 b end) (wb_palette w)).
  { apply Forall_forall. intros c J. apply In_nth_error in J. destruct J as [n J]. assert (n < 56)%nat by (rewrite <- Ln; apply nth_error_Some; congruence).
    specialize (At (Z.of_nat n + 8) ltac:(lia)). replace (Z.to_nat (Z.of_nat n + 8 - 8)) with n in At by lia. rewrite J in At. apply some_inj in At. rewrite At.
    apply colours_typed. apply V. }
  assert (Fl : flat_map (fun c : Z * Z * Z => match c with (r, g, b) => [r; g; b; 0] end) (wb_palette w)
     = map (byte_k 0) (flat_map (fun c : Z * Z * Z => match c with (r, g, b) => [r; g; b; 0] end) (wb_palette w))).
  { symmetry. apply map_byte_id. clear - Ty. induction Ty as [|[[r g] b] l (A & B & C) F IH]; [constructor|]. cbn [flat_map app].
    repeat (constructor; [first [exact A|exact B|exact C|lia]|]). exact IH. }
  assert (Fn : zlen (flat_map (fun c : Z * Z * Z => match c with (r, g, b) => [r; g; b; 0] end) (wb_palette w)) = 224).
  { rewrite (flat_len _ 4) by (intros [[r g] b]; reflexivity). unfold zlen. rewrite Ln. reflexivity. }
  exists (palette_bytes (wb_palette w)), (wb_palette w).
  assert (Pb : palette_bytes (wb_palette w) = le16 56 ++ flat_map (fun c : Z * Z * Z => match c with (r, g, b) => [r; g; b; 0] end) (wb_palette w)).
  { unfold palette_bytes, pl. cbn [appended op_bytes]. rewrite app_nil_r, <- Fl. reflexivity. }
  split; [|split; [|split; [exact Ln|exact At]]].
  - assert (N : ~ In T_PALETTE sst_types_all) by not_in. pose proof (view_global_pay _ _ _ _ V globals T_PALETTE Hg N) as Pay.
    rewrite pay_globals_cat in Pay by exact N. picks Pay. cbn [app] in Pay. apply Pay. repeat constructor. change (g_palette (dg w)) with (wb_palette w).
    rewrite Pb, zlen_app, zlen_le16, Fn. lia.
  - rewrite Pb. unfold read_palette. 
    assert (E : fld 2 (le16 56 ++ flat_map (fun c : Z * Z * Z => match c with (r, g, b) => [r; g; b; 0] end) (wb_palette w)) 0 = Some 56)
      by (etransitivity; [apply (fld16 [] 56); reflexivity|]; reflexivity).
    rewrite E. change (skipn 2 (le16 56 ++ ?x)) with x.
    change (skipn 2 (le16 56 ++ flat_map (fun c : Z * Z * Z => match c with (r, g, b) => [r; g; b; 0] end) (wb_palette w)))
      with (flat_map (fun c : Z * Z * Z => match c with (r, g, b) => [r; g; b; 0] end) (wb_palette w)).
    rewrite (colours_read _ Ty).
    + unfold zlen. rewrite Ln. reflexivity.
    + rewrite app_length, Ln. unfold zlen in Fn. lia.
Qed.
Print Assumptions C31_palette_saved.
Example C31_case : colour_at demo 20 = (1, 2, 3) /\ colour_at demo 21 = (0, 128, 128).
Proof. split; reflexivity. Qed.

(* ------------------------------------------------------------------ *)
(** * C17: the sheet directory *)

Lemma skip_nth {A} (x : A) : forall l k, nth_error l k = Some x -> skipn k l = x :: skipn (S k) l.
Proof. induction l as [|y l IH]; intros [|k] H; try discriminate H; [apply some_inj in H; subst; reflexivity|]. exact (IH k H). Qed.
Section Begins.
Variable w : wb.
Hypothesis I2 : winv2 w.
Hypothesis L : limits 8228 w.
Lemma starts_prefix k p : nth_error (dstarts w) k = Some p ->
  firstn (Z.to_nat p) (concat (store_of w)) = frame_all (globals_recs (dg w) (dstarts w) ++ concat (map (wrap 16) (firstn k (dbodies w)))).
Proof.
  intro H. destruct (starts_real w I2 L (wb_sheets w) (g_size (dg w)) k p (fun s Hs => Hs) H) as (a & E & ->).
  rewrite sheets_recs_bodies in E. fold (dbodies w) in E.
  assert (Ea : a = map (wrap 16) (firstn k (dbodies w))).
  { apply (app_inv_tail (map (wrap 16) (skipn k (dbodies w)))). rewrite <- map_app, firstn_skipn. symmetry. exact E. }
  destruct (store_records 8228 w I2 L) as [-> _]. unfold book_records. fold (dg w) (dac w) (dstarts w).
  rewrite sheets_recs_bodies. fold (dbodies w). 
  replace (concat (map (wrap 16) (dbodies w))) with (concat a ++ concat (map (wrap 16) (skipn k (dbodies w)))) by (rewrite <- concat_app; symmetry; exact (f_equal (@concat _) E)).
  rewrite app_assoc, <- Ea, frame_all_app.
  assert (K : g_size (dg w) + rsz (concat a) = Z.of_nat (length (frame_all (globals_recs (dg w) (dstarts w) ++ concat a)))).
  { pose proof (g_size_real w I2 L) as G. fold (dg w) (dac w) in G. fold (dstarts w) in G. rewrite G, frame_all_app, app_length. unfold rsz, zlen. lia. }
  rewrite K, Nat2Z.id, firstn_app, firstn_all, Nat.sub_diag. cbn [firstn]. apply app_nil_r.
Qed.
Lemma starts_begin k p : nth_error (dstarts w) k = Some p -> sheet_begins (concat (store_of w)) k p.
Proof.
  intro H. destruct (stream_from w I2 L k p H) as (P0 & P1 & Pf). fold (dg w) (dac w) in Pf. fold (dbodies w) in Pf.
  assert (Hk : (k < length (dbodies w))%nat).
  { unfold dbodies. rewrite bodies_len, <- (starts_len w (wb_sheets w) (g_size (dg w))). apply nth_error_Some. fold (dg w) (dac w) (dstarts w). congruence. }
  destruct (nth_error (dbodies w) k) as [body|] eqn:Eb; [|apply nth_error_None in Eb; lia].
  assert (Sk : skipn k (dbodies w) = body :: skipn (S k) (dbodies w)).
  { apply skip_nth. exact Eb. }
  pose proof (limits_ok 8228 (li_B _ _ L) w I2 L) as LK. cbv zeta in LK. destruct LK as (Bk & Ft & _).
  assert (Rf : Forall rec_fits (globals_recs (dg w) (dstarts w) ++ concat (map (wrap 16) (dbodies w)))).
  { destruct (book_frames _ _ _ Bk Ft) as [_ Rf]. unfold book_records in Rf. rewrite sheets_recs_bodies in Rf. exact Rf. }
  rewrite <- (firstn_skipn k (dbodies w)) in Rf. rewrite map_app, concat_app, app_assoc in Rf.
  apply Forall_app in Rf. destruct Rf as [R1 R2].
  exists (globals_recs (dg w) (dstarts w) ++ concat (map (wrap 16) (firstn k (dbodies w)))), (concat (map (wrap 16) (skipn k (dbodies w)))).
  exists ((K_GLOBALS, globals_body (dg w) (dstarts w)) :: map (fun b => (K_SHEET, b)) (firstn k (dbodies w))), (map (fun b => (K_SHEET, b)) (skipn (S k) (dbodies w))), body.
  assert (Tb : Forall (has_types sheet_types) (dbodies w)) by apply bodies_types.
  assert (T1 : Forall (has_types sheet_types) (firstn k (dbodies w))).
  { rewrite <- (firstn_skipn k (dbodies w)) in Tb. apply Forall_app in Tb. apply Tb. }
  assert (T2 : Forall (has_types sheet_types) (skipn k (dbodies w))).
  { rewrite <- (firstn_skipn k (dbodies w)) in Tb. apply Forall_app in Tb. apply Tb. }
  split; [rewrite (starts_prefix k p H); apply records_frame_all; exact R1|]. split; [|split; [|split; [|split]]].
  - rewrite globals_shape. fold (wrap 5 (globals_body (dg w) (dstarts w))). eapply substreams_more.
    + apply substreams_wrap; [unfold K_GLOBALS; lia|apply globals_types_in; apply globals_body_types|apply substreams_all; exact T1].
    + rewrite app_length. unfold wrap at 2. cbn [length]. lia.
  - cbn [length]. rewrite map_length, firstn_length. lia.
  - rewrite Pf. apply records_frame_all. exact R2.
  - rewrite (substreams_all _ T2), Sk. reflexivity.
  - unfold sheet_in. rewrite (substream_eq 8228 w (S k) I2 L). cbn [nth_error]. rewrite nth_error_map, Eb. reflexivity.
Qed.
End Begins.

Lemma entry_read p n : u32 p -> Forall u16 n -> zlen n <= 255 -> read_boundsheet (bs_payload p n) = Some (mkRSE p 0 n).
Proof.
  intros P U Ln. unfold read_boundsheet, bs_payload.
  assert (E0 : fld 4 (le32 p ++ le16 0 ++ ustr_bytes n LEN1) 0 = Some p).
  { etransitivity; [apply (fld32 [] p); reflexivity|]. rewrite Z.mod_small by exact P. reflexivity. }
  assert (E1 : fld 2 (le32 p ++ le16 0 ++ ustr_bytes n LEN1) 4 = Some 0) by (rewrite (fld16 (le32 p)) by reflexivity; reflexivity).
  rewrite E0, E1. change (skipn 6 (le32 p ++ le16 0 ++ ustr_bytes n LEN1)) with (ustr_bytes n LEN1).
  rewrite whole_ustr by (auto; left; auto). reflexivity.
Qed.
Lemma view_entries R calls stream w globals names : view R calls stream w -> R <= 32819 -> globals_in stream globals -> zlen stream < 4294967296 ->
  map units (sheet_names calls) = map Some names -> Forall (fun n => zlen n <= 255) names ->
  length (dstarts w) = length names /\ read_boundsheets globals = Some (map (fun pn => mkRSE (fst pn) 0 (snd pn)) (combine (dstarts w) names)).
Proof.
  intros V HR Hg Hz Hn Hl. pose proof (vw_means _ _ _ _ V) as M. pose proof (mn_inv _ _ M) as I2.
  pose proof (vw_limits _ _ _ _ V) as L. rewrite Bof_small in L by (pose proof (vw_rows _ _ _ _ V); lia).
  assert (En : names_of (dg w) = names /\ Forall (Forall u16) names).
  { unfold names_of. change (g_bs (dg w)) with (wb_bs w). rewrite (mn_names _ _ M). pose proof (vw_typed _ _ _ _ V) as T. 
    assert (Tn : Forall text_typed (sheet_names calls)).
    { apply Forall_forall. intros n J. apply in_flat_map in J. destruct J as (q & J & Jn). rewrite Forall_forall in T. specialize (T q J).
      destruct q; cbn [names_step] in Jn; try exact (False_ind _ Jn). destruct Jn as [<-|[]]. exact T. }
    clear - Tn Hn. revert names Hn. induction Tn as [|n l Tn F IH]; intros [|m names] Hn; cbn [map] in Hn; try discriminate Hn; [split; [reflexivity|constructor]|].
    injection Hn as Hm Hn. destruct (IH _ Hn) as [A B]. cbn [map]. pose proof (to16_units n m Tn Hm) as Et. split; [rewrite A, Et; reflexivity|].
    constructor; [|exact B]. rewrite <- Et. apply to16_typed. exact Tn. }
  destruct En as [En Tn]. 
  assert (N : ~ In T_BOUNDSHEET sst_types_all) by not_in. pose proof (view_global_pay _ _ _ _ V globals T_BOUNDSHEET Hg N) as Pay.
  rewrite pay_globals_cat in Pay by exact N. picks Pay. cbn [app] in Pay. rewrite app_nil_r, En in Pay.
  assert (Ls : length (dstarts w) = length names).
  { unfold dstarts, dg, dac. rewrite starts_len, (mn_len _ _ M). apply (f_equal (@length _)) in Hn. rewrite !map_length in Hn. exact Hn. }
  split; [exact Ls|].
  assert (Jc : forall pn, In pn (combine (dstarts w) names) -> u32 (fst pn) /\ Forall u16 (snd pn) /\ zlen (snd pn) <= 255).
  { intros [p n] J. pose proof (in_combine_l _ _ _ _ J) as J1. pose proof (in_combine_r _ _ _ _ J) as J2. rewrite Forall_forall in Hl, Tn. cbn [fst snd].
    split; [|auto]. apply In_nth_error in J1. destruct J1 as [k J1]. destruct (stream_from w I2 L k p J1) as (A & B & _).
    rewrite <- (vw_stream _ _ _ _ V) in B. unfold u32. lia. }
  unfold read_boundsheets. rewrite Pay.
  - apply traverse_map. intros pn J. destruct (Jc pn J) as (A & B & C). apply entry_read; auto.
  - apply Forall_map, Forall_forall. intros pn J. destruct (Jc pn J) as (_ & _ & C). unfold bs_payload. rewrite !zlen_app, zlen_le32, zlen_le16.
      pose proof (ustr_le (snd pn) LEN1). lia.
Qed.
(** Within the limits (in particular when no record has to be continued), a stream below 4 GB
    has one sheet entry for every sheet created, in order, with the sheet's name, each marked as a
    visible worksheet (flags 0), and the k-th entry's position is where the substream of the k-th sheet begins. *)
Theorem C17_sheet_directory_partial R moves calls stream globals names : saved_ok R moves calls stream -> R <= 32819 ->
  globals_in stream globals -> zlen stream < 4294967296 ->
  map units (sheet_names calls) = map Some names -> Forall (fun n => zlen n <= 255) names ->
  exists entries, read_boundsheets globals = Some entries /\ map se_name entries = names
    /\ forall k e, nth_error entries k = Some e -> sheet_begins stream k (se_pos e) /\ se_flags e = 0.
Proof.
  intros H HR Hg Hz Hn Hl. destruct (saved_view _ _ _ _ H) as [w V]. destruct (view_entries _ _ _ _ _ _ V HR Hg Hz Hn Hl) as [Ls Er]. pose proof (mn_inv _ _ (vw_means _ _ _ _ V)) as I2.
  pose proof (vw_limits _ _ _ _ V) as L. rewrite Bof_small in L by (pose proof (vw_rows _ _ _ _ V); lia).
  eexists. split; [exact Er|]. split.
  - rewrite map_map. cbn [se_name]. clear - Ls. revert Ls. generalize (dstarts w). induction names as [|n l IH]; intros [|p ps] E; try discriminate E; [reflexivity|].
    injection E as E. cbn [combine map snd]. rewrite (IH _ E). reflexivity.
  - intros k e J. rewrite nth_error_map in J. destruct (nth_error (combine (dstarts w) names) k) as [[p n]|] eqn:Ec; [|discriminate J]. 
    apply some_inj in J. subst e. cbn [se_pos fst].
    assert (Ep : nth_error (dstarts w) k = Some p).
    { clear - Ec. revert names k Ec. induction (dstarts w) as [|a l IH]; intros [|b m] [|k] Ec; cbn in *; try discriminate Ec; [apply some_inj in Ec; congruence|eapply IH; exact Ec]. }
    split; [|reflexivity]. rewrite (vw_stream _ _ _ _ V). apply starts_begin; auto.
Qed.
Print Assumptions C17_sheet_directory_partial.
Example C17_case moves : exists stream, saved_ok 40 moves demo stream /\ map units (sheet_names demo) = map Some [[65]; [1041; 66]].
Proof. destruct (demo_saved moves) as [stream H]. exists stream. split; [exact H|reflexivity]. Qed.

(** Saving by evaluation, for counterexamples. *)
Definition stream_of (fuel : nat) (calls : list call) : option (list Z) :=
  match document calls with
  | Ok w => match book_units fuel (fun _ _ => false) (wb_book w) with
            | Some (Ok (units, _)) => Some (concat units)
            | _ => None
            end
  | _ => None
  end.
Lemma stream_of_saved fuel calls stream : stream_of fuel calls = Some stream -> saved (fun _ _ => false) calls stream.
Proof.
  unfold stream_of. intro H. destruct (document calls) as [w| |] eqn:D; try discriminate H.
  destruct (book_units fuel _ (wb_book w)) as [[[us after]| |]|] eqn:E; try discriminate H. apply some_inj in H.
  exists w, after. split; [exact D|]. exists fuel, us. auto.
Qed.
(** When a record has to be continued, the positions of the sheets after it are too small:
    here the second sheet's entry points into the first sheet, at its EOF record. *)
Definition long_link : list call :=
  [KSheet (TChar [65]); KSheet (TChar [66]); KCell 0 0 0 (UInt 1) None; KCell 1 0 0 (UInt 1) None;
   KHyperlink 0 0 0 (TChar (repeat 97 (Z.to_nat 4100))) (TChar [])].
Lemma long_typed : Forall typed long_link.
Proof.
  assert (A : forall n, Forall (fun x => 0 <= x < 256) (repeat 97 n)) by (intro n; apply Forall_forall; intros x J; apply repeat_spec in J; lia).
  specialize (A (Z.to_nat 4100)). unfold long_link. generalize dependent (repeat 97 (Z.to_nat 4100)). intros l A.
  repeat (apply Forall_cons; [cbn [typed text_typed val_typed]; unfold u8, u16, u32; repeat split; try lia; try exact A; try (apply Forall_cons; [lia|apply Forall_nil])|]); try apply Forall_nil.
Qed.
Theorem C17_sheet_directory_refuted : exists calls stream globals entries e, Forall typed calls /\ saved (fun _ _ => false) calls stream
  /\ globals_in stream globals /\ read_boundsheets globals = Some entries /\ nth_error entries 1 = Some e
  /\ ~ sheet_begins stream 1 (se_pos e) /\ fld 2 stream (Z.to_nat (se_pos e)) = Some T_EOF.
Proof.
  assert (K : match stream_of 400 long_link with
              | Some s => match substream s 0 with
                          | Some (kd, g) => match read_boundsheets g with
                                            | Some [_; e] => (kd =? K_GLOBALS) && (match fld 2 s (Z.to_nat (se_pos e)) with Some t => t =? T_EOF | None => false end)
                                               && match records (skipn (Z.to_nat (se_pos e)) s) with Some b => match substreams (length b) b with Some _ => false | None => true end | None => true end
                                            | _ => false end
                          | None => false end
              | None => false end%bool = true) by (vm_compute; reflexivity).
  destruct (stream_of 400 long_link) as [s|] eqn:Es; [|discriminate K]. destruct (substream s 0) as [[kd g]|] eqn:Eg; [|discriminate K].
  destruct (read_boundsheets g) as [[|e0 [|e [|]]]|] eqn:Er; try discriminate K. apply andb_prop in K. destruct K as [K K3]. apply andb_prop in K. destruct K as [K1 K2].
  exists long_link, s, g, [e0; e], e. split.
  { exact long_typed. }
  split; [apply (stream_of_saved _ _ _ Es)|]. split; [unfold globals_in; rewrite Eg; do 2 f_equal; lia|]. split; [exact Er|]. split; [reflexivity|]. split.
  - intros (a & b & la & lb & body & _ & _ & _ & R & S & _). rewrite R, S in K3. discriminate K3.
  - destruct (fld 2 s (Z.to_nat (se_pos e))) as [t|]; [|discriminate K2]. f_equal. lia.
Qed.
Print Assumptions C17_sheet_directory_refuted.

(* ------------------------------------------------------------------ *)
(** * C05: framing *)

Definition framed (u : list Z) : Prop := exists rs, u = frame_all rs /\ Forall rec_fits rs.
Lemma framed_one t p : 0 <= t < 65536 -> zlen p <= 8224 -> framed (frame t p).
Proof. intros A B. exists [(t, p)]. split; [symmetry; apply frame_all_one|]. repeat constructor; cbn; lia. Qed.
Lemma expand_framed us rss : Forall2 uok us rss -> Forall framed (flat_map expand us).
Proof.
  induction 1 as [|u rs us rss (E & T & O & C) F IH]; [constructor|]. cbn [flat_map]. apply Forall_app. split; [|exact IH].
  unfold is_unit in E. unfold expand. destruct (oversized u) eqn:Eo.
  - destruct (O eq_refl) as (t & p & ->). rewrite frame_all_one in E. unfold oversized in Eo. apply andb_prop in Eo.
    destruct Eo as [_ Eo]. unfold bu_size in Eo. rewrite E, frame_length in Eo. rewrite E, clip_frame by lia.
    constructor; [apply framed_one; [apply (Forall_inv T)|rewrite firstn_M; lia]|].
    unfold continues. apply Forall_map. eapply Forall_impl; [|apply pieces_fit]. intros q Q. apply framed_one; [unfold RT_CONTINUE; lia|exact Q].
  - constructor; [|constructor]. exists rs. split; [exact E|]. unfold oversized in Eo. destruct (bu_cont u); [auto|]. cbn [negb andb] in Eo. unfold bu_size in Eo. rewrite E in Eo.
    apply Forall_forall. intros r J. rewrite Forall_forall in T. split; [auto|]. apply frame_all_le in J. lia.
Qed.
Lemma bs_framed ps names : Forall (fun n : list Z => zlen n <= 4108) names -> Forall framed (bs_bytes ps names).
Proof.
  intro H. unfold bs_bytes. revert ps. induction H as [|n names Hn H IH]; intros [|p ps]; cbn [combine map]; constructor; auto. cbn [fst snd].
  destruct (bs_frames [p] [n]) as [A B]; [constructor; auto|]. exists (bs_recs [p] [n]). split; [|exact B]. rewrite <- A. cbn. rewrite app_nil_r. reflexivity.
Qed.
Lemma store_framed B w : winv2 w -> limits B w -> Forall framed (store_of w).
Proof.
  intros I L. destruct (limits_ok B (li_B _ _ L) w I L) as (Bk & F & _). cbv zeta in Bk. destruct Bk as [Bg Bn Bl Bne Bc Bs Bz].
  unfold store_of, book_store. apply Forall_app. split; [|apply Forall_app; split; [|apply Forall_app; split]].
  - eapply expand_framed. apply ghead_uok.
  - apply bs_framed. unfold names_of. apply Forall_map. exact Bn.
  - eapply expand_framed. apply gtail_uok. apply Bg.
  - change (bk_sheets (wb_book w)) with (wb_sheets w) in Bs. clear - Bs F. generalize dependent (g_size (bk_g (wb_book w))). revert Bs F. induction (wb_sheets w) as [|s t IH]; intros Bs F pos; cbn [sheets_units]; [constructor|].
    cbv zeta. rewrite flat_map_app. apply Forall_app.
    split; [eapply expand_framed; apply sheet_uok; [exact (Forall_inv Bs)|exact (Forall_inv F)]|apply IH; [exact (Forall_inv_tail Bs)|exact (Forall_inv_tail F)]].
Qed.
(** Every unit the library puts into the stream consists of complete records, none above
    8224 bytes, and the reader that knows only the framing splits the whole stream into
    exactly these, in order. *)
Theorem C05_records_framed_partial R moves calls w fuel units after : saved_ok R moves calls (concat units) ->
  document calls = Ok w -> book_units fuel moves (wb_book w) = Some (Ok (units, after)) ->
  exists parts, map records units = map Some parts /\ records (concat units) = Some (concat parts)
    /\ Forall (fun r => zlen (snd r) <= 8224) (concat parts).
Proof.
  intros H D Sv. destruct H as [HR T F C _]. pose proof (run_means calls w T D) as M. pose proof (doc_limits R calls w HR T F D) as L. fold (Bof R) in L.
  pose proof (mn_inv _ _ M) as I. destruct (limits_ok (Bof R) (li_B _ _ L) w I L) as (Bk & _ & _). cbv zeta in Bk.
  destruct (book_units_ok moves (wb_book w) Bk (calm_stable R moves w HR C I L)) as (f0 & E). specialize (E (Nat.max f0 fuel) ltac:(lia)).
  rewrite (book_units_more _ _ fuel (Nat.max f0 fuel) _ Sv ltac:(lia)) in E. apply some_inj in E. apply ApiInv.ok_inj in E.
  assert (Eu : units = store_of w) by exact (f_equal fst E). rewrite Eu. pose proof (store_framed _ _ I L) as Fr. clear - Fr.
  induction Fr as [|u us (rs & -> & Fu) Fr (parts & A & B & Z)].
  - exists []. repeat split. constructor.
  - exists (rs :: parts). cbn [map concat]. rewrite records_frame_all by exact Fu. rewrite A. split; [reflexivity|].
    assert (G : exists all, concat us = frame_all all /\ Forall rec_fits all).
    { clear - Fr. induction Fr as [|v us (rs & -> & Fv) Fr (all & E & G)]; [exists []; split; [reflexivity|constructor]|].
      exists (rs ++ all). cbn [concat]. rewrite E, frame_all_app. split; [reflexivity|]. apply Forall_app; auto. }
    destruct G as (all & G1 & G2). rewrite G1, records_frame_all in B by exact G2. apply some_inj in B. subst all. rewrite G1, <- frame_all_app.
    split; [apply records_frame_all; apply Forall_app; auto|]. apply Forall_app. split; [|exact Z].
    eapply Forall_impl; [|exact Fu]. intros r (_ & K). exact K.
Qed.
Print Assumptions C05_records_framed_partial.
Example C05_case : exists w fuel units after, document demo = Ok w /\ book_units fuel (fun _ _ => false) (wb_book w) = Some (Ok (units, after))
  /\ saved_ok 40 (fun _ _ => false) demo (concat units).
Proof.
  destruct (demo_saved (fun _ _ => false)) as [stream H]. destruct (so_saved _ _ _ _ H) as (w & after & D & fuel & units & E & ->). exists w, fuel, units, after. auto.
Qed.

(** Beyond the limits: an array formula is one unit of two records.  Here neither exceeds
    8224 bytes (the ARRAY record has 14 + 8190), but together they do; the unit is cut as if
    it were a single record, and the reader finds no ARRAY record. *)
Definition big_array : list call :=
  [KSheet (TChar [65]); KCell 0 0 0 (UFormula true (repeat 21 (Z.to_nat 8190)) 8190 (mkEst 0 2 None)) None].
Lemma big_array_typed : Forall typed big_array.
Proof.
  assert (A : forall n, Forall (fun x => 0 <= x < 256) (repeat 21 n)) by (intro n; apply Forall_forall; intros x J; apply repeat_spec in J; lia).
  specialize (A (Z.to_nat 8190)). unfold big_array. generalize dependent (repeat 21 (Z.to_nat 8190)). intros l A.
  apply Forall_cons; [cbn [typed text_typed]; constructor; [unfold u8; lia|constructor]|]. apply Forall_cons; [|constructor].
  cbn [typed val_typed fe_enc fe_flags fe_str]. unfold u32, u16. repeat split; try lia. exact A.
Qed.
Theorem C05_records_framed_refuted : exists calls stream body toks n est, Forall typed calls /\ saved (fun _ _ => false) calls stream
  /\ cells_of 0 calls 0 0 = Some (UFormula true toks n est) /\ 14 + zlen toks <= 8224
  /\ sheet_in stream 0 body /\ payloads T_ARRAY body = [].
Proof.
  assert (K : match stream_of 400 big_array with
              | Some s => match substream s 1 with Some (kd, b) => (kd =? K_SHEET) && match payloads T_ARRAY b with [] => true | _ => false end | None => false end
              | None => false end%bool = true) by (vm_compute; reflexivity).
  destruct (stream_of 400 big_array) as [s|] eqn:Es; [|discriminate K]. destruct (substream s 1) as [[kd b]|] eqn:Eg; [|discriminate K].
  apply andb_prop in K. destruct K as [K1 K2]. exists big_array, s, b, (repeat 21 (Z.to_nat 8190)), 8190, (mkEst 0 2 None).
  split; [exact big_array_typed|]. split; [apply (stream_of_saved _ _ _ Es)|]. split; [reflexivity|].
  split; [unfold zlen; rewrite repeat_length; lia|]. split; [unfold sheet_in; rewrite Eg; do 2 f_equal; lia|]. destruct (payloads T_ARRAY b); [reflexivity|discriminate K2].
Qed.
Print Assumptions C05_records_framed_refuted.
