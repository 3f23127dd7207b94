(** C15, C16 and C23: row records, row blocks and row heights of a saved sheet. *)
From Coq Require Import ZArith List Bool Lia ZifyBool ZifyNat Sorting.Sorted.
From Verif Require Import Bytes UnitModel UnitProofs SpecBuf RecModel SheetModel XfModel WbModel XfInv ApiModel SpecBiff BookRecs ApiInv SpecApi ApiEff
  RecFrames RecProofs SheetProofs SheetTrace GlobTrace WbProofs SaveOk SaveRecs SaveRead SpecSaved FsBound Lookups SaveMeans DocLimits SavedView DemoDoc
  SpecSheet ViewPay RowBlocks PropsSheet.
Import ListNotations.
Local Open Scope Z_scope.

(* ------------------------------------------------------------------ *)
(** * The row blocks among the records *)

Local Ltac fl := repeat apply Forall_cons; try apply Forall_nil.
Local Ltac fm := apply Forall_map; apply Forall_forall.
Definition outer_types : list Z :=
  [RT_INDEX; RT_DEFAULTROWHEIGHT; RT_COLINFO; RT_DEFCOLWIDTH; RT_DIMENSIONS; RT_MSODRAWING; RT_OBJ; RT_TXO; RT_CONTINUE; RT_NOTE;
   RT_MERGEDCELLS; RT_WINDOW2; RT_PANE; RT_HLINK; RT_DVAL; RT_DV].
Lemma head_outer pos s : Forall (has_types outer_types) (head_in pos s).
Proof. unfold head_in. repeat (apply Forall_app; split); try hm; hgl. Qed.
Lemma tail_outer ac s : Forall (has_types outer_types) (tail_in ac s).
Proof.
  unfold tail_in. repeat (apply Forall_app; split); try hm; try hgl.
  - eapply Forall_impl; [|apply drawings_types]. intros rs. apply ht_weaken. intros t. cbn. tauto.
  - destruct (_ && _)%bool; hgl.
  - destruct (sh_dvs s); [constructor|]. apply Forall_cons; [hone|]. hm.
Qed.
Lemma view_blocks2 R calls stream w k body : view R calls stream w -> sheet_in stream k body ->
  exists s p bl, nth_error (wb_sheets w) k = Some s /\ nth_error (dstarts w) k = Some p /\ sheet_inv s /\ meaning k calls s
    /\ sheet_blocks s = Some bl /\ body = flat_map rx (head_in (p + 20) s) ++ concat (flat_map (block_recs (wb_labels w)) bl) ++ flat_map rx (tail_in (dac w) s)
    /\ Forall (fun c => 0 <= c_row c <= 65535 /\ 0 <= c_col c <= 255) (sh_cells s).
Proof.
  intros V H. destruct (view_sheet _ _ _ _ V k body H) as (s & p & Es & Ep & Is & Me & Ls & -> & _).
  pose proof (mn_inv _ _ (vw_means _ _ _ _ V)) as I2. pose proof (nth_sheet_in _ _ _ Es) as J. pose proof (vw_rows _ _ _ _ V) as HR.
  assert (Pl : Forall (fun c => 0 <= c_row c <= 65535 /\ 0 <= c_col c <= 255) (sh_cells s)).
  { apply Forall_forall. intros c Jc. destruct (doc_cell R calls w (vw_typed _ _ _ _ V) (vw_fits _ _ _ _ V) (vw_doc _ _ _ _ V) k s c Es Jc) as (u & id & _ & _ & P1 & P2 & _). lia. }
  assert (Hb : sheet_blocks s <> None).
  { pose proof (sheets_limits (Bof R) (li_B _ _ (vw_limits _ _ _ _ V)) w I2 (vw_limits _ _ _ _ V)) as Q. rewrite Forall_forall in Q. destruct (Q s J) as (O & _). apply O. }
  destruct (sheet_blocks s) as [bl|] eqn:Eb; [|congruence].
  exists s, p, bl. repeat (split; [assumption||reflexivity|]). split; [|exact Pl].
  { unfold inner, body_recs. rewrite Eb, !flat_map_app. do 2 f_equal. apply rx_all.
    pose proof (doc_small R calls w (vw_typed _ _ _ _ V) (vw_fits _ _ _ _ V) (vw_doc _ _ _ _ V)) as Sm. unfold small_vals in Sm. rewrite Forall_forall in Sm.
    specialize (Sm s J). rewrite Forall_forall in Sm. unfold sheet_blocks in Eb. pose proof (blocks_cells _ _ _ _ Eb) as Bc.
    assert (Bn : Forall (fun b => zlen (k_cells b) <= 16 * 256 + 1 /\ (length (k_rows b) <= 16)%nat) bl).
    { eapply blocks_count; [lia|apply Is| |exact Eb]. eapply Forall_impl; [|exact Pl]. cbv beta. intros; lia. }
    apply Forall_flat_map. apply Forall_forall. intros b Jb. rewrite Forall_forall in Bn. specialize (Bn b Jb).
    unfold block_recs. apply Forall_app. split; [|apply Forall_app; split].
    + fm. intros r _. rewrite rsz_one. unfold row_bytes. rewrite !zlen_app, !zlen_le16. lia.
    + fm. intros c K. apply cell_size_le; [lia|]. apply Sm. rewrite <- Bc. eapply flat_map_In; eauto.
    + fl. rewrite rsz_one. unfold dbcell_bytes, offs16. rewrite zlen_app, zlen_le32, (flat_len _ 2) by reflexivity. rewrite zlen_cons, zlen_map.
      assert (zlen (tl (k_cells b)) <= Z.max 0 (zlen (k_cells b) - 1)) by (destruct (k_cells b); cbn [tl]; [rewrite zlen_nil; lia|rewrite zlen_cons; lia]). lia. }
Qed.
Lemma view_blocks R calls stream w k body : view R calls stream w -> sheet_in stream k body ->
  exists s p bl a b, nth_error (wb_sheets w) k = Some s /\ nth_error (dstarts w) k = Some p /\ sheet_inv s /\ meaning k calls s
    /\ sheet_blocks s = Some bl /\ body = a ++ concat (flat_map (block_recs (wb_labels w)) bl) ++ b
    /\ has_types outer_types a /\ has_types outer_types b
    /\ Forall (fun c => 0 <= c_row c <= 65535 /\ 0 <= c_col c <= 255) (sh_cells s).
Proof.
  intros V H. destruct (view_blocks2 _ _ _ _ _ _ V H) as (s & p & bl & A & B & C & D & E & F & G).
  exists s, p, bl, (flat_map rx (head_in (p + 20) s)), (flat_map rx (tail_in (dac w) s)). do 6 (split; [assumption|]).
  split; [|split; [|exact G]]; (apply ht_rx; [hin|]); [apply head_outer|apply tail_outer].
Qed.

(** Cutting at DBCELL. *)
Definition calm_recs (rs : list brec) : Prop := Forall (fun r : brec => fst r <> T_DBCELL) rs.
Lemma groups_some rs : row_groups rs <> [].
Proof. induction rs as [|r t IH]; [discriminate|]. cbn [row_groups]. destruct (fst r =? T_DBCELL); [discriminate|]. destruct (row_groups t); [congruence|discriminate]. Qed.
Lemma groups_pre a : calm_recs a -> forall rs g gs, row_groups rs = g :: gs -> row_groups (a ++ rs) = (a ++ g) :: gs.
Proof.
  induction 1 as [|r a H F IH]; intros rs g gs E; [exact E|]. cbn [app row_groups]. replace (fst r =? T_DBCELL) with false by lia.
  rewrite (IH _ _ _ E). reflexivity.
Qed.
Lemma groups_calm a : calm_recs a -> row_groups a = [a].
Proof. intro H. rewrite <- (app_nil_r a) at 1. rewrite (groups_pre a H [] [] []) by reflexivity. rewrite app_nil_r. reflexivity. Qed.
Lemma types_calm ts rs : has_types ts rs -> ~ In T_DBCELL ts -> calm_recs rs.
Proof. intros H N. eapply Forall_impl; [|exact H]. intros r J E. apply N. rewrite <- E. exact J. Qed.
Definition block_front (ls : labels) (b : block) : list brec :=
  map (fun r => (RT_ROW, row_bytes r)) (k_rows b) ++ concat (map (cell_recs ls) (k_cells b)).
Lemma block_recs_front ls b : concat (block_recs ls b) = block_front ls b ++ [(RT_DBCELL, dbcell_bytes ls b)].
Proof.
  unfold block_recs, block_front. rewrite !concat_app, <- app_assoc. cbn [concat app]. f_equal.
  induction (k_rows b) as [|r l IH]; [reflexivity|]. cbn [map concat app]. rewrite IH. reflexivity.
Qed.
Lemma front_calm ls b : calm_recs (block_front ls b).
Proof.
  apply Forall_app. split.
  - apply Forall_map, Forall_forall. intros x _. discriminate.
  - eapply types_calm.
    + apply ht_concat. apply Forall_map. apply Forall_forall. intros c _. apply cell_types.
    + not_in.
Qed.
Lemma groups_blocks ls b : calm_recs b -> forall bl,
  row_groups (concat (flat_map (block_recs ls) bl) ++ b) = map (block_front ls) bl ++ [b].
Proof.
  intros Hb. induction bl as [|x bl IH]; [apply groups_calm; exact Hb|]. cbn [flat_map map app]. rewrite concat_app, block_recs_front, <- !app_assoc.
  etransitivity; [apply groups_pre; [apply front_calm|]|].
  - cbn [app row_groups fst]. change (RT_DBCELL =? T_DBCELL) with true. cbv iota. rewrite IH. reflexivity.
  - rewrite app_nil_r. reflexivity.
Qed.
Lemma groups_body ls a b bl j g : calm_recs a -> calm_recs b -> nth_error (row_groups (a ++ concat (flat_map (block_recs ls) bl) ++ b)) j = Some g ->
  match nth_error bl j with
  | Some x => exists h, (h = a \/ h = []) /\ g = h ++ block_front ls x
  | None => exists h, (h = a \/ h = []) /\ g = h ++ b
  end.
Proof.
  intros Ha Hb E. pose proof (groups_blocks ls b Hb bl) as G. destruct bl as [|x bl].
  - cbn [map app] in G. rewrite (groups_pre _ Ha _ _ _ G) in E. destruct j as [|[|]]; [|discriminate E|discriminate E]. injection E as <-. cbn. exists a. auto.
  - cbn [map app] in G. rewrite (groups_pre _ Ha _ _ _ G) in E. destruct j as [|j].
    + injection E as <-. cbn [nth_error]. exists a. auto.
    + cbn [nth_error] in *. destruct (nth_error bl j) as [y|] eqn:Ey.
      * rewrite nth_error_app1 in E by (rewrite map_length; apply nth_error_Some; congruence). rewrite nth_error_map, Ey in E. injection E as <-.
        exists []. auto.
      * apply nth_error_None in Ey. rewrite nth_error_app2 in E by (rewrite map_length; exact Ey). destruct (j - _)%nat as [|[|]]; [|discriminate E|discriminate E].
        injection E as <-. exists []. auto.
Qed.
Lemma groups_count ls a b bl : calm_recs a -> calm_recs b -> length (row_groups (a ++ concat (flat_map (block_recs ls) bl) ++ b)) = S (length bl).
Proof.
  intros Ha Hb. pose proof (groups_blocks ls b Hb bl) as G. destruct (map (block_front ls) bl ++ [b]) as [|g gs] eqn:E; [destruct bl; discriminate E|].
  rewrite (groups_pre _ Ha _ _ _ G). cbn [length]. apply (f_equal (@length _)) in E. rewrite app_length, map_length in E. cbn [length] in E. lia.
Qed.

(* ------------------------------------------------------------------ *)
(** * Row records *)

Definition row_as (x : rowspec) : rrow :=
  mkRR (r_row x) (r_fc x) (r_lc x + 1) (r_h x) (if r_h x =? 264 then 128 else 192) (match r_xf x with Some p => p mod 65536 | None => 15 end).
Lemma row_read x : u16 (r_row x) -> u16 (r_fc x) -> u16 (r_lc x + 1) -> u16 (r_h x) -> read_row (row_bytes x) = Some (row_as x).
Proof.
  intros A B C D. unfold read_row, row_bytes. rewrite !zlen_app, !zlen_le16. change (2 + (2 + (2 + (2 + (2 + (2 + (2 + 2)))))) =? 16) with true. cbv iota.
  set (i := match r_xf x with Some i => i | None => 15 end). set (f := if r_h x =? 264 then 128 else 192).
  set (P := le16 (r_row x) ++ le16 (r_fc x) ++ le16 (r_lc x + 1) ++ le16 (r_h x) ++ le16 0 ++ le16 0 ++ le16 f ++ le16 i).
  assert (E0 : fld 2 P 0 = Some (r_row x)).
  { etransitivity; [apply (fld16 [] (r_row x)); reflexivity|]. rewrite Z.mod_small by exact A. reflexivity. }
  assert (E1 : fld 2 P 2 = Some (r_fc x)).
  { unfold P. rewrite (fld16 (le16 (r_row x))) by reflexivity. rewrite Z.mod_small by exact B. reflexivity. }
  assert (E2 : fld 2 P 4 = Some (r_lc x + 1)).
  { unfold P. rewrite app_assoc, fld16 by reflexivity. rewrite Z.mod_small by exact C. reflexivity. }
  assert (E3 : fld 2 P 6 = Some (r_h x)).
  { unfold P. rewrite 2 app_assoc, fld16 by reflexivity. rewrite Z.mod_small by exact D. reflexivity. }
  assert (E4 : fld 2 P 12 = Some (f mod 65536)).
  { unfold P. rewrite 5 app_assoc, fld16 by reflexivity. reflexivity. }
  assert (E5 : fld 2 P 14 = Some (i mod 65536)).
  { unfold P. rewrite 6 app_assoc. rewrite <- (app_nil_r (le16 i)), fld16 by reflexivity. reflexivity. }
  rewrite E0, E1, E2, E3, E4, E5. unfold row_as, f, i. destruct (r_h x =? 264), (r_xf x); reflexivity.
Qed.

(** First and last column of a row. *)
Lemma min_col_spec l : forall m, let v := fold_left (fun m c => Z.min m (c_col c)) l m in
  (v = m \/ exists c, In c l /\ c_col c = v) /\ v <= m /\ forall c, In c l -> v <= c_col c.
Proof.
  induction l as [|x l IH]; intro m; cbn [fold_left]; [repeat split; auto; [lia|intros c []]|].
  destruct (IH (Z.min m (c_col x))) as (A & B & C). repeat split.
  - destruct A as [A|(c & J & A)]; [|right; exists c; split; [right; exact J|exact A]]. rewrite A. destruct (Z.min_spec m (c_col x)) as [[_ ->]|[_ ->]]; [left; reflexivity|right].
    exists x. split; [left; reflexivity|reflexivity].
  - lia.
  - intros c [<-|J]; [lia|]. apply C. exact J.
Qed.
Lemma max_col_spec l : forall m, let v := fold_left (fun m c => Z.max m (c_col c)) l m in
  (v = m \/ exists c, In c l /\ c_col c = v) /\ m <= v /\ forall c, In c l -> c_col c <= v.
Proof.
  induction l as [|x l IH]; intro m; cbn [fold_left]; [repeat split; auto; [lia|intros c []]|].
  destruct (IH (Z.max m (c_col x))) as (A & B & C). repeat split.
  - destruct A as [A|(c & J & A)]; [|right; exists c; split; [right; exact J|exact A]]. rewrite A. destruct (Z.max_spec m (c_col x)) as [[_ ->]|[_ ->]]; [right|left; reflexivity].
    exists x. split; [left; reflexivity|reflexivity].
  - lia.
  - intros c [<-|J]; [lia|]. apply C. exact J.
Qed.
Lemma cols_of_spec l fc lc : (fc, lc) = cols_of l -> Forall (fun c => 0 <= c_col c <= 255) l ->
  0 <= fc <= 255 /\ 0 <= lc <= 255 /\
  (l <> [] -> (exists c, In c l /\ c_col c = fc) /\ (exists c, In c l /\ c_col c = lc) /\ forall c, In c l -> fc <= c_col c <= lc).
Proof.
  intros E F. unfold cols_of in E. destruct (min_col_spec l 4294967295) as (A & B & C). destruct (max_col_spec l 0) as (A' & B' & C').
  fold (min_col l) in A, B, C. fold (max_col l) in A', B', C'.
  destruct l as [|x l]. { cbn in E. injection E as -> ->. repeat split; try lia; congruence. }
  rewrite Forall_forall in F. pose proof (C x (or_introl eq_refl)). pose proof (C' x (or_introl eq_refl)). pose proof (F x (or_introl eq_refl)).
  replace (max_col (x :: l) <? min_col (x :: l)) with false in E by lia. apply pair_equal_spec in E. destruct E as [-> ->].
  assert (A2 : exists c, In c (x :: l) /\ c_col c = min_col (x :: l)) by (destruct A as [A|A]; [lia|exact A]).
  assert (A3 : exists c, In c (x :: l) /\ c_col c = max_col (x :: l)).
  { destruct A' as [A'|A']; [|exact A']. exists x. split; [left; reflexivity|]. lia. }
  destruct A2 as (c2 & J2 & E2). destruct A3 as (c3 & J3 & E3). pose proof (F c2 J2). pose proof (F c3 J3).
  split; [lia|]. split; [lia|]. intros _. split; [exists c2; auto|]. split; [exists c3; auto|]. intros c J. split; auto.
Qed.
Lemma in_row_iff r l c : In c (in_row r l) <-> In c l /\ c_row c = r.
Proof. unfold in_row. rewrite filter_In. split; intros [A B]; split; auto; lia. Qed.

Section Sheet.
Variables (R : Z) (calls : list call) (k : nat) (s : sheet).
Hypothesis T : Forall typed calls.
Hypothesis F : Forall (call_fits R) calls.
Hypothesis Is : sheet_inv s.
Hypothesis Me : meaning k calls s.
Hypothesis Pl : Forall (fun c => 0 <= c_row c <= 65535 /\ 0 <= c_col c <= 255) (sh_cells s).

Lemma has_cell_in r c : has_cell k calls r c <-> exists x, In x (sh_cells s) /\ c_row x = r /\ c_col x = c.
Proof.
  unfold has_cell. split.
  - intro H. pose proof (me_vals _ _ _ Me r c) as V. unfold fv in V. destruct (find_cell s r c) as [x|] eqn:E.
    + apply find_cell_in in E. exists x. exact E.
    + cbn [option_map vm] in V. destruct (cells_of k calls r c); [destruct V|congruence].
  - intros (x & J & <- & <-). destruct (cell_meaning k calls s x Is Me J) as (u & id & E & _). congruence.
Qed.
Lemma height_in r h p : height_of k calls r = Some (h, p) <-> exists x, In x (sh_heights s) /\ rh_row x = r /\ rh_height x = h /\ rh_xf x = p.
Proof.
  rewrite (me_heights _ _ _ Me). split.
  - intro H. exists (mkRH r h p). split; [|auto]. apply heights_iff. exact H.
  - intros (x & J & <- & <- & <-). apply heights_iff in J. exact J.
Qed.
Lemma height_typed r h p : height_of k calls r = Some (h, p) -> 0 <= r <= 65535 /\ u16 h.
Proof.
  unfold height_of. enough (G : forall o, (forall w p, o = Some (w, p) -> 0 <= r <= 65535 /\ u16 w) -> fold_left (height_step k r) calls o = Some (h, p) -> 0 <= r <= 65535 /\ u16 h).
  { apply G. discriminate. }
  clear Me. revert F. induction T as [|q cs Tq T' IH]; intros F' o Ho; [apply Ho|]. inversion F' as [|? ? Fq Fs]; subst. cbn [fold_left]. apply IH; [exact T'|exact Fs|].
  destruct q; cbn [height_step]; auto. destruct (_ && _)%bool eqn:E; auto. intros w2 p2 K. injection K as <- <-. cbn [typed call_fits] in *. unfold u32 in *.
  split; [lia|apply Tq].
Qed.
Lemma at_row_height r : height_spec (at_row r (sh_heights s)) = match height_of k calls r with Some (h, p) => (h, p) | None => (264, None) end.
Proof.
  destruct (at_row r (sh_heights s)) as [x|] eqn:E.
  - unfold at_row in E. apply find_some in E. destruct E as [J E]. assert (Q : height_of k calls r = Some (rh_height x, rh_xf x)) by (apply height_in; exists x; repeat split; auto; lia).
    rewrite Q. reflexivity.
  - destruct (height_of k calls r) as [[h p]|] eqn:Q; [|reflexivity]. apply height_in in Q. destruct Q as (x & J & Er & _). unfold at_row in E.
    pose proof (find_none _ _ E x J) as N. cbv beta in N. lia.
Qed.
Lemma good_says x : row_good (sh_cells s) (sh_heights s) x -> 0 <= r_row x <= 65535 -> read_row (row_bytes x) = Some (row_as x) /\ row_says k calls (row_as x).
Proof.
  intros [G1 G2] Hr. rewrite at_row_height in G2.
  assert (Fl : Forall (fun c => 0 <= c_col c <= 255) (in_row (r_row x) (sh_cells s))).
  { apply Forall_forall. intros c J. apply in_row_iff in J. rewrite Forall_forall in Pl. apply Pl. apply J. }
  destruct (cols_of_spec _ _ _ G1 Fl) as (A & B & C).
  assert (Hh : u16 (r_h x)).
  { destruct (height_of k calls (r_row x)) as [[h p]|] eqn:E; apply pair_equal_spec in G2; destruct G2 as [-> _]; [apply height_typed in E; apply E|unfold u16; lia]. }
  split; [apply row_read; unfold u16 in *; lia|]. constructor; cbn [row_as rr_row rr_col0 rr_col1 rr_height rr_flags rr_xf].
  - intros (c & H). apply has_cell_in in H. destruct H as (y & J & Er & Ec).
    assert (NE : in_row (r_row x) (sh_cells s) <> []).
    { intro Z. assert (K : In y (in_row (r_row x) (sh_cells s))) by (apply in_row_iff; auto). rewrite Z in K. exact K. }
    destruct (C NE) as ((c1 & J1 & E1) & (c2 & J2 & E2) & Q). apply in_row_iff in J1, J2. split; [|split].
    + apply has_cell_in. exists c1. tauto.
    + apply has_cell_in. exists c2. replace (r_lc x + 1 - 1) with (r_lc x) by lia. tauto.
    + intros c' H'. apply has_cell_in in H'. destruct H' as (z & Jz & Ez & <-). specialize (Q z). rewrite in_row_iff in Q. specialize (Q (conj Jz Ez)). lia.
  - destruct (height_of k calls (r_row x)) as [[h p]|]; apply pair_equal_spec in G2; apply G2.
  - intro N. replace (r_h x =? 264) with false by lia. reflexivity.
  - destruct (r_h x =? 264); reflexivity.
  - destruct (r_h x =? 264); reflexivity.
  - destruct (height_of k calls (r_row x)) as [[h p]|]; apply pair_equal_spec in G2; destruct G2 as [_ ->]; [destruct p; reflexivity|reflexivity].
Qed.
Lemma tidy_blocks : tidy k calls -> paired (sh_cells s) \/ few (sh_cells s) (sh_heights s).
Proof.
  intros [(r & c1 & c2 & N & H1 & H2 & L)|(rows & L & H)]; [left|right].
  - apply has_cell_in in H1, H2. destruct H1 as (x1 & J1 & R1 & C1). destruct H2 as (x2 & J2 & R2 & C2).
    pose proof (si_cells _ Is) as So. right.
    assert (Q : forall l, (exists pre, sh_cells s = pre ++ l) -> In x1 l -> In x2 l -> exists a x y, l = a ++ [x; y] /\ c_row x = c_row y).
    { induction l as [|u l IH]; intros (pre & E) K1 K2; [destruct K1|].
      assert (El : exists pre, sh_cells s = pre ++ l) by (exists (pre ++ [u]); rewrite <- app_assoc; exact E).
      assert (G : forall v, In v (u :: l) -> c_row v <= r).
      { intros v Jv. apply (L (c_row v) (c_col v)). apply has_cell_in. exists v. rewrite E. split; [apply in_or_app; right; exact Jv|auto]. }
      assert (So' : csorted (u :: l)) by (rewrite E in So; apply ss_app_r in So; exact So). apply csorted_inv in So'. destruct So' as [So' Lt]. pose proof (clt_rows _ _ Lt) as Lr.
      assert (D : (In x1 l /\ In x2 l) \/ (exists z, In z l /\ c_row z = r) /\ c_row u = r).
      { destruct K1 as [->|K1], K2 as [->|K2]; [congruence| | |left; auto].
        - right. split; [exists x2; auto|exact R1].
        - right. split; [exists x1; auto|exact R2]. }
      destruct D as [[D1 D2]|[(z & Jz & Ez) Eu]].
      - destruct (IH El D1 D2) as (a & x & y & -> & Exy). exists (u :: a), x, y. auto.
      - (* all of [u :: l] is in row r *)
        assert (A : Forall (fun v => c_row v = r) (u :: l)).
        { constructor; [exact Eu|]. apply Forall_forall. intros v Jv. rewrite Forall_forall in Lr. specialize (Lr v Jv). specialize (G v (or_intror Jv)). lia. }
        destruct l as [|v l]; [destruct Jz|]. clear - A. 
        assert (W : forall l u v, Forall (fun v => c_row v = r) (u :: v :: l) -> exists a x y, u :: v :: l = a ++ [x; y] /\ c_row x = c_row y).
        { clear. induction l as [|w l IH]; intros u v A.
          - exists [], u, v. split; [reflexivity|]. inversion A as [|? ? A1 A2]; subst. inversion A2; subst. congruence.
          - apply Forall_inv_tail in A. destruct (IH v w A) as (a & x & y & E & Q). exists (u :: a), x, y. rewrite E. auto. }
        apply W. exact A. }
    apply Q; [exists []; reflexivity|exact J1|exact J2].
  - exists rows. split; [exact L|]. split.
    + intros c J. apply H. left. exists (c_col c). apply has_cell_in. exists c. auto.
    + intros h c J Jc Le. apply H. right. split; [|exists (c_row c), (c_col c); split; [exact Le|apply has_cell_in; exists c; auto]]. assert (E : height_of k calls (rh_row h) = Some (rh_height h, rh_xf h)) by (apply height_in; exists h; auto). congruence.
Qed.
End Sheet.

(** The record of a cell begins with its row. *)
Lemma cell_rec_row ls c t p : u16 (c_row c) -> In (t, p) (cell_recs ls c) -> is_cell t = true -> fld 2 p 0 = Some (c_row c).
Proof.
  intros U J C.
  assert (H : forall q, fld 2 (cell_head c ++ q) 0 = Some (c_row c)).
  { intro q. unfold cell_head. rewrite <- !app_assoc. etransitivity; [apply (fld16 [] (c_row c)); reflexivity|]. rewrite Z.mod_small by exact U. reflexivity. }
  assert (H0 : fld 2 (cell_head c) 0 = Some (c_row c)) by (rewrite <- (app_nil_r (cell_head c)); apply H).
  unfold cell_recs in J. destruct (c_val c) as [|bo|er|nn|bi|id u|arr toks fs est]; try (destruct J as [J|[]]; injection J as <- <-; first [exact H0|apply H]).
  - destruct (in_sst u); destruct J as [J|[]]; injection J as <- <-; apply H.
  - unfold fml_recs in J. apply in_app_or in J. destruct J as [J|J].
    + assert (Hf : forall q, fld 2 (fml_head (c_row c) (c_col c) (c_xf c) est ++ q) 0 = Some (c_row c)).
      { intro q. rewrite fml_split. apply H. }
      destruct arr; destruct J as [J|J]; try (injection J as <- <-; apply Hf); [destruct J as [J|[]]; injection J as <- <-; discriminate C|destruct J].
    + destruct (fe_str est); [|destruct J]. destruct J as [J|[]]. injection J as <- <-. discriminate C.
Qed.
Lemma front_row ls b t p : In (t, p) (block_front ls b) -> (t = T_ROW /\ exists x, In x (k_rows b) /\ p = row_bytes x) \/ exists c, In c (k_cells b) /\ In (t, p) (cell_recs ls c).
Proof.
  intro J. unfold block_front in J. apply in_app_or in J. destruct J as [J|J].
  - apply in_map_iff in J. destruct J as (x & E & J). injection E as <- <-. left. split; [reflexivity|]. exists x. auto.
  - apply in_concat in J. destruct J as (l & J & Jl). apply in_map_iff in J. destruct J as (c & <- & J). right. exists c. auto.
Qed.
Lemma nth_flat_unique (bl : list block) x j j' b b' y : rsorted (flat_map k_rows bl) -> nth_error bl j = Some b -> nth_error bl j' = Some b' ->
  In x (k_rows b) -> In y (k_rows b') -> r_row x = r_row y -> j' = j.
Proof.
  revert j j'. induction bl as [|z bl IH]; intros j j' S E E' Jx Jy Q; [destruct j; discriminate E|]. cbn [flat_map] in S.
  assert (Lt : forall u v, In u (k_rows z) -> In v (flat_map k_rows bl) -> r_row u < r_row v).
  { clear - S. induction (k_rows z) as [|a l IH]; intros u v Ju Jv; [destruct Ju|]. cbn [app] in S. inversion S as [|? ? S' Fa]; subst. destruct Ju as [<-|Ju]; [|apply IH; auto].
    rewrite Forall_forall in Fa. apply Fa. apply in_or_app. auto. }
  assert (In' : forall i c v, nth_error bl i = Some c -> In v (k_rows c) -> In v (flat_map k_rows bl)).
  { intros i c v Ec Jv. apply in_flat_map. exists c. split; [apply nth_error_In in Ec; exact Ec|exact Jv]. }
  destruct j as [|j], j' as [|j']; cbn [nth_error] in E, E'.
  - reflexivity.
  - injection E as <-. specialize (Lt x y Jx (In' _ _ _ E' Jy)). lia.
  - injection E' as <-. specialize (Lt y x Jy (In' _ _ _ E Jx)). lia.
  - f_equal. apply (IH j j'); auto. clear - S. induction (k_rows z) as [|a l IHl]; [exact S|]. cbn [app] in S. inversion S; subst. auto.
Qed.

Lemma saved_rows R moves calls stream k body : saved_ok R moves calls stream -> sheet_in stream k body -> tidy k calls ->
  exists rows, read_rows body = Some rows /\ StronglySorted (fun a b => rr_row a < rr_row b) rows
    /\ (forall x, In x rows -> row_says k calls x)
    /\ (forall r, (exists c, has_cell k calls r c) -> exists x j, In x rows /\ rr_row x = r /\ row_in_block body j x
          /\ forall j', cell_in_block body j' r -> j' = j)
    /\ (forall r, height_of k calls r <> None -> (exists r' c, r <= r' /\ has_cell k calls r' c) -> exists x, In x rows /\ rr_row x = r)
    /\ (forall x, In x rows -> (exists c, has_cell k calls (rr_row x) c) \/ height_of k calls (rr_row x) <> None).
Proof.
  intros H Hk Ty. destruct (saved_view _ _ _ _ H) as [w V]. pose proof (vw_typed _ _ _ _ V) as T. pose proof (ft_calls _ _ (vw_fits _ _ _ _ V)) as F.
  destruct (view_pay _ _ _ _ V k body T_ROW Hk) as (s0 & p0 & Es0 & _ & _ & _ & Pay); [discriminate|].
  destruct (view_blocks _ _ _ _ k body V Hk) as (s & p & bl & a & b & Es & Ep & Is & Me & Eb & Ebody & Ta & Tb & Pl).
  rewrite Es in Es0. injection Es0 as <-.
  pose proof (tidy_blocks calls k s Is Me Ty) as Td. unfold sheet_blocks in Eb.
  destruct (blocks_rows _ _ _ _ (si_cells _ Is) (si_heights _ Is) Td Eb) as (hp & rh2 & Sp & Bk).
  set (rs := flat_map k_rows bl) in *. destruct Sp as [Sc Sh So Sg Spre Shp Swhy Srest Srh].
  assert (Rng : forall x, In x rs -> 0 <= r_row x <= 65535).
  { intros x J. destruct (Swhy x J) as [(c & Jc & <-)|(h & c & Jh & <- & _)].
    - rewrite Forall_forall in Pl. apply Pl. exact Jc.
    - assert (E : height_of k calls (rh_row h) = Some (rh_height h, rh_xf h)).
      { apply (height_in calls k s Me). exists h. split; [rewrite Sh; apply in_or_app; auto|auto]. }
      apply (height_typed R calls k T F) in E. apply E. }
  assert (Gd : forall x, In x rs -> read_row (row_bytes x) = Some (row_as x) /\ row_says k calls (row_as x)).
  { intros x J. rewrite Forall_forall in Sg. apply (good_says R calls k s T F Is Me Pl); auto. }
  assert (Ht : forall r, height_of k calls r <> None <-> exists h, In h (sh_heights s) /\ rh_row h = r).
  { intro r. split.
    - intro N. destruct (height_of k calls r) as [[h q]|] eqn:E; [|congruence]. apply (height_in calls k s Me) in E. destruct E as (y & J & Er & _). exists y. auto.
    - intros (h & J & <-). assert (E : height_of k calls (rh_row h) = Some (rh_height h, rh_xf h)) by (apply (height_in calls k s Me); exists h; auto). congruence. }
  assert (Ca : calm_recs a) by (eapply types_calm; [exact Ta|not_in]). assert (Cb : calm_recs b) by (eapply types_calm; [exact Tb|not_in]).
  assert (Pr : payloads T_ROW body = map row_bytes rs).
  { rewrite Ebody, !pay_app, (pay_none outer_types T_ROW a Ta), (pay_none outer_types T_ROW b Tb) by not_in. cbn [app]. rewrite app_nil_r. unfold rs. clear.
    induction bl as [|x bl IH]; [reflexivity|]. cbn [flat_map]. rewrite concat_app, pay_app, IH, map_app. f_equal. rewrite block_recs_front. unfold block_front. rewrite !pay_app.
    rewrite (pay_none [RT_BLANK; RT_BOOLERR; RT_RK; RT_NUMBER; RT_LABEL; RT_LABELSST; RT_FORMULA; RT_ARRAY; RT_STRING] T_ROW (concat (map (cell_recs (wb_labels w)) (k_cells x)))); [|apply ht_concat|not_in].
    2:{ apply Forall_map, Forall_forall. intros c _. apply cell_types. }
    rewrite pay_one. cbn [app]. change (RT_DBCELL =? T_ROW) with false. cbv iota. rewrite !app_nil_r. unfold payloads.
    induction (k_rows x) as [|y l IHl]; [reflexivity|]. cbn [map filter fst]. change (RT_ROW =? T_ROW) with true. cbv iota. cbn [map snd]. rewrite IHl. reflexivity. }
  exists (map row_as rs). split; [|split; [|split; [|split; [|split]]]].
  - unfold read_rows. rewrite Pr. apply traverse_map. intros x J. apply Gd. exact J.
  - clear - So. induction So as [|x l S' IH Fa]; cbn [map]; constructor; auto. apply Forall_map. exact Fa.
  - intros x J. apply in_map_iff in J. destruct J as (y & <- & J). apply Gd. exact J.
  - intros r (c & Hc). apply (has_cell_in calls k s Is Me) in Hc. destruct Hc as (y & Jy & Ry & Cy).
    destruct (Spre y Jy) as (x & Jx & Ex). pose proof Jx as Jx'. unfold rs in Jx'. apply in_flat_map in Jx'. destruct Jx' as (q & Jq & Jxq).
    destruct (In_nth_error _ _ Jq) as [j Ej]. exists (row_as x), j. split; [apply in_map; exact Jx|]. split; [cbn [row_as rr_row]; lia|].
    assert (Lj : (j < length bl)%nat) by (apply nth_error_Some; congruence).
    split.
    + split; [rewrite Ebody, groups_count by assumption; lia|].
      destruct (nth_error (row_groups body) j) as [g|] eqn:Eg; [|apply nth_error_None in Eg; rewrite Ebody, groups_count in Eg by assumption; lia].
      exists g, (row_bytes x). split; [reflexivity|]. split; [|apply Gd; exact Jx].
      rewrite Ebody in Eg. pose proof (groups_body _ _ _ _ _ _ Ca Cb Eg) as G. rewrite Ej in G. destruct G as (h & _ & ->).
      apply in_or_app. right. unfold block_front. apply in_or_app. left. apply in_map_iff. exists x. auto.
    + intros j' (g & t & pp & Eg & J & C & Fl). rewrite Ebody in Eg. pose proof (groups_body _ _ _ _ _ _ Ca Cb Eg) as G.
      assert (Out : forall l, has_types outer_types l -> In (t, pp) l -> False).
      { intros l Hl Jl. unfold has_types in Hl. rewrite Forall_forall in Hl. specialize (Hl _ Jl). cbn [fst] in Hl. clear - Hl C.
        unfold outer_types in Hl. repeat (destruct Hl as [<-|Hl]; [discriminate C|]). exact Hl. }
      destruct (nth_error bl j') as [q'|] eqn:Ej'.
      * destruct G as (h & Hh & ->). apply in_app_or in J. destruct J as [J|J]; [destruct Hh as [-> | ->]; [exfalso; eapply Out; [exact Ta|exact J]|destruct J]|].
        apply front_row in J. destruct J as [[-> _]|(z & Jz & J)]; [discriminate C|].
        unfold blocked in Bk. rewrite Forall_forall in Bk. pose proof (nth_error_In _ _ Ej') as Jq'. destruct (Bk q' Jq' z Jz) as (x' & Jx' & Ex').
        assert (U : u16 (c_row z)).
        { pose proof (Rng x') as Q. assert (Jr : In x' rs) by (unfold rs; apply in_flat_map; exists q'; auto). specialize (Q Jr). unfold u16. lia. }
        rewrite (cell_rec_row _ _ _ _ U J C) in Fl. injection Fl as Fl.
        eapply (nth_flat_unique bl x j j' q q' x'); auto. lia.
      * destruct G as (h & Hh & ->). apply in_app_or in J. exfalso. destruct J as [J|J]; [destruct Hh as [-> | ->]; [exact (Out a Ta J)|destruct J]|exact (Out b Tb J)].
  - intros r N (r' & c & Le & Hc). apply Ht in N. destruct N as (h & Jh & <-). apply (has_cell_in calls k s Is Me) in Hc. destruct Hc as (y & Jy & <- & _).
    destruct (Spre y Jy) as (x & Jx & Ex). rewrite Sh in Jh. apply in_app_or in Jh. destruct Jh as [Jh|Jh].
    + destruct (Shp h Jh) as (x' & Jx' & Ex'). exists (row_as x'). split; [apply in_map; exact Jx'|exact Ex'].
    + specialize (Srh x h Jx Jh). lia.
  - intros x J. apply in_map_iff in J. destruct J as (y & <- & J). cbn [row_as rr_row]. destruct (Swhy y J) as [(c & Jc & <-)|(h & c & Jh & <- & _)].
    + left. exists (c_col c). apply (has_cell_in calls k s Is Me). exists c. auto.
    + right. apply Ht. exists h. split; [rewrite Sh; apply in_or_app; auto|reflexivity].
Qed.

(* ------------------------------------------------------------------ *)
(** * C15 *)

(** When the last cell shares its row with another, or at most 16 rows are in use: every row
    that holds cells has exactly one row record (their rows increase strictly), it describes
    the row, and it is in the row block with all the row's cells.
    Missing for the full property: see [C15_row_records_refuted]. *)
Theorem C15_row_records_partial R moves calls stream k body : saved_ok R moves calls stream -> sheet_in stream k body -> tidy k calls ->
  exists rows, read_rows body = Some rows /\ StronglySorted (fun a b => rr_row a < rr_row b) rows
    /\ forall r, (exists c, has_cell k calls r c) -> exists x j, In x rows /\ rr_row x = r /\ row_says k calls x
         /\ row_in_block body j x /\ forall j', cell_in_block body j' r -> j' = j.
Proof.
  intros H Hk Ty. destruct (saved_rows _ _ _ _ _ _ H Hk Ty) as (rows & A & B & C & D & _). exists rows. split; [exact A|]. split; [exact B|].
  intros r Hr. destruct (D r Hr) as (x & j & J & Ex & P & Q). exists x, j. repeat (split; [auto|]). exact Q.
Qed.
Print Assumptions C15_row_records_partial.

(** * C23 *)

(** Under the same condition, every row whose height was set and that is not below the last
    cell has a row record with the height and format of the last setting, not hidden, and there are no
    row records but for such rows and rows with cells.
    Missing for the full property: see [C23_row_heights_refuted]. *)
Theorem C23_row_heights_partial R moves calls stream k body : saved_ok R moves calls stream -> sheet_in stream k body -> tidy k calls ->
  exists rows, read_rows body = Some rows /\ StronglySorted (fun a b => rr_row a < rr_row b) rows
    /\ (forall r h p, height_of k calls r = Some (h, p) -> (exists r' c, r <= r' /\ has_cell k calls r' c) ->
          exists x, In x rows /\ rr_row x = r /\ rr_height x = h /\ rr_xf x = given p mod 65536 /\ (h <> 264 -> Z.testbit (rr_flags x) 6 = true)
            /\ Z.testbit (rr_flags x) 7 = true /\ Z.testbit (rr_flags x) 5 = false)
    /\ (forall x, In x rows -> (exists c, has_cell k calls (rr_row x) c) \/ height_of k calls (rr_row x) <> None).
Proof.
  intros H Hk Ty. destruct (saved_rows _ _ _ _ _ _ H Hk Ty) as (rows & A & B & C & _ & D & E). exists rows. split; [exact A|]. split; [exact B|]. split; [|exact E].
  intros r h p Eh Hc. destruct (D r) as (x & J & Ex); [congruence|exact Hc|]. exists x. specialize (C x J). destruct C as [_ C1 C2 C4 C5 C3]. rewrite Ex, Eh in *.
  do 4 (split; [solve [auto]|]). split; [intro N; apply C2; congruence|]. split; [exact C4|].
  apply (f_equal (fun v => Z.testbit v 5)) in C5. rewrite Z.land_spec in C5. change (Z.testbit 55 5) with true in C5. rewrite andb_true_r in C5. exact C5.
Qed.
Print Assumptions C23_row_heights_partial.

(* ------------------------------------------------------------------ *)
(** * C16: the index *)

Local Ltac quad := apply f_equal2; [apply f_equal2; [apply f_equal2; [reflexivity|lia]|lia]|reflexivity].
Fixpoint newrows (row : Z) (cells : list cell) : list Z :=
  match cells with
  | [] => []
  | c :: t => if c_row c =? row then newrows row t else c_row c :: newrows (c_row c) t
  end.
Definition total_size (cells : list cell) : Z := fold_right (fun c n => cell_size c + n) 0 cells.
Lemma scan_all cells : forall row rows n rb, rows + zlen (newrows row cells) <= 16 ->
  exists rb', size_scan cells row rows n rb = ([], rows + zlen (newrows row cells), n + zlen cells, rb')
    /\ rb_rc rb' = rb_rc rb + total_size cells
    /\ rb_fr rb' = fold_left Z.min (newrows row cells) (rb_fr rb) /\ rb_lr rb' = fold_left Z.max (newrows row cells) (rb_lr rb).
Proof.
  induction cells as [|c t IH]; intros row rows n rb L; cbn [size_scan newrows total_size fold_right] in *.
  - exists rb. rewrite !zlen_nil. split; [quad|]. split; [lia|]. split; reflexivity.
  - destruct (c_row c =? row) eqn:E.
    + destruct (IH row rows (n + 1) (rb_cell rb c) L) as (rb' & A & B & C & D). exists rb'. split; [rewrite A, zlen_cons; quad|].
      cbn [rb_cell rb_rc rb_fr rb_lr] in *. fold (total_size t). split; [lia|]. split; assumption.
    + rewrite zlen_cons in L. pose proof (zlen_nonneg _ (newrows (c_row c) t)). replace (MAX_ROWBLOCK <=? rows) with false by (unfold MAX_ROWBLOCK; lia).
      destruct (IH (c_row c) (rows + 1) (n + 1) (rb_cell (rb_row rb (c_row c)) c) ltac:(lia)) as (rb' & A & B & C & D). exists rb'.
      split; [rewrite A, !zlen_cons; quad|]. cbn [rb_cell rb_row rb_rc rb_fr rb_lr fold_left] in *. fold (total_size t). split; [lia|]. split; assumption.
Qed.
Lemma newrows_in cells : forall row r, In r (row :: newrows row cells) <-> r = row \/ exists c, In c cells /\ c_row c = r.
Proof.
  induction cells as [|c t IH]; intros row r; cbn [newrows].
  - cbn [In]. split; [intros [<-|[]]; auto|intros [->|(c & [] & _)]; auto].
  - destruct (c_row c =? row) eqn:E.
    + rewrite IH. split; [intros [->|(d & J & <-)]|intros [->|(d & [<-|J] & <-)]]; auto.
      * right. exists d. split; [right; exact J|reflexivity].
      * left. lia.
      * right. exists d. auto.
    + specialize (IH (c_row c) r). split.
      * intros [<-|J]; [auto|]. apply IH in J. destruct J as [->|(d & J & <-)]; [right; exists c; split; [left; reflexivity|reflexivity]|].
        right. exists d. split; [right; exact J|reflexivity].
      * intros [->|(d & J & Ed)]; [left; reflexivity|]. right. apply IH. destruct J as [<-|J]; [left; auto|]. right. exists d. auto.
Qed.
Lemma newrows_sorted cells : forall row, csorted cells -> Forall (fun c => row <= c_row c) cells -> StronglySorted Z.lt (row :: newrows row cells).
Proof.
  induction cells as [|c t IH]; intros row S F; cbn [newrows]; [repeat constructor|]. apply csorted_inv in S. destruct S as [S G]. apply clt_rows in G.
  inversion F as [|? ? F1 F2]; subst. destruct (c_row c =? row) eqn:E; [apply IH; assumption|].
  specialize (IH (c_row c) S G). constructor; [exact IH|]. inversion IH as [|? ? _ IF]; subst. constructor; [lia|].
  eapply Forall_impl; [|exact IF]. cbv beta. intros; lia.
Qed.
Lemma sorted_nodup l : StronglySorted Z.lt l -> NoDup l.
Proof. induction 1 as [|x l S IH F]; constructor; auto. intro J. rewrite Forall_forall in F. specialize (F x J). lia. Qed.
Lemma fold_min_first l : forall m, Forall (fun x => m < x) l -> fold_left Z.min l m = m.
Proof. induction l as [|x l IH]; intros m F; [reflexivity|]. inversion F; subst. cbn [fold_left]. rewrite Z.min_l by lia. apply IH. assumption. Qed.
Lemma fold_max_last l : forall m, StronglySorted Z.lt (m :: l) -> let v := fold_left Z.max l m in In v (m :: l) /\ forall x, In x (m :: l) -> x <= v.
Proof.
  induction l as [|x l IH]; intros m S; cbn [fold_left]; [split; [left; reflexivity|intros y [<-|[]]; lia]|].
  inversion S as [|? ? S' F]; subst. pose proof (Forall_inv F) as Lt. rewrite Z.max_r by lia. destruct (IH x S') as [A B]. split; [right; exact A|].
  intros y [<-|J]; [|apply B; exact J]. specialize (B x (or_introl eq_refl)). cbv beta in Lt. lia.
Qed.

(** Sizes of the records. *)
Lemma front_size ls b : (forall c, In c (k_cells b) -> rsz (cell_recs ls c) = cell_size c) ->
  rsz (block_front ls b) = 20 * zlen (k_rows b) + total_size (k_cells b).
Proof.
  intro H. unfold block_front. rewrite rsz_app. f_equal.
  - induction (k_rows b) as [|r l IH]; [reflexivity|]. cbn [map]. rewrite rsz_cons, IH, zlen_cons. unfold row_bytes. rewrite !zlen_app, !zlen_le16. lia.
  - induction (k_cells b) as [|c l IH]; [reflexivity|]. cbn [map concat total_size fold_right]. rewrite rsz_app, H by (left; reflexivity). fold (total_size l).
    rewrite IH; [reflexivity|]. intros d J. apply H. right. exact J.
Qed.
Lemma plain_cell_size ls c u id : c_val c = make_val id u -> val_typed u -> plain_size u -> rsz (cell_recs ls c) = cell_size c.
Proof.
  intros E T P. unfold cell_recs, cell_size. rewrite E. destruct u; cbn [make_val] in *;
    repeat match goal with |- context [if ?b then VInt _ else _] => destruct b end;
    cbv iota; try (rewrite rsz_one; unfold cell_head; rewrite ?zlen_app, !zlen_le16, ?zlen_le32, ?zlen_le64; reflexivity).
  - cbn [plain_size] in P. assert (Ns : in_sst (to16 t) = false) by (unfold in_sst; rewrite to16_len; lia). rewrite Ns, rsz_one, zlen_app, unicode_length_ok.
    change (zlen (cell_head c)) with 6. unfold unicode_string_length. destruct (is_ascii (to16 t)); cbv zeta iota; lia.
  - destruct P as (P1 & P2 & P3). rewrite P1, P2, P3. unfold fml_recs. rewrite P3. cbn [app]. rewrite rsz_one. unfold fml_head, tok_bytes. rewrite !zlen_app, zlen_map, !zlen_le16, zlen_le32, zlen_le64. lia.
Qed.
Lemma positions_app pos a b : dbcell_positions pos (a ++ b) = dbcell_positions pos a ++ dbcell_positions (pos + rsz a) b.
Proof.
  revert pos. induction a as [|[t p] a IH]; intro pos; cbn [app dbcell_positions].
  - change (rsz []) with 0. rewrite Z.add_0_r. reflexivity.
  - rewrite IH, rsz_cons, <- app_assoc. do 2 f_equal. f_equal. lia.
Qed.
Lemma positions_calm pos a : calm_recs a -> dbcell_positions pos a = [].
Proof. intro H. revert pos. induction H as [|[t p] a N F IH]; intro pos; [reflexivity|]. cbn [dbcell_positions fst] in *. replace (t =? T_DBCELL) with false by lia. apply IH. Qed.

(** With one row block of known sizes. *)
Lemma sblocks_one c t : csorted (c :: t) -> (length (newrows (c_row c) t) < 16)%nat -> 0 <= c_row c < 4294967295 -> (forall x, In x t -> c_row x < 4294967295) ->
  exists rb, sblocks (c :: t) = [rb] /\ rb_rc rb = 20 * (1 + zlen (newrows (c_row c) t)) + total_size (c :: t)
    /\ rb_fr (rb_total [rb]) = c_row c
    /\ (exists x, In x (c :: t) /\ c_row x = rb_lr (rb_total [rb])) /\ forall x, In x (c :: t) -> c_row c <= c_row x <= rb_lr (rb_total [rb]).
Proof.
  intros S L Hc Ht. rewrite sblocks_cons. unfold size_block.
  assert (E1 : newrows (c_row c) (c :: t) = newrows (c_row c) t) by (cbn [newrows]; rewrite Z.eqb_refl; reflexivity).
  destruct (scan_all (c :: t) (c_row c) 1 0 (rb_row rb_new (c_row c))) as (rb' & A & B & C & D).
  { rewrite E1. unfold zlen. lia. }
  rewrite A, E1 in *. cbn [fst snd]. eexists. split; [reflexivity|]. cbn [rb_rc]. unfold rb_total. cbn [fold_left rb_merge rb_fr rb_lr rb_new]. rewrite B, C, D.
  cbn [rb_row rb_rc rb_fr rb_lr rb_new]. rewrite (Z.min_r _ (c_row c)), (Z.max_r 0 (c_row c)) by lia.
  pose proof (csorted_inv _ _ S) as [S' G]. apply clt_rows in G. pose proof (newrows_sorted t (c_row c) S' G) as So.
  inversion So as [|? ? So' Fr]; subst. rewrite fold_min_first by exact Fr. destruct (fold_max_last _ _ So) as [V1 V2].
  set (v := fold_left Z.max (newrows (c_row c) t) (c_row c)) in *.
  assert (Hv : 0 <= v) by (specialize (V2 (c_row c) (or_introl eq_refl)); lia).
  rewrite Z.max_r by lia. rewrite (Z.min_r 4294967295) by lia.
  split; [unfold ROW_SIZE; lia|]. split; [reflexivity|]. split.
  - apply newrows_in in V1. destruct V1 as [V1|(x & J & V1)]; [exists c; split; [left; reflexivity|auto]|exists x; split; [right; exact J|exact V1]].
  - intros x J. split.
    + destruct J as [<-|J]; [lia|]. rewrite Forall_forall in G. apply G. exact J.
    + apply V2. apply newrows_in. destruct J as [<-|J]; [left; reflexivity|right; exists x; auto].
Qed.
Lemma u32s_read l : Forall u32 l -> forall f, (length l <= f)%nat -> read_u32s f (offs32 l) = Some l.
Proof.
  induction 1 as [|v l U F IH]; intros f L; [destruct f; reflexivity|]. destruct f as [|f]; [cbn in L; lia|]. cbn [length] in L.
  change (offs32 (v :: l)) with (le32 v ++ offs32 l). cbn [read_u32s].
  assert (E : fld 4 (le32 v ++ offs32 l) 0 = Some v) by (etransitivity; [apply (fld32 [] v); reflexivity|]; rewrite Z.mod_small by exact U; reflexivity).
  rewrite E. change (skipn 4 (le32 v ++ offs32 l)) with (offs32 l). rewrite IH by lia. reflexivity.
Qed.
Lemma index_read a b d l : u32 a -> u32 b -> Forall u32 l -> read_index (le32 0 ++ le32 a ++ le32 b ++ offs32 (d :: l)) = Some (mkRI a b l).
Proof.
  intros A B F. unfold read_index. change (offs32 (d :: l)) with (le32 d ++ offs32 l).
  assert (E1 : fld 4 (le32 0 ++ le32 a ++ le32 b ++ le32 d ++ offs32 l) 4 = Some a) by (rewrite (fld32 (le32 0)) by reflexivity; rewrite Z.mod_small by exact A; reflexivity).
  assert (E2 : fld 4 (le32 0 ++ le32 a ++ le32 b ++ le32 d ++ offs32 l) 8 = Some b) by (rewrite app_assoc, fld32 by reflexivity; rewrite Z.mod_small by exact B; reflexivity).
  rewrite E1, E2. change (skipn 16 (le32 0 ++ le32 a ++ le32 b ++ le32 d ++ offs32 l)) with (offs32 l). rewrite u32s_read; [reflexivity|exact F|].
  rewrite !app_length. unfold offs32. cbn [length]. clear. induction l as [|x l IH]; cbn [flat_map length]; [lia|]. rewrite app_length. cbn [length] in *. 
  change (length (le32 x)) with 4%nat. lia.
Qed.

(** When the cells lie in one row block and the sizes of their records are known to the
    library, a stream below 4 GB has one INDEX record per sheet, which lists the positions of the
    DBCELL records ([pos] is where the sheet begins; its BOF record takes 20 bytes) and the
    first and one past the last row with cells.
    Missing for the full property: see [C16_index_refuted]. *)
Theorem C16_index_partial R moves calls stream k body : saved_ok R moves calls stream -> R <= 32819 -> sheet_in stream k body ->
  zlen stream < 4294967296 -> one_block k calls ->
  exists pos p i, sheet_begins stream k pos /\ payloads T_INDEX body = [p] /\ read_index p = Some i
    /\ ri_offsets i = dbcell_positions (pos + 20) body
    /\ ((exists r c, has_cell k calls r c) -> (exists c, has_cell k calls (ri_row0 i) c) /\ (exists c, has_cell k calls (ri_row1 i - 1) c)
        /\ forall r c, has_cell k calls r c -> ri_row0 i <= r < ri_row1 i).
Proof.
  intros H HR Hk Hz [(rows & Lr & Or) Oh Os]. destruct (saved_view _ _ _ _ H) as [w V].
  pose proof (mn_inv _ _ (vw_means _ _ _ _ V)) as I2. pose proof (vw_limits _ _ _ _ V) as L. rewrite Bof_small in L by (pose proof (vw_rows _ _ _ _ V); lia).
  destruct (view_blocks _ _ _ _ k body V Hk) as (s & p & bl & _ & _ & Es & Ep & Is & Me & Eb & _ & _ & _ & Pl).
  destruct (view_sheet _ _ _ _ V k body Hk) as (s' & p' & Es' & Ep' & _ & _ & _ & _ & Eb2). specialize (Eb2 HR).
  rewrite Es in Es'. apply some_inj in Es'. subst s'. rewrite Ep in Ep'. apply some_inj in Ep'. subst p'.
  destruct (view_pay _ _ _ _ V k body T_INDEX Hk) as (s' & p' & Es' & Ep' & _ & _ & Pay); [discriminate|].
  rewrite Es in Es'. apply some_inj in Es'. subst s'. rewrite Ep in Ep'. apply some_inj in Ep'. subst p'.
  rewrite pay_inner_flat in Pay by not_in. picks Pay. cbn [app] in Pay.
  destruct (stream_from w I2 L k p Ep) as (P0 & P1 & _).
  assert (Beg : sheet_begins stream k p) by (rewrite (vw_stream _ _ _ _ V); apply starts_begin; auto).
  assert (Hd : rsz (concat (head_in (p + 20) s)) = 20 + 4 * zlen (sblocks (sh_cells s)) + 8 + 16 * zlen (sh_cols s) + 6 + 18).
  { unfold head_in. rewrite !concat_app, !rsz_app. cbn [concat app]. rewrite !rsz_cons. change (rsz []) with 0.
    assert (A1 : rsz (concat (map (fun c => [(RT_COLINFO, colinfo_bytes c)]) (sh_cols s))) = 16 * zlen (sh_cols s)).
    { induction (sh_cols s) as [|x l IH]; [reflexivity|]. cbn [map concat app]. rewrite rsz_cons, IH, zlen_cons. change (zlen (colinfo_bytes x)) with 12. lia. }
    rewrite A1. unfold index_bytes, dim_bytes, offs32. cbv zeta. rewrite !zlen_app, !zlen_le32, !zlen_le16, (flat_len _ 4) by reflexivity. rewrite zlen_cons.
    replace (zlen (index_offs _ _ _)) with (zlen (sblocks (sh_cells s))); [lia|].
    generalize (p + 20 + (20 + 4 * zlen (sblocks (sh_cells s))) + 8 + 16 * zlen (sh_cols s) + 6 + 18). generalize 0 at 1.
    induction (sblocks (sh_cells s)); intros; cbn [index_offs]; [reflexivity|]. rewrite !zlen_cons. f_equal. apply IHl. }
  assert (Ch : calm_recs (concat (head_in (p + 20) s))).
  { eapply types_calm; [apply ht_concat; apply head_outer|not_in]. }
  assert (Ct : calm_recs (concat (tail_in (dac w) s))).
  { eapply types_calm; [apply ht_concat; apply tail_outer|not_in]. }
  assert (Ebd : body = concat (head_in (p + 20) s) ++ concat (flat_map (block_recs (wb_labels w)) bl) ++ concat (tail_in (dac w) s)).
  { rewrite Eb2. unfold inner, body_recs. rewrite Eb, !concat_app. reflexivity. }
  assert (Pos : dbcell_positions (p + 20) body = dbcell_positions (p + 20 + rsz (concat (head_in (p + 20) s))) (concat (flat_map (block_recs (wb_labels w)) bl))).
  { rewrite Ebd, !positions_app, (positions_calm _ _ Ch), (positions_calm _ _ Ct), app_nil_r. reflexivity. }
  assert (Sz : rsz body + p + 20 <= zlen stream).
  { destruct (stream_from w I2 L k p Ep) as (_ & _ & Pf). fold (dg w) (dac w) in Pf. fold (dbodies w) in Pf.
    assert (Eb3 : nth_error (dbodies w) k = Some body).
    { unfold sheet_in in Hk. rewrite (vw_stream _ _ _ _ V), (substream_eq 8228 w (S k) I2 L) in Hk. cbn [nth_error] in Hk. rewrite nth_error_map in Hk.
      destruct (nth_error (dbodies w) k) as [x|]; [|discriminate Hk]. apply some_inj in Hk. congruence. }
    rewrite (skip_nth body _ _ Eb3) in Pf. cbn [map concat] in Pf. rewrite frame_all_app in Pf.
    assert (Q : zlen (skipn (Z.to_nat p) stream) >= 20 + rsz body).
    { rewrite (vw_stream _ _ _ _ V), Pf, zlen_app. unfold wrap. fold (rsz ((RT_BOF, bof_bytes 16) :: body ++ [(RT_EOF, [])])). rewrite rsz_cons, rsz_app.
      change (zlen (bof_bytes 16)) with 16. change (rsz [(RT_EOF, [])]) with 4. match goal with |- _ + zlen ?l >= _ => pose proof (zlen_nonneg _ l) end. lia. }
    rewrite <- (vw_stream _ _ _ _ V) in P1. unfold zlen in Q, P1 |- *. rewrite skipn_length in Q. lia. }
  assert (Hc : forall r c, has_cell k calls r c <-> exists x, In x (sh_cells s) /\ c_row x = r /\ c_col x = c) by (apply (has_cell_in calls k s Is Me)).
  exists p. destruct (sh_cells s) as [|c t] eqn:Ec.
  - (* no cells *)
    unfold sheet_blocks in Eb. rewrite Ec in Eb. apply some_inj in Eb. subst bl.
    eexists _, (mkRI 4294967295 1 []). split; [exact Beg|]. split; [apply Pay; constructor; [|constructor]; unfold index_bytes; rewrite Ec; vm_compute; discriminate|]. split; [|split].
    + unfold index_bytes. rewrite Ec. cbv zeta. cbn [sblocks size_blocks length index_offs]. apply index_read; try (unfold u32; cbn; lia). constructor.
    + cbn [ri_offsets]. rewrite Pos. reflexivity.
    + intros (r & d & X). apply Hc in X. destruct X as (x & [] & _).
  - (* one block *)
    assert (Fe : few (c :: t) (sh_heights s)).
    { exists rows. split; [exact Lr|]. split.
      - intros x J. apply (Or _ (c_col x)). apply Hc. exists x. auto.
      - intros h x Jh Jx Le. destruct (Oh (rh_row h)) as [(d & X)|X].
        + assert (E : height_of k calls (rh_row h) = Some (rh_height h, rh_xf h)) by (apply (height_in calls k s Me); exists h; auto). congruence.
        + apply (Or _ d X).
        + specialize (X (c_row x) (c_col x)). rewrite Hc in X. specialize (X (ex_intro _ x (conj Jx (conj eq_refl eq_refl)))). lia. }
    pose proof (si_cells _ Is) as So. rewrite Ec in So. pose proof (si_heights _ Is) as Sh.
    unfold sheet_blocks in Eb. rewrite Ec in Eb. remember (length (c :: t)) as n0 eqn:En. cbn [blocks_of] in Eb.
    destruct (rows_of 16 (c :: t) (sh_heights s)) as [[rs rest] rh1] eqn:Er.
    pose proof (few_rest _ _ _ _ _ So Sh Fe Er) as ->. destruct (rows_of_spec _ _ _ _ _ _ So Sh Er) as (pre & hpre & Sp).
    cbn [at_last] in Eb. destruct (Nat.eqb _ 0); [discriminate Eb|].
    assert (Ebl : bl = [mkBlk rs (c :: t)]).
    { destruct n0 as [|n0]; [discriminate En|]. cbn [blocks_of] in Eb. apply some_inj in Eb. rewrite <- Eb. do 2 f_equal.
      change (firstn (length (c :: t) - length (@nil cell) + 0) (c :: t) = c :: t). rewrite Nat.sub_0_r, Nat.add_0_r. apply firstn_all. }
    clear Eb. subst bl. destruct Sp as [Sc Shh Srt Sg Spre Shp Swhy _ _]. rewrite app_nil_r in Sc. subst pre.
    assert (Lrs : zlen rs = 1 + zlen (newrows (c_row c) t)).
    { pose proof (csorted_inv _ _ So) as [So' G]. apply clt_rows in G. pose proof (sorted_nodup _ (newrows_sorted t (c_row c) So' G)) as N1.
      assert (N2 : NoDup (map r_row rs)).
      { clear - Srt. induction Srt as [|x l S IH F]; cbn [map]; constructor; auto. intro J. apply in_map_iff in J. destruct J as (y & Ey & J). rewrite Forall_forall in F. specialize (F y J). lia. }
      assert (I1 : incl (map r_row rs) (c_row c :: newrows (c_row c) t)).
      { intros r J. apply in_map_iff in J. destruct J as (x & <- & J). apply newrows_in.
        assert (X : exists d, In d (c :: t) /\ c_row d = r_row x).
        { destruct (Swhy x J) as [X|(h & d & Jh & Eh & Jd & Le)]; [exact X|]. destruct (Oh (rh_row h)) as [(e & X)|X].
          - assert (E : height_of k calls (rh_row h) = Some (rh_height h, rh_xf h)) by (apply (height_in calls k s Me); exists h; split; [rewrite Shh; apply in_or_app; left; exact Jh|auto]). congruence.
          - apply Hc in X. destruct X as (y & Jy & Ey & _). exists y. split; [exact Jy|lia].
          - specialize (X (c_row d) (c_col d)). rewrite Hc in X. specialize (X (ex_intro _ d (conj Jd (conj eq_refl eq_refl)))). lia. }
        destruct X as (d & [<-|Jd] & Ed); [left; auto|right; exists d; auto]. }
      assert (I3 : incl (c_row c :: newrows (c_row c) t) (map r_row rs)).
      { intros r J. apply newrows_in in J. assert (X : exists d, In d (c :: t) /\ c_row d = r).
        { destruct J as [->|(d & Jd & Ed)]; [exists c; split; [left; reflexivity|reflexivity]|exists d; split; [right; exact Jd|exact Ed]]. }
        destruct X as (d & Jd & <-). destruct (Spre d Jd) as (x & Jx & Ex). apply in_map_iff. exists x. auto. }
      pose proof (NoDup_incl_length N2 I1) as Q1. pose proof (NoDup_incl_length N1 I3) as Q2. cbn [length] in *. rewrite map_length in *. unfold zlen. lia. }
    assert (Lr2 : (length rs <= 16)%nat) by (eapply rows_of_len; exact Er).
    rewrite Forall_forall in Pl.
    destruct (sblocks_one c t So) as (rb & Esb & Erc & Efr & (x1 & Jx1 & Ex1) & Rng).
    { unfold zlen in Lrs. lia. } { specialize (Pl c (or_introl eq_refl)). lia. } { intros x J. specialize (Pl x (or_intror J)). lia. }
    assert (Fs : rsz (block_front (wb_labels w) (mkBlk rs (c :: t))) = rb_rc rb).
    { rewrite front_size; [cbn [k_rows k_cells]; rewrite Erc, Lrs; reflexivity|]. intros x J. cbn [k_cells] in J. rewrite <- Ec in J.
      destruct (cell_meaning k calls s x Is Me J) as (u & id & Eu & Ev). eapply plain_cell_size; [exact Ev| |eapply Os; exact Eu].
      eapply cells_typed; [apply (vw_typed _ _ _ _ V)|exact Eu]. }
    cbn [flat_map] in Pos. rewrite app_nil_r, block_recs_front, positions_app, (positions_calm _ _ (front_calm _ _)), Fs, Hd, Esb in Pos.
    cbn [app dbcell_positions] in Pos. change (RT_DBCELL =? T_DBCELL) with true in Pos. cbn [app] in Pos. change (zlen [rb]) with 1 in Pos.
    assert (Szb : rsz (concat (head_in (p + 20) s)) + rb_rc rb <= rsz body).
    { rewrite Ebd at 1. cbn [flat_map]. rewrite app_nil_r, block_recs_front, !rsz_app, Fs. pose proof (zlen_nonneg _ (frame_all [(RT_DBCELL, dbcell_bytes (wb_labels w) (mkBlk rs (c :: t)))])).
      pose proof (zlen_nonneg _ (frame_all (concat (tail_in (dac w) s)))). unfold rsz at 3 4. lia. }
    eexists _, (mkRI (c_row c) (rb_lr (rb_total [rb]) + 1) _). split; [exact Beg|].
    split; [apply Pay; constructor; [|constructor]; unfold index_bytes, offs32; rewrite Ec, Esb; cbv zeta; rewrite !zlen_app, !zlen_le32, (flat_len _ 4) by reflexivity; cbn [index_offs]; unfold zlen; cbn [length]; lia|].
    split; [|split; [cbn [ri_offsets]; symmetry; exact Pos|]].
    + unfold index_bytes. rewrite Ec, Esb, Efr. cbv zeta. change (zlen [rb]) with 1. cbn [index_offs].
      replace (p + 20 + (20 + 4 * 1) + 8 + 16 * zlen (sh_cols s) + 6 + 18 + (0 + rb_rc rb)) with (p + 20 + (20 + 4 * 1 + 8 + 16 * zlen (sh_cols s) + 6 + 18) + rb_rc rb) by lia.
      pose proof (Pl x1 Jx1). pose proof (Pl c (or_introl eq_refl)). apply index_read; [unfold u32; lia|unfold u32; lia|].
      constructor; [|constructor]. unfold u32. rewrite Hd, Esb in Szb. change (zlen [rb]) with 1 in Szb. pose proof (zlen_nonneg _ (sh_cols s)).
      assert (0 <= rb_rc rb) by (rewrite <- Fs; apply zlen_nonneg). lia.
    + cbn [ri_row0 ri_row1]. intros _. split; [exists (c_col c); apply Hc; exists c; split; [left; reflexivity|auto]|].
      split; [exists (c_col x1); apply Hc; exists x1; split; [exact Jx1|split; [lia|reflexivity]]|].
      intros r d X. apply Hc in X. destruct X as (x & Jx & <- & _). specialize (Rng x Jx). lia.
Qed.
Print Assumptions C16_index_partial.

(* ------------------------------------------------------------------ *)
(** * Cases *)

(** Where cells and heights come from. *)
Lemma cells_from k calls r c u : cells_of k calls r c = Some u -> (exists p, In (KCell k r c u p) calls)
  \/ exists r1 c1 r2 c2 o, In (KRange k r1 c1 r2 c2 o) calls /\ r1 <= r <= r2 /\ c1 <= c <= c2.
Proof.
  unfold cells_of. induction calls as [|q calls IH] using rev_ind; intro H; [discriminate H|]. rewrite fold_left_app in H. cbn [fold_left] in H.
  assert (Old : fold_left (cells_step k) calls no_cells r c = Some u -> (exists p, In (KCell k r c u p) (calls ++ [q]))
     \/ exists r1 c1 r2 c2 o, In (KRange k r1 c1 r2 c2 o) (calls ++ [q]) /\ r1 <= r <= r2 /\ c1 <= c <= c2).
  { intro E. destruct (IH E) as [(p & J)|(r1 & c1 & r2 & c2 & o & J & B)]; [left; exists p|right; exists r1, c1, r2, c2, o; split; [|exact B]]; apply in_or_app; auto. }
  destruct q; cbn [cells_step] in H; try exact (Old H).
  - destruct (_ && _)%bool eqn:E; [|exact (Old H)]. apply some_inj in H. subst. left. exists p. apply in_or_app. right. left.
    apply andb_prop in E. destruct E as [E E3]. apply andb_prop in E. destruct E as [E1 E2]. apply Nat.eqb_eq in E1. f_equal; lia.
  - destruct (_ && _)%bool eqn:E; [|exact (Old H)]. right. unfold inside in E. exists r1, c1, r2, c2, o. split; [|lia].
    apply in_or_app. right. left. apply andb_prop in E. destruct E as [E E3]. apply andb_prop in E. destruct E as [E1 E2]. apply Nat.eqb_eq in E1. congruence.
Qed.
Lemma heights_from k calls r h p : height_of k calls r = Some (h, p) -> In (KRowheight k r h p) calls.
Proof.
  unfold height_of. induction calls as [|q calls IH] using rev_ind; intro H; [discriminate H|]. rewrite fold_left_app in H. cbn [fold_left] in H. apply in_or_app.
  destruct q; cbn [height_step] in H; try (left; exact (IH H)). destruct (_ && _)%bool eqn:E; [|left; exact (IH H)].
  right. left. apply andb_prop in E. destruct E as [E1 E2]. apply Nat.eqb_eq in E1. apply some_inj in H. apply pair_equal_spec in H. destruct H as [-> ->]. f_equal; [congruence|lia].
Qed.

Definition grid : list call :=
  [KSheet (TChar [65]); KXformat None None; KCell 0 0 0 (ULabel (TChar [104; 105])) None; KCell 0 0 3 (UInt 5) None; KCell 0 2 1 (UDouble 4607182418800017408) None;
   KCell 0 9 0 (UFormula false [30; 1; 0; 30; 2; 0; 3] 7 (mkEst 0 2 None)) None; KRowheight 0 2 300 (Some 21); KRowheight 0 12 400 None; KColwidth 0 1 3000 None].
(** 17 rows, the last with a single cell. *)
Definition tall : list call := KSheet (TChar [65]) :: map (fun i => KCell 0 (Z.of_nat i) 0 (UInt 7) None) (seq 0 17).
(** 17 rows with two cells each. *)
Definition tall2 : list call :=
  KSheet (TChar [65]) :: flat_map (fun i => [KCell 0 (Z.of_nat i) 0 (UInt 7) None; KCell 0 (Z.of_nat i) 1 (UInt 7) None]) (seq 0 17).
Ltac small_typed := repeat (apply Forall_cons; [cbn [typed text_typed val_typed]; unfold u8, u16, u32; repeat split; try lia; cbn; try (repeat constructor; lia)|]); try apply Forall_nil.
Ltac small_calls := repeat (apply Forall_cons; [cbn [call_fits text_len val_fits op_fits font_fits len_opt fe_str zlen length]; try exact I; repeat split; try lia;
      try (cbn; lia); try (intros [?|?]; cbn in *; congruence)|]); try apply Forall_nil.
Ltac small_fits := constructor; [small_calls; vm_compute; discriminate|vm_compute; split; discriminate|vm_compute; discriminate|].
Ltac each J := repeat (destruct J as [J|J]; [|]); try exact (False_ind _ J); try discriminate J.
Lemma grid_typed : Forall typed grid.
Proof. unfold grid. small_typed. Qed.
Lemma grid_fits : fits 40 grid.
Proof.
  unfold grid. small_fits. intro k. exists [2; 12]. split; [cbn; lia|]. intros r H. left.
  match type of H with height_of k ?l r <> None => destruct (height_of k l r) as [[h p]|] eqn:E end; [|congruence]. apply heights_from in E. cbn [In] in E. each E; injection E as _ <- _ _; cbn; auto.
Qed.
Lemma tall_typed : Forall typed tall.
Proof. cbv [tall map seq Z.of_nat Pos.of_succ_nat Pos.succ]. small_typed. Qed.
Lemma tall_fits : fits 40 tall.
Proof.
  cbv [tall map seq Z.of_nat Pos.of_succ_nat Pos.succ]. small_fits. intro k. exists []. split; [cbn; lia|]. intros r H.
  match type of H with height_of k ?l r <> None => destruct (height_of k l r) as [[h p]|] eqn:E end; [|congruence]. apply heights_from in E. cbn [In] in E. each E.
Qed.
Lemma tall2_typed : Forall typed tall2.
Proof. cbv [tall2 flat_map app seq Z.of_nat Pos.of_succ_nat Pos.succ]. small_typed. Qed.
Lemma tall2_fits : fits 40 tall2.
Proof.
  cbv [tall2 flat_map app seq Z.of_nat Pos.of_succ_nat Pos.succ]. small_fits. intro k. exists []. split; [cbn; lia|]. intros r H.
  match type of H with height_of k ?l r <> None => destruct (height_of k l r) as [[h p]|] eqn:E end; [|congruence]. apply heights_from in E. cbn [In] in E. each E.
Qed.
Lemma small_saved fuel calls stream : Forall typed calls -> fits 40 calls -> stream_of fuel calls = Some stream -> saved_ok 40 (fun _ _ => false) calls stream.
Proof. intros T F E. constructor; [lia|exact T|exact F|left; lia|exact (stream_of_saved _ _ _ E)]. Qed.

Example C16_case moves : (exists stream, saved_ok 40 moves grid stream) /\ one_block 0 grid /\ tidy 0 grid.
Proof.
  assert (D : exists w, document grid = Ok w) by (apply is_ok_ex; vm_compute; reflexivity). destruct D as [w D].
  assert (C : forall r c, has_cell 0 grid r c -> In r [0; 2; 9]).
  { intros r c H. unfold has_cell in H. destruct (cells_of 0 grid r c) as [u|] eqn:E; [|congruence]. apply cells_from in E.
    destruct E as [(p & J)|(r1 & c1 & r2 & c2 & o & J & _)]; cbn [grid In] in J; each J; injection J as <- _ _ _; cbn; auto. }
  split; [|split].
  - exists (concat (store_of w)). apply view_saved; auto; [lia|apply grid_typed|apply grid_fits|left; lia].
  - constructor.
    + exists [0; 2; 9]. split; [cbn; lia|]. exact C.
    + intros r H. destruct (height_of 0 grid r) as [[h p]|] eqn:E; [|congruence]. apply heights_from in E. cbn [grid In] in E. each E; injection E as <- _ _.
      * left. exists 1. discriminate.
      * right. intros r' c H'. apply C in H'. cbn in H'. lia.
    + intros r c u H. apply cells_from in H. destruct H as [(p & J)|(r1 & c1 & r2 & c2 & o & J & _)]; cbn [grid In] in J; each J; injection J as _ _ <- _; vm_compute; repeat split; discriminate.
  - right. exists [0; 2; 9]. split; [cbn; lia|]. intros r [(c & H)|[H (r' & c & L & H')]]; [eapply C; exact H|].
    destruct (height_of 0 grid r) as [[h p]|] eqn:E; [|congruence]. apply heights_from in E. cbn [grid In] in E. each E; injection E as <- _ _; [cbn; auto|].
    apply C in H'. cbn in H'. lia.
Qed.

(** * What does not hold *)

(** A sheet's records as computed from the calls. *)
Definition body_of (k : nat) (calls : list call) : option (list Z * list brec) :=
  match stream_of 400 calls with
  | Some s => match substream s (S k) with Some (t, b) => if t =? K_SHEET then Some (s, b) else None | None => None end
  | None => None
  end.
Lemma body_of_in k calls s b : body_of k calls = Some (s, b) -> stream_of 400 calls = Some s /\ sheet_in s k b.
Proof.
  unfold body_of, sheet_in. destruct (stream_of 400 calls) as [s0|]; [|discriminate]. destruct (substream s0 (S k)) as [[t b0]|] eqn:E; [|discriminate].
  destruct (t =? K_SHEET) eqn:T; [|discriminate]. intro H. apply some_inj in H. apply pair_equal_spec in H. destruct H as [-> ->]. rewrite E. split; [reflexivity|].
  apply Z.eqb_eq in T. now rewrite T.
Qed.

(** C15 fails when the last cell is the first of a 17th row: the row has no row record. *)
Theorem C15_row_records_refuted : exists calls stream body rows, saved_ok 40 (fun _ _ => false) calls stream /\ sheet_in stream 0 body
  /\ has_cell 0 calls 16 0 /\ read_rows body = Some rows /\ forall x, In x rows -> rr_row x <> 16.
Proof.
  assert (K : match body_of 0 tall with
              | Some (s, b) => match read_rows b with Some rows => forallb (fun x => negb (rr_row x =? 16)) rows | None => false end
              | None => false end = true) by (vm_compute; reflexivity).
  destruct (body_of 0 tall) as [[s b]|] eqn:E; [|discriminate K]. destruct (read_rows b) as [rows|] eqn:Er; [|discriminate K].
  destruct (body_of_in _ _ _ _ E) as [Es Hb]. exists tall, s, b, rows. split; [exact (small_saved _ _ _ tall_typed tall_fits Es)|]. split; [exact Hb|].
  split; [vm_compute; discriminate|]. split; [exact Er|]. intros x J. rewrite forallb_forall in K. specialize (K x J). lia.
Qed.
Print Assumptions C15_row_records_refuted.

(** C23 fails below the last cell: the height is not saved. *)
Theorem C23_row_heights_refuted : exists calls stream body rows h, saved_ok 40 (fun _ _ => false) calls stream /\ sheet_in stream 0 body
  /\ height_of 0 calls 12 = Some (h, None) /\ read_rows body = Some rows /\ forall x, In x rows -> rr_row x <> 12.
Proof.
  assert (K : match body_of 0 grid with
              | Some (s, b) => match read_rows b with Some rows => forallb (fun x => negb (rr_row x =? 12)) rows | None => false end
              | None => false end = true) by (vm_compute; reflexivity).
  destruct (body_of 0 grid) as [[s b]|] eqn:E; [|discriminate K]. destruct (read_rows b) as [rows|] eqn:Er; [|discriminate K].
  destruct (body_of_in _ _ _ _ E) as [Es Hb]. exists grid, s, b, rows, 400. split; [exact (small_saved _ _ _ grid_typed grid_fits Es)|]. split; [exact Hb|].
  split; [vm_compute; reflexivity|]. split; [exact Er|]. intros x J. rewrite forallb_forall in K. specialize (K x J). lia.
Qed.
Print Assumptions C23_row_heights_refuted.

(** C16 fails for a second row block: its entry is not the position of a DBCELL record. *)
Theorem C16_index_refuted : exists calls stream body pos p i, saved_ok 40 (fun _ _ => false) calls stream /\ sheet_in stream 0 body
  /\ sheet_begins stream 0 pos /\ payloads T_INDEX body = [p] /\ read_index p = Some i
  /\ length (ri_offsets i) = 2%nat /\ length (dbcell_positions (pos + 20) body) = 2%nat /\ ri_offsets i <> dbcell_positions (pos + 20) body.
Proof.
  assert (K : match body_of 0 tall2 with
              | Some (s, b) => match substream s 0 with
                  | Some (kd, g) => match read_boundsheets g, payloads T_INDEX b with
                      | Some [e], [p] => match read_index p with
                          | Some i => (zlen s <? 1000000) && (kd =? K_GLOBALS) && Nat.eqb (length (ri_offsets i)) 2 && Nat.eqb (length (dbcell_positions (se_pos e + 20) b)) 2
                                      && negb (if list_eq_dec Z.eq_dec (ri_offsets i) (dbcell_positions (se_pos e + 20) b) then true else false)
                          | None => false end
                      | _, _ => false end
                  | None => false end
              | None => false end%bool = true) by (vm_compute; reflexivity).
  destruct (body_of 0 tall2) as [[s b]|] eqn:E; [|discriminate K]. destruct (substream s 0) as [[kd g]|] eqn:Eg; [|discriminate K].
  destruct (read_boundsheets g) as [[|e [|]]|] eqn:Er; try discriminate K. destruct (payloads T_INDEX b) as [|p [|]] eqn:Ep; try discriminate K.
  destruct (read_index p) as [i|] eqn:Ei; [|discriminate K].
  apply andb_prop in K. destruct K as [K K4]. apply andb_prop in K. destruct K as [K K3]. apply andb_prop in K. destruct K as [K K2]. apply andb_prop in K. destruct K as [K0 K1].
  destruct (list_eq_dec _ _ _) as [|N] in K4; [discriminate K4|]. apply Nat.eqb_eq in K2, K3. apply Z.eqb_eq in K1. subst kd.
  destruct (body_of_in _ _ _ _ E) as [Es Hb]. pose proof (small_saved _ _ _ tall2_typed tall2_fits Es) as SO.
  exists tall2, s, b, (se_pos e), p, i. split; [exact SO|]. split; [exact Hb|]. split; [|repeat (split; [auto|]); exact N].
  destruct (C17_sheet_directory_partial _ _ _ _ g [[65]] SO) as (entries & Er' & _ & Be); [lia|exact Eg|lia|vm_compute; reflexivity|repeat constructor; vm_compute; discriminate|]. rewrite Er in Er'. apply some_inj in Er'. subst entries. exact (proj1 (Be 0%nat e eq_refl)).
Qed.
Print Assumptions C16_index_refuted.
