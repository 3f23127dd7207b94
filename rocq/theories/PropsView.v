(** C41: window and sheet settings reach the file. *)
From Coq Require Import ZArith List Bool Lia ZifyBool ZifyNat.
From Verif Require Import Bytes UnitModel SpecBuf BufProofs RecModel RecFrames SheetModel XfModel WbModel XfInv ApiModel ApiInv SpecBiff BookRecs SpecApi SpecSaved SpecSheet SpecView
  ApiEff PalTrace ViewTrace SaveOk SaveRecs SaveRead SaveMeans SavedView ViewPay PropsSheet PropsRows DemoDoc.
Import ListNotations.
Local Open Scope Z_scope.

(* ------------------------------------------------------------------ *)
(** * Reading the records back *)

Ltac fld_at pre := first [rewrite (fld16 pre) by reflexivity | etransitivity; [apply (fld16 pre); reflexivity|]].
Lemma flds9 a b c d e f g h i : let p := le16 a ++ le16 b ++ le16 c ++ le16 d ++ le16 e ++ le16 f ++ le16 g ++ le16 h ++ le16 i in
  zlen p = 18 /\ fld 2 p 0 = Some (a mod 65536) /\ fld 2 p 2 = Some (b mod 65536) /\ fld 2 p 4 = Some (c mod 65536) /\ fld 2 p 6 = Some (d mod 65536)
  /\ fld 2 p 8 = Some (e mod 65536) /\ fld 2 p 10 = Some (f mod 65536) /\ fld 2 p 12 = Some (g mod 65536) /\ fld 2 p 14 = Some (h mod 65536) /\ fld 2 p 16 = Some (i mod 65536).
Proof.
  cbv zeta. split; [rewrite !zlen_app, !zlen_le16; reflexivity|].
  split; [apply (fld16 []); reflexivity|]. split; [apply (fld16 (le16 a)); reflexivity|].
  split; [rewrite 1 app_assoc; apply fld16; reflexivity|]. split; [rewrite 2 app_assoc; apply fld16; reflexivity|].
  split; [rewrite 3 app_assoc; apply fld16; reflexivity|]. split; [rewrite 4 app_assoc; apply fld16; reflexivity|]. split; [rewrite 5 app_assoc; apply fld16; reflexivity|].
  split; [rewrite 6 app_assoc; apply fld16; reflexivity|]. rewrite 7 app_assoc. rewrite <- (app_nil_r (le16 i)). apply fld16. reflexivity.
Qed.
Definition w1_bytes (x : window1) : list Z :=
  le16 (w1_horz x * 20) ++ le16 (w1_vert x * 20) ++ le16 (w1_width x * 20) ++ le16 (w1_height x * 20) ++ le16 56
  ++ le16 (w1_active x) ++ le16 (w1_first x) ++ le16 1 ++ le16 (w1_tabwidth x).
Lemma window_read x : read_window (w1_bytes x) =
  Some (mkRW ((w1_horz x * 20) mod 65536) ((w1_vert x * 20) mod 65536) ((w1_width x * 20) mod 65536) ((w1_height x * 20) mod 65536)
             false false true (w1_active x mod 65536) (w1_first x mod 65536) 1 (w1_tabwidth x mod 65536)).
Proof.
  unfold read_window, w1_bytes. destruct (flds9 (w1_horz x * 20) (w1_vert x * 20) (w1_width x * 20) (w1_height x * 20) 56 (w1_active x) (w1_first x) 1 (w1_tabwidth x))
    as (L & A & B & C & D & O & E & F & G & H). rewrite L, A, B, C, D, O, E, F, G, H. reflexivity.
Qed.
Lemma view_read b : read_view (window2_bytes b) = Some (mkRV true b b false true true true false false 0 0).
Proof. destruct b; reflexivity. Qed.
Lemma flds5 a b c d e : let p := le16 a ++ le16 b ++ le16 c ++ le16 d ++ le16 e in
  zlen p = 10 /\ fld 2 p 0 = Some (a mod 65536) /\ fld 2 p 2 = Some (b mod 65536) /\ fld 2 p 4 = Some (c mod 65536) /\ fld 2 p 6 = Some (d mod 65536)
  /\ fld 2 p 8 = Some (e mod 65536).
Proof.
  cbv zeta. split; [rewrite !zlen_app, !zlen_le16; reflexivity|].
  split; [apply (fld16 []); reflexivity|]. split; [apply (fld16 (le16 a)); reflexivity|].
  split; [rewrite 1 app_assoc; apply fld16; reflexivity|]. split; [rewrite 2 app_assoc; apply fld16; reflexivity|].
  rewrite 3 app_assoc. rewrite <- (app_nil_r (le16 e)). apply fld16. reflexivity.
Qed.
Lemma pane_read r c : u16 r -> u16 c -> read_pane (pane_bytes r c) = Some (mkRP c r r c (if r =? 0 then 1 else if c =? 0 then 2 else 0)).
Proof.
  intros A B. unfold read_pane, pane_bytes. set (e := if r =? 0 then 1 else if c =? 0 then 2 else 0). destruct (flds5 c r r c e) as (L & E0 & E1 & E2 & E3 & E4).
  rewrite L, E0, E1, E2, E3, E4. change (negb (10 =? 10)) with false. cbv iota. unfold u16 in *.
  rewrite (Z.mod_small c), (Z.mod_small r), (Z.mod_small e) by (subst e; destruct (r =? 0), (c =? 0); lia). reflexivity.
Qed.
Lemma defrow_read f h : f = 0 \/ f = 1 -> read_defrow (le16 f ++ le16 h) = Some (mkRDR (Z.testbit f 0) false (h mod 65536)).
Proof.
  intro F. unfold read_defrow. rewrite zlen_app, !zlen_le16. change (negb (2 + 2 =? 4)) with false. cbv iota.
  assert (E0 : fld 2 (le16 f ++ le16 h) 0 = Some (f mod 65536)) by (apply (fld16 []); reflexivity).
  assert (E1 : fld 2 (le16 f ++ le16 h) 2 = Some (h mod 65536)) by (rewrite <- (app_nil_r (le16 h)); apply fld16; reflexivity).
  rewrite E0, E1. destruct F as [-> | ->]; reflexivity.
Qed.
Lemma defcol_read v : u16 v -> read_defcol (le16 v) = Some v.
Proof.
  intro U. unfold read_defcol. rewrite zlen_le16. change (2 =? 2) with true. cbv iota.
  rewrite <- (app_nil_r (le16 v)). etransitivity; [apply (fld16 []); reflexivity|]. rewrite Z.mod_small by exact U. reflexivity.
Qed.

(* ------------------------------------------------------------------ *)
(** * The arguments *)

Lemma at_u16 calls : Forall view_typed calls -> u16 (fst (window_at calls)) /\ u16 (snd (window_at calls)).
Proof.
  intro F. unfold window_at. apply (last_forall (fun x => u16 (fst x) /\ u16 (snd x))); [unfold u16; cbn; lia|].
  eapply Forall_impl; [|exact F]. intros q T x E. destruct q; try discriminate E. apply some_inj in E. rewrite <- E. exact T.
Qed.
Lemma size_u16 calls : Forall view_typed calls -> u16 (fst (window_size calls)) /\ u16 (snd (window_size calls)).
Proof.
  intro F. unfold window_size. apply (last_forall (fun x => u16 (fst x) /\ u16 (snd x))); [unfold u16; cbn; lia|].
  eapply Forall_impl; [|exact F]. intros q T x E. destruct q; try discriminate E. apply some_inj in E. rewrite <- E. exact T.
Qed.
Lemma tab_u16 calls : Forall view_typed calls -> u16 (first_tab calls) /\ u16 (tab_bar calls).
Proof.
  intro F. unfold first_tab, tab_bar. split; (apply last_forall; [unfold u16; lia|]);
  (eapply Forall_impl; [|exact F]; intros q T x E; destruct q; try discriminate E; apply some_inj in E; rewrite <- E); cbn [view_typed] in T; unfold u16 in *; lia.
Qed.
Lemma def_u16 k calls : Forall view_typed calls -> u16 (def_height k calls) /\ u16 (def_width k calls) /\ u16 (fst (split_at k calls)) /\ u16 (snd (split_at k calls)).
Proof.
  intro F. split; [|split].
  - unfold def_height. apply last_forall; [unfold u16; lia|]. eapply Forall_impl; [|exact F]. intros q T x E. destruct q; try discriminate E.
    destruct (Nat.eqb k k0); [|discriminate E]. apply some_inj in E. rewrite <- E. exact T.
  - unfold def_width. apply last_forall; [unfold u16; lia|]. eapply Forall_impl; [|exact F]. intros q T x E. destruct q; try discriminate E.
    destruct (Nat.eqb k k0); [|discriminate E]. apply some_inj in E. rewrite <- E. exact T.
  - unfold split_at. apply (last_forall (fun x => u16 (fst x) /\ u16 (snd x))); [unfold u16; cbn; lia|].
    eapply Forall_impl; [|exact F]. intros q T x E. destruct q; try discriminate E. destruct (Nat.eqb k k0); [|discriminate E]. apply some_inj in E. rewrite <- E. exact T.
Qed.
Lemma view_window R calls stream w globals : view R calls stream w -> globals_in stream globals -> payloads T_WINDOW1 globals = [w1_bytes (wb_w1 w)].
Proof.
  intros V Hg. assert (N : ~ In T_WINDOW1 sst_types_all) by not_in. pose proof (view_global_pay _ _ _ _ V globals T_WINDOW1 Hg N) as Pay.
  rewrite pay_globals_cat in Pay by exact N. picks Pay. cbn [app] in Pay. apply Pay. repeat constructor. vm_compute. discriminate.
Qed.
Lemma few_sheets R calls : fits R calls -> forall k, (k < length (sheet_names calls))%nat -> Z.of_nat k mod 65536 = Z.of_nat k.
Proof. intros F k L. pose proof (ft_sheets _ _ F) as B. unfold zlen in B. rewrite Z.mod_small; lia. Qed.

(* ------------------------------------------------------------------ *)
(** * C41 *)

(** The saved workbook describes one window.  It shows the sheet made active last (the first
    one without such a call), it is neither hidden nor minimised and has its scroll bars and tabs, its first tab and its tab bar are those set last, and its
    position and size are those set last wherever twenty times the value fits in 16 bits.
    Partial: larger values, which the 16-bit parameters allow, are refuted below. *)
Theorem C41_window_partial R moves calls stream globals : saved_ok R moves calls stream -> Forall view_typed calls -> globals_in stream globals ->
  exists p r, payloads T_WINDOW1 globals = [p] /\ read_window p = Some r
    /\ rw_active r = Z.of_nat (active_sheet calls) /\ rw_first r = first_tab calls /\ rw_tabs r = tab_bar calls /\ rw_selected r = 1
    /\ rw_hidden r = false /\ rw_iconic r = false /\ rw_bars r = true
    /\ (fst (window_at calls) <= 3276 -> rw_x r = 20 * fst (window_at calls)) /\ (snd (window_at calls) <= 3276 -> rw_y r = 20 * snd (window_at calls))
    /\ (fst (window_size calls) <= 3276 -> rw_width r = 20 * fst (window_size calls)) /\ (snd (window_size calls) <= 3276 -> rw_height r = 20 * snd (window_size calls)).
Proof.
  intros H VT Hg. destruct (saved_view _ _ _ _ H) as [w V]. pose proof (view_window _ _ _ _ _ V Hg) as Pay.
  destruct (window_tracked calls w (vw_typed _ _ _ _ V) (vw_doc _ _ _ _ V)) as [E A].
  assert (As : Z.of_nat (active_sheet calls) mod 65536 = Z.of_nat (active_sheet calls)).
  { apply (few_sheets R calls); [apply V|]. rewrite <- (mn_len _ _ (vw_means _ _ _ _ V)).
    pose proof (ft_sheets _ _ (vw_fits _ _ _ _ V)) as B. pose proof (mn_len _ _ (vw_means _ _ _ _ V)) as Ln. unfold zlen in B. lia. }
  eexists _, _. split; [exact Pay|]. split; [apply window_read|]. rewrite E. unfold w1_of. cbn [w1_horz w1_vert w1_width w1_height w1_active w1_first w1_tabwidth rw_x rw_y rw_width rw_height rw_hidden rw_iconic rw_bars rw_active rw_first rw_selected rw_tabs].
  destruct (tab_u16 _ VT) as [Uf Ut]. destruct (at_u16 _ VT) as [Ux Uy]. destruct (size_u16 _ VT) as [Uw Uh]. unfold u16 in *.
  rewrite !As, !(Z.mod_small (first_tab calls)), !(Z.mod_small (tab_bar calls)) by lia.
  repeat (split; [reflexivity|]). repeat split; intro; rewrite Z.mod_small; lia.
Qed.
Print Assumptions C41_window_partial.

(** The tab of the active sheet, and no other, is selected and displayed. *)
Theorem C41_active_sheet R moves calls stream k body : saved_ok R moves calls stream -> sheet_in stream k body ->
  exists p v, payloads T_WINDOW2 body = [p] /\ read_view p = Some v
    /\ (rv_selected v = true <-> k = active_sheet calls) /\ (rv_displayed v = true <-> k = active_sheet calls).
Proof.
  intros H Hk. destruct (saved_view _ _ _ _ H) as [w V].
  destruct (view_pay _ _ _ _ V k body T_WINDOW2 Hk) as (s & p & Es & _ & Is & Me & Pay); [discriminate|].
  rewrite pay_inner_flat in Pay by not_in. picks Pay. cbn [app] in Pay.
  assert (L : (k < length (wb_sheets w))%nat) by (apply nth_error_Some; congruence).
  pose proof (mn_len _ _ (vw_means _ _ _ _ V)) as Ln.
  destruct (window_tracked calls w (vw_typed _ _ _ _ V) (vw_doc _ _ _ _ V)) as [E A].
  assert (Ac : dac w = Z.of_nat (active_sheet calls)).
  { change (dac w) with (w1_active (wb_w1 w)). rewrite E. unfold w1_of. cbn [w1_active]. apply (few_sheets R calls); [apply V|]. lia. }
  assert (Ix : sh_index s = Z.of_nat k).
  { rewrite (wi_idx _ (w2_inv _ (mn_inv _ _ (vw_means _ _ _ _ V))) k s Es). apply (few_sheets R calls); [apply V|]. lia. }
  eexists _, _. split; [apply Pay; repeat constructor; destruct (sh_index s =? dac w); vm_compute; discriminate|]. split; [apply view_read|].
  cbn [rv_selected rv_displayed]. rewrite Ac, Ix. lia.
Qed.
Print Assumptions C41_active_sheet.

(** Every sheet is displayed in the ordinary way: results rather than formulas, with grid
    lines, headings and zeros, from left to right and from its first cell on. *)
Theorem C41_ordinary_view R moves calls stream k body : saved_ok R moves calls stream -> sheet_in stream k body ->
  exists p v, payloads T_WINDOW2 body = [p] /\ read_view p = Some v
    /\ rv_formulas v = false /\ rv_grid v = true /\ rv_headings v = true /\ rv_zeros v = true /\ rv_mirrored v = false /\ rv_preview v = false
    /\ rv_top v = 0 /\ rv_left v = 0.
Proof.
  intros H Hk. destruct (saved_view _ _ _ _ H) as [w V].
  destruct (view_pay _ _ _ _ V k body T_WINDOW2 Hk) as (s & p & Es & _ & Is & Me & Pay); [discriminate|].
  rewrite pay_inner_flat in Pay by not_in. picks Pay. cbn [app] in Pay.
  eexists _, _. split; [apply Pay; repeat constructor; destruct (sh_index s =? dac w); vm_compute; discriminate|]. split; [apply view_read|].
  repeat split.
Qed.
Print Assumptions C41_ordinary_view.

(** Each sheet states the default column width set last, and the default row height wherever
    twenty times the value fits in 16 bits; heights other than 15 points are marked as set. *)
Theorem C41_defaults_partial R moves calls stream k body : saved_ok R moves calls stream -> Forall view_typed calls -> sheet_in stream k body ->
  exists pr r pc, payloads T_DEFAULTROWHEIGHT body = [pr] /\ read_defrow pr = Some r
    /\ payloads T_DEFCOLWIDTH body = [pc] /\ read_defcol pc = Some (def_width k calls)
    /\ (rr_set r = true <-> def_height k calls <> 15)
    /\ (def_height k calls <= 3276 -> rr_twips r = 20 * def_height k calls).
Proof.
  intros H VT Hk. destruct (saved_view _ _ _ _ H) as [w V]. destruct (def_u16 k _ VT) as (Uh & Uw & _ & _).
  destruct (view_pay _ _ _ _ V k body T_DEFAULTROWHEIGHT Hk) as (s & p & Es & _ & _ & _ & Pay); [discriminate|].
  destruct (view_pay _ _ _ _ V k body T_DEFCOLWIDTH Hk) as (s' & p' & Es' & _ & _ & _ & Pay'); [discriminate|].
  rewrite Es in Es'. apply some_inj in Es'. subst s'. destruct (sheet_asked _ _ _ _ (vw_doc _ _ _ _ V) Es) as (Eh & Ew & _ & _).
  rewrite pay_inner_flat in Pay by not_in. picks Pay. cbn [app] in Pay. rewrite pay_inner_flat in Pay' by not_in. picks Pay'. cbn [app] in Pay'.
  rewrite Eh in Pay. rewrite Ew in Pay'.
  eexists _, _, _. split; [apply Pay; repeat constructor; rewrite zlen_app, !zlen_le16; lia|].
  split; [apply defrow_read; destruct (def_height k calls =? 15); auto|].
  split; [apply Pay'; repeat constructor; rewrite zlen_le16; lia|]. split; [apply defcol_read; exact Uw|]. cbn [rr_set rr_twips]. unfold u16 in *.
  split; [destruct (def_height k calls =? 15) eqn:E; cbn; split; intro; try discriminate; lia|]. intro. rewrite Z.mod_small; lia.
Qed.
Print Assumptions C41_defaults_partial.

(** A sheet has frozen panes exactly if a split other than 0, 0 was set last: that many
    rows and columns stay, the rest scrolls from there, and the pane that is active
    is one that exists. *)
Theorem C41_panes R moves calls stream k body : saved_ok R moves calls stream -> Forall view_typed calls -> sheet_in stream k body ->
  let (rows, cols) := split_at k calls in
  (rows = 0 /\ cols = 0 -> payloads T_PANE body = [])
  /\ (rows <> 0 \/ cols <> 0 -> exists p r, payloads T_PANE body = [p] /\ read_pane p = Some r
        /\ rp_rows r = rows /\ rp_cols r = cols /\ rp_top r = rows /\ rp_left r = cols
        /\ (rp_active r = 0 <-> rows <> 0 /\ cols <> 0) /\ (rp_active r = 1 <-> rows = 0) /\ (rp_active r = 2 <-> cols = 0))
  /\ exists p v, payloads T_WINDOW2 body = [p] /\ read_view p = Some v /\ rv_frozen v = true.
Proof.
  intros H VT Hk. destruct (saved_view _ _ _ _ H) as [w V]. destruct (def_u16 k _ VT) as (_ & _ & Ur & Uc).
  destruct (view_pay _ _ _ _ V k body T_PANE Hk) as (s & p & Es & _ & _ & _ & Pay); [discriminate|].
  destruct (view_pay _ _ _ _ V k body T_WINDOW2 Hk) as (s' & p' & Es' & _ & _ & _ & Pay'); [discriminate|].
  destruct (sheet_asked _ _ _ _ (vw_doc _ _ _ _ V) Es) as (_ & _ & Er & Ec).
  rewrite pay_inner_flat in Pay by not_in. picks Pay. cbn [app] in Pay. rewrite !app_nil_r in Pay. rewrite pay_inner_flat in Pay' by not_in. picks Pay'. cbn [app] in Pay'.
  destruct (split_at k calls) as [rows cols]. cbn [fst snd] in *. rewrite Er, Ec in Pay. split; [|split].
  - intros [-> ->]. apply Pay. constructor.
  - intro N. replace ((rows =? 0) && (cols =? 0))%bool with false in Pay by lia. eexists _, _. split; [apply Pay; repeat constructor; unfold pane_bytes; rewrite !zlen_app, !zlen_le16; lia|].
    split; [apply pane_read; assumption|]. cbn [rp_rows rp_cols rp_top rp_left rp_active]. repeat (split; [reflexivity|]).
    destruct (rows =? 0) eqn:?, (cols =? 0) eqn:?; lia.
  - eexists _, _. split; [apply Pay'; repeat constructor; destruct (sh_index s' =? dac w); vm_compute; discriminate|]. split; [apply view_read|]. reflexivity.
Qed.
Print Assumptions C41_panes.

(* ------------------------------------------------------------------ *)
(** * A document *)

Definition viewed : list call :=
  [KSheet (TChar [65]); KSheet (TChar [66]); KWindPos 10 20; KWindSize 3300 400; KActive 1; KFirstTab 1; KTabBar 1200;
   KDefRowHeight 0 3300 false; KDefRowHeight 1 20 true; KDefColWidth 0 12; KSplit 0 2 0; KSplit 1 2 3].
Lemma viewed_typed : Forall typed viewed.
Proof. unfold viewed. small_typed. Qed.
Lemma viewed_view_typed : Forall view_typed viewed.
Proof. unfold viewed. repeat (apply Forall_cons; [cbn [view_typed]; unfold u16; try exact I; lia|]). apply Forall_nil. Qed.
Lemma viewed_fits : fits 40 viewed.
Proof. unfold viewed. small_fits. intro k. exists []. split; [cbn; lia|]. intros r H. exfalso. apply H. reflexivity. Qed.
(** It meets the hypotheses of the statements above. *)
Example viewed_saved : exists stream g b, saved_ok 40 (fun _ _ => false) viewed stream /\ globals_in stream g /\ sheet_in stream 1 b
  /\ Forall view_typed viewed /\ window_at viewed = (10, 20) /\ active_sheet viewed = 1%nat /\ split_at 1 viewed = (2, 3) /\ tab_bar viewed = 1000.
Proof.
  assert (K : match stream_of 400 viewed with Some s => match substream s 0, substream s 2 with Some (a, _), Some (b, _) => (a =? K_GLOBALS) && (b =? K_SHEET) | _, _ => false end
              | None => false end%bool = true) by (vm_compute; reflexivity).
  destruct (stream_of 400 viewed) as [s|] eqn:E; [|discriminate K]. destruct (substream s 0) as [[a g]|] eqn:Eg; [|discriminate K]. destruct (substream s 2) as [[c b]|] eqn:Eb; [|discriminate K].
  apply andb_prop in K. destruct K as [K1 K2]. apply Z.eqb_eq in K1, K2. subst a c. exists s, g, b. split; [exact (small_saved _ _ _ viewed_typed viewed_fits E)|].
  split; [exact Eg|]. split; [exact Eb|]. split; [exact viewed_view_typed|]. repeat split.
Qed.

(** Sizes of more than 3276 points wrap around: 3300 points become 464 twips, 23.2 points. *)
Theorem C41_window_refuted : exists calls stream globals p r, saved_ok 40 (fun _ _ => false) calls stream /\ Forall view_typed calls /\ globals_in stream globals
  /\ payloads T_WINDOW1 globals = [p] /\ read_window p = Some r /\ window_size calls = (3300, 400) /\ rw_width r = 464.
Proof.
  assert (K : match stream_of 400 viewed with Some s => match substream s 0 with Some (a, g) => match payloads T_WINDOW1 g with [p] => match read_window p with Some r =>
      (a =? K_GLOBALS) && (rw_width r =? 464) | None => false end | _ => false end | _ => false end | None => false end%bool = true) by (vm_compute; reflexivity).
  destruct (stream_of 400 viewed) as [s|] eqn:E; [|discriminate K]. destruct (substream s 0) as [[a g]|] eqn:Eg; [|discriminate K].
  destruct (payloads T_WINDOW1 g) as [|p [|]] eqn:Ep; try discriminate K. destruct (read_window p) as [r|] eqn:Er; [|discriminate K].
  apply andb_prop in K. destruct K as [K1 K2]. apply Z.eqb_eq in K1, K2. subst a. exists viewed, s, g, p, r. split; [exact (small_saved _ _ _ viewed_typed viewed_fits E)|].
  split; [exact viewed_view_typed|]. split; [exact Eg|]. split; [exact Ep|]. split; [exact Er|]. split; [reflexivity|exact K2].
Qed.
Print Assumptions C41_window_refuted.
(** So do default row heights. *)
Theorem C41_defaults_refuted : exists calls stream body p r, saved_ok 40 (fun _ _ => false) calls stream /\ Forall view_typed calls /\ sheet_in stream 0 body
  /\ payloads T_DEFAULTROWHEIGHT body = [p] /\ read_defrow p = Some r /\ def_height 0 calls = 3300 /\ rr_twips r = 464.
Proof.
  assert (K : match body_of 0 viewed with Some (s, b) => match payloads T_DEFAULTROWHEIGHT b with [p] => match read_defrow p with Some r =>
      rr_twips r =? 464 | None => false end | _ => false end | None => false end = true) by (vm_compute; reflexivity).
  destruct (body_of 0 viewed) as [[s b]|] eqn:E; [|discriminate K]. destruct (payloads T_DEFAULTROWHEIGHT b) as [|p [|]] eqn:Ep; try discriminate K.
  destruct (read_defrow p) as [r|] eqn:Er; [|discriminate K]. destruct (body_of_in _ _ _ _ E) as [Es Hb]. exists viewed, s, b, p, r.
  split; [exact (small_saved _ _ _ viewed_typed viewed_fits Es)|]. split; [exact viewed_view_typed|]. split; [exact Hb|]. split; [exact Ep|]. split; [exact Er|]. split; [reflexivity|lia].
Qed.
Print Assumptions C41_defaults_refuted.
(** Asking for hidden default rows has no effect on any document's file. *)
Theorem C41_hidden_rows_ignored R moves calls stream k body : saved_ok R moves calls stream -> Forall view_typed calls -> sheet_in stream k body ->
  exists p r, payloads T_DEFAULTROWHEIGHT body = [p] /\ read_defrow p = Some r /\ rr_hidden r = false.
Proof.
  intros H VT Hk. destruct (saved_view _ _ _ _ H) as [w V].
  destruct (view_pay _ _ _ _ V k body T_DEFAULTROWHEIGHT Hk) as (s & p & Es & _ & _ & _ & Pay); [discriminate|].
  destruct (sheet_asked _ _ _ _ (vw_doc _ _ _ _ V) Es) as (Eh & _). rewrite pay_inner_flat in Pay by not_in. picks Pay. cbn [app] in Pay. rewrite Eh in Pay.
  eexists _, _. split; [apply Pay; repeat constructor; rewrite zlen_app, !zlen_le16; lia|].
  split; [apply defrow_read; destruct (def_height k calls =? 15); auto|]. reflexivity.
Qed.
Print Assumptions C41_hidden_rows_ignored.
Example hidden_asked : def_hidden 1 viewed = true.
Proof. reflexivity. Qed.
