(** The globals dump emits [g_units]. *)
From Coq Require Import ZArith List Bool Lia ZifyBool ZifyNat.
From Verif Require Import Bytes UnitModel RecModel SheetModel XfModel WbModel RecProofs RecFrames
  XfProofs SheetProofs SheetTrace.
Import ListNotations.
Local Open Scope Z_scope.

Definition g_rank (s : gstate) : nat :=
  match s with
  | GInit => 2 | GFonts => 3 | GFormats => 2 | GXfs => 2 | GBsheets => 2 | GDrawing => 3 | GSst => 2
  | _ => 1
  end%nat.
Ltac gbrk := first [discriminate | brk | match goal with |- match ?x with _ => _ end = _ -> _ => destruct x end].
Lemma g_again_rank g d d1 : g_step g d = Ok (GAgain, d1) -> (g_rank (gd_state d1) < g_rank (gd_state d))%nat.
Proof.
  unfold g_step. destruct (gd_state d) eqn:E; try solve [repeat gbrk].
  - intro H. injection H as <-. cbn. lia.
  - destruct (fs_fonts _). { intro H; injection H as <-; cbn; lia. } repeat gbrk.
  - destruct (fs_formats _). { intro H; injection H as <-; cbn; lia. } repeat gbrk.
  - destruct (fs_xfs _). { intro H; injection H as <-; cbn; lia. } repeat gbrk.
  - destruct (g_bs _). { intro H; injection H as <-; cbn; lia. } repeat gbrk.
  - destruct (noted_sheets _ _). { intro H; injection H as <-; cbn; lia. } repeat gbrk.
  - destruct (g_labels _). { intro H; injection H as <-; cbn; lia. } repeat gbrk.
Qed.
Lemma g_loop_enough g : forall n m d, (g_rank (gd_state d) <= n)%nat -> (g_rank (gd_state d) <= m)%nat ->
  g_loop n g d = g_loop m g d.
Proof.
  induction n; intros m d Hn Hm. { destruct (gd_state d); cbn in Hn; lia. }
  destruct m. { destruct (gd_state d); cbn in Hm; lia. }
  cbn [g_loop]. destruct (g_step g d) as [[[|u b] d1]| |] eqn:E; cbn [bind]; auto.
  apply g_again_rank in E. apply IHn; lia.
Qed.
Lemma globals_dump_data_eq g d :
  globals_dump_data g d =
  (let* (r, d1) := g_step g d in
   match r with GAgain => globals_dump_data g d1 | GGive u b => Ok (u, b, d1) end).
Proof.
  unfold globals_dump_data. change (g_loop 4 g d) with
   (let* (r, d1) := g_step g d in
   match r with GAgain => g_loop 3 g d1 | GGive u b => Ok (u, b, d1) end).
  destruct (g_step g d) as [[[|u b] d1]| |] eqn:E; cbn [bind]; auto.
  apply g_again_rank in E. assert (g_rank (gd_state d) <= 3)%nat by (destruct (gd_state d); cbn; lia).
  apply g_loop_enough; lia.
Qed.

(* ------------------------------------------------------------------ *)

(** Units before the BOUNDSHEETs, the BOUNDSHEETs (with given positions), and after. *)
Definition g_head (g : globals) : list bunit :=
  [ubuild (rec_bof 5); ubuild (rec_codepage 1200); ubuild (rec_window1 (g_w1 g)); ubuild rec_datemode]
  ++ map (fun f => ubuild (rec_font (fo_val f))) (fs_dfonts (g_fs g))
  ++ map (fun f => ubuild (rec_font (fo_val f))) (fs_fonts (g_fs g))
  ++ map (fun f => ubuild (rec_format f)) (indexed_formats (fs_formats (g_fs g)) 164)
  ++ map (fun x => ubuild (rec_xf x)) (fs_dxfs (g_fs g))
  ++ map (fun x => ubuild (rec_xf x)) (fs_xfs (g_fs g))
  ++ map (fun s => ubuild (rec_style s)) default_styles
  ++ [ubuild (rec_palette (g_palette g))].
Definition bs_unit (p : Z) (name : list Z) : bunit := ubuild (rec_bsheet p name).
Definition sst_unit (g : globals) : bunit := mkBU (bu_bytes (ubuild (rec_sst (map snd (g_labels g))))) true.
Definition g_tail (g : globals) : list bunit :=
  [ubuild (rec_supbook (zlen (g_bs g))); ubuild (rec_externsheet (length (g_bs g)))]
  ++ match noted_sheets (g_bs g) 0 with [] => [] | l => [ubuild (rec_drawing_group l)] end
  ++ match g_labels g with [] => [] | _ => [sst_unit g] end
  ++ [ubuild rec_eof].

(** What the dump needs of the globals. *)
Definition globals_ok (g : globals) : Prop :=
  fs_dfonts (g_fs g) <> [] /\ fs_dxfs (g_fs g) <> [] /\
  zlen (frame_all (sst_recs (map snd (g_labels g)))) < 4294967000.

Lemma build_font f : build (rec_font f) = Ok (ubuild (rec_font f)).
Proof. eapply ubuild_ok. unfold rec_font. apply build_rec. unfold app_only. cbn. discriminate. Qed.
Lemma build_format f : build (rec_format f) = Ok (ubuild (rec_format f)).
Proof. eapply ubuild_ok. unfold rec_format. apply build_rec. unfold app_only. cbn. discriminate. Qed.
Lemma build_style f : build (rec_style f) = Ok (ubuild (rec_style f)).
Proof. eapply ubuild_ok. unfold rec_style. apply build_rec. unfold app_only. cbn. discriminate. Qed.
Lemma build_palette f : build (rec_palette f) = Ok (ubuild (rec_palette f)).
Proof. eapply ubuild_ok. unfold rec_palette. apply build_rec. unfold app_only. cbn. discriminate. Qed.
Lemma build_window1 f : build (rec_window1 f) = Ok (ubuild (rec_window1 f)).
Proof. eapply ubuild_ok. unfold rec_window1. apply build_rec. unfold app_only. cbn. discriminate. Qed.
Lemma build_bsheet p n : build (rec_bsheet p n) = Ok (bs_unit p n).
Proof. eapply ubuild_ok. unfold rec_bsheet. apply build_rec. unfold app_only. cbn. discriminate. Qed.
Lemma build_datemode : build rec_datemode = Ok (ubuild rec_datemode).
Proof. reflexivity. Qed.
Lemma build_codepage v : build (rec_codepage v) = Ok (ubuild (rec_codepage v)).
Proof. reflexivity. Qed.

Section G.
Variable g : globals.

(** [P]: what to do with each unit, and with the end. *)
Inductive gtrace : gdump -> list (bunit * bool) -> gdump -> Prop :=
| gtrace_end d b d' : globals_dump_data g d = Ok (None, b, d') -> gtrace d [] d'
| gtrace_give d u b d1 us d' : globals_dump_data g d = Ok (Some u, b, d1) ->
    gtrace d1 us d' -> gtrace d ((u, b) :: us) d'.

Lemma gtrace_again d d1 us d' : g_step g d = Ok (GAgain, d1) -> gtrace d1 us d' -> gtrace d us d'.
Proof.
  intros H T. destruct T as [d1 b d' E|d1 u b d2 us d' E T].
  - eapply gtrace_end. rewrite globals_dump_data_eq, H. exact E.
  - eapply gtrace_give; [|exact T]. rewrite globals_dump_data_eq, H. exact E.
Qed.
Lemma gtrace_step d u b d1 us d' : g_step g d = Ok (GGive (Some u) b, d1) ->
  gtrace d1 us d' -> gtrace d ((u, b) :: us) d'.
Proof. intros H T. eapply gtrace_give; [|exact T]. rewrite globals_dump_data_eq, H. reflexivity. Qed.

Definition plain (us : list bunit) : list (bunit * bool) := map (fun u => (u, false)) us.
Lemma plain_app a b : plain (a ++ b) = plain a ++ plain b.
Proof. apply map_app. Qed.

Ltac gf := cbn [gd_state gd_dfont gd_font gd_format gd_dxf gd_xf gd_style gd_bs gto bind after].

Lemma gt_dfont fo fm dx x st bs us d' : forall l, l <> [] ->
  gtrace (mkGD GFonts [] fo fm dx x st bs) us d' ->
  gtrace (mkGD GDefFonts l fo fm dx x st bs) (plain (map (fun f => ubuild (rec_font (fo_val f))) l) ++ us) d'.
Proof.
  induction l as [|f t IH]; intros Hn T; [congruence|]. cbn [map plain app].
  eapply gtrace_step. { unfold g_step. gf. rewrite build_font. gf. reflexivity. }
  destruct t as [|f1 t]; [exact T|]. apply IH; [discriminate|exact T].
Qed.
Lemma gt_font df fm dx x st bs us d' : forall l, (fs_fonts (g_fs g) = [] <-> l = []) ->
  gtrace (mkGD GFormats df [] fm dx x st bs) us d' ->
  gtrace (mkGD GFonts df l fm dx x st bs) (plain (map (fun f => ubuild (rec_font (fo_val f))) l) ++ us) d'.
Proof.
  intros l Hc. destruct (fs_fonts (g_fs g)) as [|c0 ct] eqn:E.
  - destruct l; [|destruct Hc as [Hc _]; discriminate Hc; auto]. intro T. cbn [map plain app].
    eapply gtrace_again; [|exact T]. unfold g_step. gf. rewrite E. reflexivity.
  - assert (Hn : l <> []) by (intros ->; destruct Hc as [_ Hc]; discriminate Hc; auto). clear Hc.
    induction l as [|f t IH]; intros T; [congruence|]. cbn [map plain app].
    eapply gtrace_step. { unfold g_step. gf. rewrite E, build_font. gf. reflexivity. }
    destruct t as [|f1 t]; [exact T|]. apply IH; [discriminate|exact T].
Qed.
Lemma gt_format df fo dx x st bs us d' : forall l, (fs_formats (g_fs g) = [] <-> l = []) ->
  gtrace (mkGD GDefXfs df fo [] dx x st bs) us d' ->
  gtrace (mkGD GFormats df fo l dx x st bs) (plain (map (fun f => ubuild (rec_format f)) l) ++ us) d'.
Proof.
  intros l Hc. destruct (fs_formats (g_fs g)) as [|c0 ct] eqn:E.
  - destruct l; [|destruct Hc as [Hc _]; discriminate Hc; auto]. intro T. cbn [map plain app].
    eapply gtrace_again; [|exact T]. unfold g_step. gf. rewrite E. reflexivity.
  - assert (Hn : l <> []) by (intros ->; destruct Hc as [_ Hc]; discriminate Hc; auto). clear Hc.
    induction l as [|f t IH]; intros T; [congruence|]. cbn [map plain app].
    eapply gtrace_step. { unfold g_step. gf. rewrite E, build_format. gf. reflexivity. }
    destruct t as [|f1 t]; [exact T|]. apply IH; [discriminate|exact T].
Qed.
Lemma gt_dxf df fo fm x st bs us d' : forall l, l <> [] ->
  gtrace (mkGD GXfs df fo fm [] x st bs) us d' ->
  gtrace (mkGD GDefXfs df fo fm l x st bs) (plain (map (fun f => ubuild (rec_xf f)) l) ++ us) d'.
Proof.
  induction l as [|f t IH]; intros Hn T; [congruence|]. cbn [map plain app].
  eapply gtrace_step. { unfold g_step. gf. rewrite (ubuild_ok _ _ (build_xf f)). gf. reflexivity. }
  destruct t as [|f1 t]; [exact T|]. apply IH; [discriminate|exact T].
Qed.
Lemma gt_xf df fo fm dx st bs us d' : forall l, (fs_xfs (g_fs g) = [] <-> l = []) ->
  gtrace (mkGD GStyles df fo fm dx [] st bs) us d' ->
  gtrace (mkGD GXfs df fo fm dx l st bs) (plain (map (fun f => ubuild (rec_xf f)) l) ++ us) d'.
Proof.
  intros l Hc. destruct (fs_xfs (g_fs g)) as [|c0 ct] eqn:E.
  - destruct l; [|destruct Hc as [Hc _]; discriminate Hc; auto]. intro T. cbn [map plain app].
    eapply gtrace_again; [|exact T]. unfold g_step. gf. rewrite E. reflexivity.
  - assert (Hn : l <> []) by (intros ->; destruct Hc as [_ Hc]; discriminate Hc; auto). clear Hc.
    induction l as [|f t IH]; intros T; [congruence|]. cbn [map plain app].
    eapply gtrace_step. { unfold g_step. gf. rewrite E, (ubuild_ok _ _ (build_xf f)). gf. reflexivity. }
    destruct t as [|f1 t]; [exact T|]. apply IH; [discriminate|exact T].
Qed.
Lemma gt_style df fo fm dx x bs us d' : forall l, l <> [] ->
  gtrace (mkGD GPalette df fo fm dx x [] bs) us d' ->
  gtrace (mkGD GStyles df fo fm dx x l bs) (plain (map (fun f => ubuild (rec_style f)) l) ++ us) d'.
Proof.
  induction l as [|f t IH]; intros Hn T; [congruence|]. cbn [map plain app].
  eapply gtrace_step. { unfold g_step. gf. rewrite build_style. gf. reflexivity. }
  destruct t as [|f1 t]; [exact T|]. apply IH; [discriminate|exact T].
Qed.
Definition bs_units (l : list bsheet) : list (bunit * bool) := map (fun b => (bs_unit 0 (bs_name b), true)) l.
Lemma gt_bs df fo fm dx x st us d' : forall l, (g_bs g = [] <-> l = []) ->
  gtrace (mkGD GLink1 df fo fm dx x st []) us d' ->
  gtrace (mkGD GBsheets df fo fm dx x st l) (bs_units l ++ us) d'.
Proof.
  intros l Hc. destruct (g_bs g) as [|c0 ct] eqn:E.
  - destruct l; [|destruct Hc as [Hc _]; discriminate Hc; auto]. intro T. cbn [map bs_units app].
    eapply gtrace_again; [|exact T]. unfold g_step. gf. rewrite E. reflexivity.
  - assert (Hn : l <> []) by (intros ->; destruct Hc as [_ Hc]; discriminate Hc; auto). clear Hc.
    induction l as [|f t IH]; intros T; [congruence|]. cbn [map bs_units app].
    eapply gtrace_step. { unfold g_step. gf. rewrite E, build_bsheet. gf. reflexivity. }
    destruct t as [|f1 t]; [exact T|]. apply IH; [discriminate|exact T].
Qed.

Lemma indexed_nil l i : l = [] <-> indexed_formats l i = [].
Proof. destruct l; cbn; split; try reflexivity; discriminate. Qed.

Definition g_trace_units : list (bunit * bool) := plain (g_head g) ++ bs_units (g_bs g) ++ plain (g_tail g).
Theorem globals_trace d : gd_state d = GInit -> globals_ok g ->
  exists d', gtrace d g_trace_units d' /\ gd_state d' = GInit.
Proof.
  intros E0 (Hf & Hx & Hs). exists (mkGD GInit [] [] [] [] [] [] []). split; [|reflexivity].
  unfold g_trace_units, g_head. rewrite !plain_app, <- !app_assoc.
  eapply gtrace_again. { unfold g_step. rewrite E0. reflexivity. }
  cbn [plain map app].
  eapply gtrace_step. { unfold g_step. gf. rewrite build_bof. gf. reflexivity. }
  eapply gtrace_step. { unfold g_step. gf. rewrite build_codepage. gf. reflexivity. }
  eapply gtrace_step. { unfold g_step. gf. rewrite build_window1. gf. reflexivity. }
  eapply gtrace_step. { unfold g_step. gf. rewrite build_datemode. gf. reflexivity. }
  gf. apply gt_dfont; auto. apply gt_font; [tauto|]. apply gt_format; [apply indexed_nil|].
  apply gt_dxf; auto. apply gt_xf; [tauto|]. apply gt_style; [discriminate|].
  eapply gtrace_step. { unfold g_step. gf. rewrite build_palette. gf. reflexivity. }
  gf. apply gt_bs; [tauto|]. unfold g_tail. rewrite !plain_app. cbn [plain map app].
  eapply gtrace_step. { unfold g_step. gf. rewrite (ubuild_ok _ _ (build_supbook _)). gf. reflexivity. }
  eapply gtrace_step. { unfold g_step. gf. rewrite (ubuild_ok _ _ (build_externsheet _)). gf. reflexivity. }
  gf.
  assert (E : gtrace (mkGD GEof [] [] [] [] [] [] []) [(ubuild rec_eof, false)] (mkGD GInit [] [] [] [] [] [] [])).
  { eapply gtrace_step. { unfold g_step. gf. rewrite build_eof. gf. reflexivity. }
    eapply gtrace_end. rewrite globals_dump_data_eq. unfold g_step. gf. reflexivity. }
  assert (S : gtrace (mkGD GSst [] [] [] [] [] [] []) (plain (match g_labels g with [] => [] | _ => [sst_unit g] end) ++ [(ubuild rec_eof, false)])
     (mkGD GInit [] [] [] [] [] [] [])).
  { destruct (g_labels g) as [|l0 lt] eqn:El.
    - cbn [plain map app]. eapply gtrace_again; [|exact E]. unfold g_step. gf. rewrite El. reflexivity.
    - cbn [plain map app]. eapply gtrace_step; [|exact E]. unfold g_step, sst_unit. gf. rewrite El.
      rewrite (ubuild_ok _ _ (build_sst _ Hs)). gf. reflexivity. }
  destruct (noted_sheets (g_bs g) 0) as [|n0 nt] eqn:En.
  - cbn [plain map app]. eapply gtrace_again; [|exact S]. unfold g_step. gf. rewrite En. reflexivity.
  - cbn [plain map app]. eapply gtrace_step; [|exact S]. unfold g_step. gf. rewrite En.
    rewrite (ubuild_ok _ _ (build_group _)). gf. reflexivity.
Qed.
End G.
