(** C45: colouring a range and boxing a range. *)
From Coq Require Import ZArith List Bool Lia ZifyBool ZifyNat Sorted.
From Verif Require Import Bytes UnitModel SpecBuf RecModel SheetModel XfModel WbModel RecProofs RecFrames SpecXf XfProofs SpecXfOps PropsXf XfInv Looks ApiModel SpecBiff BookRecs ApiInv
  SpecApi ApiEff SheetProofs SheetTrace GlobTrace WbProofs SaveOk SaveRecs SaveRead SpecSaved SaveMeans DocLimits SavedView DemoDoc XfTrace SpecLook LookInv ViewPay PropsSheet RefTrace LookStep
  FontUse Careful ViewLook FontLook CellLook PropsRows PropsLook RangeModel RangePaint SpecPaint RangeLooks.
Import ListNotations.
Local Open Scope Z_scope.
Local Notation mem := ApiEff.mem.
Local Notation few := LookInv.few.

(** C45 (ordinary): a document painted with cellcolor and boxer is saved exactly as some
    document made with ordinary calls only; its cells, sheets, merged ranges, widths,
    heights, notes, links, validations and colours are those asked for.  So all that is
    proved of saved documents holds of painted ones. *)
Theorem C45_ordinary R moves xs s : xsaved_ok R moves xs s ->
  exists calls, saved_ok R moves calls s /\ same_facts calls (map shape xs) /\ (Forall xargs xs -> Forall args calls).
Proof.
  intro H. destruct (xsaved_doc _ _ _ _ H) as (w & D). destruct (x_stands _ _ (xo_typed _ _ _ _ H) D) as (calls & S). exists calls.
  split; [exact (stands_saved _ _ _ _ _ _ H S D)|]. split; [exact (st_facts _ _ _ S)|exact (st_args _ _ _ S)].
Qed.
Print Assumptions C45_ordinary.

Lemma wv_reads calls w k r c : means calls w -> option_map read_as (wv w k r c) = option_map (fun u => read_as (make_val 0 u)) (cells_of k calls r c).
Proof.
  intro M. unfold wv.
  assert (V : vm (match nth_error (wb_sheets w) k with Some s => fv s r c | None => None end) (cells_of k calls r c)).
  { destruct (nth_error (wb_sheets w) k) as [s|] eqn:E; [exact (me_vals _ _ _ (mn_sheet _ _ M k s E) r c)|]. apply nth_error_None in E.
    exact (me_vals _ _ _ (silent_meaning k calls 0 (mn_silent _ _ M k E)) r c). }
  destruct (match nth_error (wb_sheets w) k with Some s => fv s r c | None => None end) as [v|]; destruct (cells_of k calls r c) as [u|]; cbn [vm] in V; try (destruct V; fail); [|reflexivity].
  destruct V as (id & ->). cbn [option_map]. f_equal. destruct u; cbn [make_val]; try reflexivity; destruct (_ : bool); reflexivity.
Qed.

(* ------------------------------------------------------------------ *)
(** * What the setters amount to *)

Lemma on_on f x y u : on f x (on f y u) = on f (y || x) u.
Proof. unfold on. destruct x, y; cbn [orb]; rewrite <- ?Z.lor_assoc, ?Z.lor_diag; reflexivity. Qed.
Lemma sets_app a b x : sets (a ++ b) x = sets b (sets a x).
Proof. apply fold_left_app. Qed.
Lemma sets_color color a : sets (color_ops color) a = coloured color a.
Proof.
  destruct a as [fo nf lk hd ha wr va ro ind l r t b pat fg bg u]. unfold sets, color_ops, coloured. cbn [fold_left spec_set xa_font xa_numfmt xa_locked xa_hidden xa_halign xa_wrap xa_valign xa_rotation xa_indent xa_left xa_right xa_top xa_bottom xa_back xa_used].
  change (fill_code 1) with 1. change (negb (1 =? 0)) with true. rewrite on_on, orb_true_r. reflexivity.
Qed.
Lemma sets_edge b side style color a :
  sets (edge_ops b side style color) a =
  on_side side (fun p => if b then (style, palette_code color) else p) a (on uBORDER (b && (negb (style =? 0) || negb (palette_code color =? 0))) (xa_used a)).
Proof.
  destruct a as [fo nf lk hd ha wr va ro ind l r t bo pat fg bg u]. destruct b; unfold edge_ops, sets; cbn [fold_left].
  - unfold on_side. cbn [spec_set andb on_side xa_font xa_numfmt xa_locked xa_hidden xa_halign xa_wrap xa_valign xa_rotation xa_indent xa_left xa_right xa_top xa_bottom xa_pattern xa_fore xa_back xa_used]. unfold on_side. cbn [xa_font xa_numfmt xa_locked xa_hidden xa_halign xa_wrap xa_valign xa_rotation xa_indent xa_left xa_right xa_top xa_bottom xa_pattern xa_fore xa_back xa_used].
    rewrite on_on. destruct (side =? 2), (side =? 3), (side =? 1), (side =? 0); reflexivity.
  - cbn [andb]. unfold on_side, on. cbn [xa_font xa_numfmt xa_locked xa_hidden xa_halign xa_wrap xa_valign xa_rotation xa_indent xa_left xa_right xa_top xa_bottom xa_pattern xa_fore xa_back xa_used].
    destruct (side =? 2), (side =? 3), (side =? 1), (side =? 0); reflexivity.
Qed.
Lemma sets_box r1 c1 r2 c2 r c style fill bcolor fg bg a :
  sets (box_ops r1 c1 r2 c2 r c style fill bcolor fg bg) a =
  boxed (r =? r1) (r =? r2) (c =? c1) (c =? c2) style bcolor fill (palette_code bg) (xa_back a) (negb (fg =? 57) || negb (bg =? 57) || negb (fill =? 0)) a.
Proof.
  unfold box_ops. rewrite !sets_app, !sets_edge. destruct a as [fo nf lk hd ha wr va ro ind l rr t bo pat fo2 ba u].
  unfold boxed. generalize (r =? r1) (r =? r2) (c =? c1) (c =? c2). intros b1 b2 b3 b4. generalize (negb (style =? 0) || negb (palette_code bcolor =? 0))%bool. intro z.
  unfold sets, on_side. cbn [fold_left spec_set xa_font xa_numfmt xa_locked xa_hidden xa_halign xa_wrap xa_valign xa_rotation xa_indent xa_left xa_right xa_top xa_bottom xa_pattern xa_fore xa_back xa_used Z.eqb Pos.eqb].
  rewrite !on_on. rewrite orb_assoc. f_equal. f_equal; destruct b1, b2, b3, b4, z; reflexivity.
Qed.

(* ------------------------------------------------------------------ *)
(** * C45 *)

Section Paint.
Variables (R R' : Z) (moves moves' : Z -> nat -> bool) (xs : list xcall) (x : xcall) (k : nat) (r1 c1 r2 c2 : Z) (s1 s2 : list Z).
Hypothesis H1 : xsaved_ok R moves xs s1.
Hypothesis H2 : xsaved_ok R' moves' (xs ++ [x]) s2.
Hypothesis P : paints x k r1 c1 r2 c2.

Lemma paint_effect : exists calls more w1 w2, stands xs calls w1 /\ stands (xs ++ [x]) (calls ++ more) w2
  /\ view R calls s1 w1 /\ view R' (calls ++ more) s2 w2 /\ run_effect x k (block_of r1 c1 r2 c2) calls w1 w2
  /\ forall k' r' c', cells_of k' (calls ++ more) r' c' =
       if (Nat.eqb k' k && mem r' c' (block_of r1 c1 r2 c2))%bool then match cells_of k' calls r' c' with None => Some UBlank | i => i end else cells_of k' calls r' c'.
Proof.
  destruct (xsaved_doc _ _ _ _ H2) as (w2 & D2). destruct (x_snoc _ _ _ D2) as (w1 & D1 & C). pose proof (xo_typed _ _ _ _ H2) as T. rewrite map_app in T. apply Forall_app in T. destruct T as [T Tx]. apply Forall_inv in Tx.
  destruct (x_stands _ _ T D1) as (calls & S). pose proof (paint_run _ _ _ _ _ _ _ _ _ P Tx (st_typed _ _ _ S) (st_doc _ _ _ S) C) as E. pose proof E as (more & Pm & Dm & _ & _ & Am & Cm & _).
  pose proof (stands_paint _ _ _ _ _ _ _ _ _ _ _ P Tx S Pm Dm Am Cm) as S2. exists calls, more, w1, w2. split; [exact S|]. split; [exact S2|].
  pose proof (stands_saved _ _ _ _ _ _ H1 S D1) as V1. pose proof (stands_saved _ _ _ _ _ _ H2 S2 D2) as V2. apply saved_view in V1, V2. destruct V1 as (w1' & V1). destruct V2 as (w2' & V2).
  assert (w1' = w1) by (pose proof (vw_doc _ _ _ _ V1) as Q; rewrite (st_doc _ _ _ S) in Q; apply ok_inj in Q; auto).
  assert (w2' = w2) by (pose proof (vw_doc _ _ _ _ V2) as Q; rewrite Dm in Q; apply ok_inj in Q; auto). subst w1' w2'. auto.
Qed.

(** C45 (contents): every position of the rectangle holds a cell afterwards, the same as
    before or else a blank one; nothing changes outside. *)
Theorem C45_contents k' r c :
  option_map rc_val (cell_record s2 k' r c) =
    if (Nat.eqb k' k && ((r1 <=? r) && (r <=? r2) && ((c1 <=? c) && (c <=? c2))))%bool
    then match cell_record s1 k' r c with Some x => Some (rc_val x) | None => Some RBlank end
    else option_map rc_val (cell_record s1 k' r c).
Proof.
  destruct paint_effect as (calls & more & w1 & w2 & S1 & S2 & V1 & V2 & _ & C).
  pose proof (view_value _ _ _ _ k' r c V1) as E1. rewrite (wv_reads _ _ _ _ _ (vw_means _ _ _ _ V1)) in E1.
  rewrite (view_value _ _ _ _ _ _ _ V2), (wv_reads _ _ _ _ _ (vw_means _ _ _ _ V2)), C, block_mem. fold (inside r1 r2 r) (inside c1 c2 c).
  destruct (Nat.eqb k' k && (inside r1 r2 r && inside c1 c2 c))%bool; [|symmetry; exact E1].
  destruct (cell_record s1 k' r c), (cells_of k' calls r c); cbn [option_map] in *; try discriminate E1; [symmetry; exact E1|reflexivity].
Qed.
(** C45 (outside): no cell outside the rectangle changes its look. *)
Theorem C45_outside k' r c l : k' <> k \/ ~ (r1 <= r <= r2 /\ c1 <= c <= c2) ->
  cell_look s1 k' r c = Some l -> cell_look s2 k' r c = Some l.
Proof.
  intros N L. destruct paint_effect as (calls & more & w1 & w2 & S1 & S2 & V1 & V2 & (more' & _ & _ & K & _ & _ & _ & X & _) & _).
  rewrite (view_cell_look _ _ _ _ V1) in L. rewrite (view_cell_look _ _ _ _ V2). rewrite X.
  2:{ destruct N as [N|N]; [left; exact N|right]. rewrite block_mem. unfold inside. lia. }
  destruct (xfat w1 k' r c) as [i|]; [|discriminate L]. rewrite (view_look _ _ _ _ V1) in L. rewrite (view_look _ _ _ _ V2).
  eapply xlook_keeps; [exact K|exact L].
Qed.
Lemma paint_inside r c l : Forall xargs (xs ++ [x]) -> few_records s2 -> r1 <= r <= r2 /\ c1 <= c <= c2 -> position_look s1 k r c = Some l ->
  (forall a, xa_font (sets (paint_ops x (r, c)) a) = xa_font a /\ xa_numfmt (sets (paint_ops x (r, c)) a) = xa_numfmt a) ->
  reattributed l (sets (paint_ops x (r, c)) (lk_attrs l)) (cell_look s2 k r c).
Proof.
  intros A Fw N L Q. destruct paint_effect as (calls & more & w1 & w2 & S1 & S2 & V1 & V2 & (more' & _ & _ & K & G & _ & _ & _ & In) & _).
  apply Forall_app in A. destruct A as [A Ax]. apply Forall_inv in Ax. destruct (view_few _ _ _ _ V2 Fw) as [F2 M2]. pose proof (mn_inv _ _ (vw_means _ _ _ _ V1)) as I1.
  assert (Lp : xlook (wb_fs w1) (match xfat w1 k r c with Some p => p | None => 15 end) = Some l).
  { unfold position_look in L. pose proof (record_xfat _ _ _ _ k r c V1) as E. destruct (cell_record s1 k r c) as [y|].
    - destruct (xfat w1 k r c) as [p|] eqn:Xp; [|exfalso; assert (X : Some y = None) by (apply E; reflexivity); discriminate X].
      rewrite (view_cell_look _ _ _ _ V1), Xp in L. pose proof (valid_grows _ _ _ G (xfat_valid _ _ _ _ _ I1 Xp)) as Vp. rewrite (M2 p Vp), (view_look _ _ _ _ V1) in L. exact L.
    - destruct E as [E _]. rewrite (E eq_refl). rewrite (view_gof _ _ _ _ V1), (view_look _ _ _ _ V1) in L. exact L. }
  unfold xlook in Lp. destruct (xf_rec (wb_fs w1) _) as [a|] eqn:Ra; [|discriminate Lp]. pose proof (look_at_attrs _ _ _ Lp) as La.
  destruct (In (st_args _ _ _ S1 A) Ax F2 r c a) as (q & Xq & Rq); [rewrite block_mem; unfold inside; lia|exact Ra|].
  unfold reattributed. rewrite (view_cell_look _ _ _ _ V2), Xq, (M2 q (xfat_valid _ _ _ _ _ (mn_inv _ _ (vw_means _ _ _ _ V2)) Xq)), (view_look _ _ _ _ V2), Rq, La.
  pose proof (look_at_keeps _ _ _ _ K Lp) as L2. unfold look_at in *. destruct (Q a) as [-> ->].
  destruct (font_rec (wb_fs w2) (xa_font a)); [|discriminate L2]. destruct (number_rec (wb_fs w2) (xa_numfmt a)); [|discriminate L2]. apply some_inj in L2. rewrite <- L2. reflexivity.
Qed.
End Paint.
Print Assumptions C45_contents.
Print Assumptions C45_outside.

(** C45 (colour): cellcolor gives every position of the rectangle a solid fill in the colour
    asked for and changes nothing else about it. *)
Theorem C45_color_inside R moves R' moves' xs k r1 c1 r2 c2 color s1 s2 r c l :
  xsaved_ok R moves xs s1 -> xsaved_ok R' moves' (xs ++ [XColor k r1 c1 r2 c2 color]) s2 ->
  Forall xargs (xs ++ [XColor k r1 c1 r2 c2 color]) -> few_records s2 -> r1 <= r <= r2 /\ c1 <= c <= c2 ->
  position_look s1 k r c = Some l -> reattributed l (coloured color (lk_attrs l)) (cell_look s2 k r c).
Proof.
  intros H1 H2 A F N L. rewrite <- sets_color. apply (paint_inside _ _ _ _ _ _ _ _ _ _ _ _ _ H1 H2 (or_introl (ex_intro _ color eq_refl)) r c l A F N L).
  intro a. cbn [paint_ops]. rewrite sets_color. split; reflexivity.
Qed.
Print Assumptions C45_color_inside.

(** C45 (box): boxer draws the lines asked for on the outer edges of the rectangle, and only
    there, gives every position the fill pattern, and changes nothing else but the fill
    colours.  These are not what was asked for: the pattern gets the background colour and
    the background keeps the colour it had. *)
Theorem C45_box_inside_partial R moves R' moves' xs k r1 c1 r2 c2 style fill bcolor fg bg s1 s2 r c l :
  xsaved_ok R moves xs s1 -> xsaved_ok R' moves' (xs ++ [XBox k r1 c1 r2 c2 style fill bcolor fg bg]) s2 ->
  Forall xargs (xs ++ [XBox k r1 c1 r2 c2 style fill bcolor fg bg]) -> few_records s2 -> r1 <= r <= r2 /\ c1 <= c <= c2 ->
  position_look s1 k r c = Some l ->
  reattributed l (boxed (r =? r1) (r =? r2) (c =? c1) (c =? c2) style bcolor fill (palette_code bg) (xa_back (lk_attrs l))
                        (negb (fg =? 57) || negb (bg =? 57) || negb (fill =? 0)) (lk_attrs l)) (cell_look s2 k r c).
Proof.
  intros H1 H2 A F N L. rewrite <- sets_box.
  apply (paint_inside _ _ _ _ _ _ _ _ _ _ _ _ _ H1 H2 (or_intror (ex_intro _ style (ex_intro _ fill (ex_intro _ bcolor (ex_intro _ fg (ex_intro _ bg eq_refl)))))) r c l A F N L).
  intro a. cbn [paint_ops fst snd]. rewrite sets_box. split; reflexivity.
Qed.
Print Assumptions C45_box_inside_partial.

(* ------------------------------------------------------------------ *)
(** * Cases *)

Definition xstream_of (fuel : nat) (xs : list xcall) : option (list Z) :=
  match x_document xs with
  | Ok w => match book_units fuel (fun _ _ => false) (wb_book w) with
            | Some (Ok (units, _)) => Some (concat units)
            | _ => None
            end
  | _ => None
  end.
Local Strategy 1000 [wb_new fstate_init x_document book_units].
Lemma xstream_saved fuel xs stream : xstream_of fuel xs = Some stream -> xsaved (fun _ _ => false) xs stream.
Proof.
  unfold xstream_of. intro E. destruct (x_document xs) as [w| |] eqn:D; try discriminate E.
  destruct (book_units fuel _ (wb_book w)) as [[[us after]| |]|] eqn:B; try discriminate E. apply some_inj in E.
  exists w, after. split; [exact D|]. exists fuel, us. split; [exact B|symmetry; exact E].
Qed.
Lemma xsmall_saved fuel xs stream : Forall typed (map shape xs) -> SpecSaved.fits 40 (map shape xs) -> xstream_of fuel xs = Some stream -> xsaved_ok 40 (fun _ _ => false) xs stream.
Proof. intros T F E. constructor; [lia|exact T|exact F|left; lia|exact (xstream_saved _ _ _ E)]. Qed.
Definition xtwo (xs : list xcall) (x : xcall) (f : list Z -> list Z -> bool) : bool :=
  match xstream_of 400 xs, xstream_of 400 (xs ++ [x]) with Some s1, Some s2 => f s1 s2 | _, _ => false end.
Lemma xtwo_spec xs x f : xtwo xs x f = true -> exists s1 s2, xstream_of 400 xs = Some s1 /\ xstream_of 400 (xs ++ [x]) = Some s2 /\ f s1 s2 = true.
Proof. unfold xtwo. destruct (xstream_of 400 xs) as [s1|]; [|discriminate]. destruct (xstream_of 400 (xs ++ [x])) as [s2|]; [|discriminate]. eauto. Qed.

(** Two cells share a format, a third is plain; the rectangle of rows 0..2, columns 0..2
    covers them and six empty positions.  It is coloured, then boxed. *)
Definition red_paint : xcall := XColor 0 0 0 2 2 17.
Definition box_paint : xcall := XBox 0 0 0 2 2 5 4 9 17 12.
Definition plain_doc : list xcall := map XCall shared.
Definition red_doc : list xcall := plain_doc ++ [red_paint].
Definition box_doc : list xcall := red_doc ++ [box_paint].
Lemma box_doc_typed : Forall typed (map shape box_doc).
Proof. unfold box_doc, red_doc, plain_doc, shared, red_paint, box_paint. cbn [map app shape]. small_typed; cbn [typed]; unfold u32; lia. Qed.
Lemma box_doc_fits : SpecSaved.fits 40 (map shape box_doc).
Proof.
  unfold box_doc, red_doc, plain_doc, shared, red_paint, box_paint. cbn [map app shape]. small_fits.
  match goal with |- forall k, exists rows, _ /\ forall r, height_of k ?l r <> None -> _ => apply (heightless l); reflexivity end.
Qed.
Lemma red_doc_fits : SpecSaved.fits 40 (map shape red_doc).
Proof.
  unfold red_doc, plain_doc, shared, red_paint. cbn [map app shape]. small_fits.
  match goal with |- forall k, exists rows, _ /\ forall r, height_of k ?l r <> None -> _ => apply (heightless l); reflexivity end.
Qed.
Lemma plain_shape : map shape plain_doc = shared.
Proof. unfold plain_doc. rewrite map_map. apply map_id. Qed.
Lemma box_doc_args : Forall xargs box_doc.
Proof.
  unfold box_doc, red_doc. apply Forall_app. split; [apply Forall_app; split|].
  - unfold plain_doc. apply Forall_map. exact shared_args.
  - constructor; [cbn [xargs red_paint]; unfold name_agrees; lia|constructor].
  - constructor; [cbn [xargs box_paint]; unfold name_agrees; lia|constructor].
Qed.
Definition fill_of (s : list Z) (k : nat) (r c : Z) : option (Z * Z * Z) :=
  olet l := cell_look s k r c in Some (xa_pattern (lk_attrs l), xa_fore (lk_attrs l), xa_back (lk_attrs l)).

(** The fill colours asked for do not arrive: dark red lines around an orange-on-green box
    were asked for, but the pattern is green and the background stays automatic. *)
Theorem C45_box_fill_refuted : exists xs k r1 c1 r2 c2 style fill bcolor fg bg s1 s2 r c,
  xsaved_ok 40 (fun _ _ => false) xs s1 /\ xsaved_ok 40 (fun _ _ => false) (xs ++ [XBox k r1 c1 r2 c2 style fill bcolor fg bg]) s2
  /\ Forall xargs (xs ++ [XBox k r1 c1 r2 c2 style fill bcolor fg bg]) /\ few_records s2 /\ (r1 <= r <= r2 /\ c1 <= c <= c2) /\ (exists l, position_look s1 k r c = Some l)
  /\ exists pat fore back, fill_of s2 k r c = Some (pat, fore, back) /\ pat = fill_code fill /\ fore <> palette_code fg /\ back <> palette_code bg.
Proof.
  assert (E : xtwo red_doc box_paint (fun s1 s2 => (few_now s2 && match position_look s1 0 1 1, fill_of s2 0 1 1 with
     | Some _, Some (pat, fore, back) => (pat =? fill_code 4) && negb (fore =? palette_code 17) && negb (back =? palette_code 12) | _, _ => false end)%bool) = true) by (vm_compute; reflexivity).
  apply xtwo_spec in E. destruct E as (s1 & s2 & E1 & E2 & E). exists red_doc, 0%nat, 0, 0, 2, 2, 5, 4, 9, 17, 12, s1, s2, 1, 1.
  pose proof box_doc_typed as T. unfold box_doc in T. rewrite map_app in T. apply Forall_app in T. destruct T as [T _].
  split; [apply (xsmall_saved 400); [exact T|exact red_doc_fits|exact E1]|].
  split; [apply (xsmall_saved 400); [exact box_doc_typed|exact box_doc_fits|exact E2]|]. split; [exact box_doc_args|].
  apply andb_prop in E. destruct E as [E3 E4]. split; [apply few_now_spec; exact E3|]. split; [lia|].
  destruct (position_look s1 0 1 1) as [l|]; [|discriminate E4]. destruct (fill_of s2 0 1 1) as [[[pat fore] back]|]; [|discriminate E4]. split; [eauto|]. exists pat, fore, back. split; [reflexivity|].
  apply andb_prop in E4. destruct E4 as [E4 E6]. apply andb_prop in E4. destruct E4 as [E4 E5]. split; [apply Z.eqb_eq; exact E4|]. split; [apply Z.eqb_neq, negb_true_iff; exact E5|apply Z.eqb_neq, negb_true_iff; exact E6].
Qed.
Print Assumptions C45_box_fill_refuted.

(** Hypotheses of C45_color_inside, C45_outside and C45_contents. *)
Example C45_case : exists s1 s2, xsaved_ok 40 (fun _ _ => false) plain_doc s1 /\ xsaved_ok 40 (fun _ _ => false) (plain_doc ++ [red_paint]) s2
  /\ paints red_paint 0 0 0 2 2 /\ Forall xargs (plain_doc ++ [red_paint]) /\ few_records s2
  /\ (exists l, position_look s1 0 0 1 = Some l) /\ (cell_record s1 0 1 1 = None /\ exists l, position_look s1 0 1 1 = Some l).
Proof.
  assert (E : xtwo plain_doc red_paint (fun s1 s2 => (few_now s2 && match position_look s1 0 0 1, position_look s1 0 1 1, cell_record s1 0 1 1 with
     | Some _, Some _, None => true | _, _, _ => false end)%bool) = true) by (vm_compute; reflexivity).
  apply xtwo_spec in E. destruct E as (s1 & s2 & E1 & E2 & E). exists s1, s2.
  pose proof box_doc_typed as T. unfold box_doc in T. rewrite map_app in T. apply Forall_app in T. destruct T as [T _].
  pose proof box_doc_args as A. unfold box_doc in A. apply Forall_app in A. destruct A as [A _].
  split. { apply (xsmall_saved 400); [|rewrite plain_shape; exact shared_fits|exact E1]. unfold red_doc in T. rewrite map_app in T. apply Forall_app in T. apply T. }
  split; [apply (xsmall_saved 400); [exact T|exact red_doc_fits|exact E2]|]. split; [left; eexists; reflexivity|]. split; [exact A|].
  apply andb_prop in E. destruct E as [E3 E4]. split; [apply few_now_spec; exact E3|].
  destruct (position_look s1 0 0 1); [|discriminate E4]. destruct (position_look s1 0 1 1); [|discriminate E4]. destruct (cell_record s1 0 1 1); [discriminate E4|]. eauto.
Qed.
