(** C47: questions are answered with what was set, and asking changes nothing. *)
From Coq Require Import ZArith List Bool Lia ZifyBool ZifyNat Sorting.Sorted Sorting.Permutation.
From Verif Require Import Bytes UnitModel RecModel SheetModel XfModel WbModel RecProofs RecFrames SheetProofs SheetTrace GlobTrace WbProofs ApiModel XfInv ApiInv ApiEff
  SpecXf SpecXfOps SpecBiff SpecApi SpecSaved SpecLook SaveOk SaveRecs SaveMeans DocLimits SavedView XfProofs XfTrace PropsXf Looks BookRecs RefTrace FontUse PropsLook LookInv LookStep FontLook Careful Handles PropsFonts DemoDoc Resave
  PropsSheet PropsRows PropsSave SpecQuery QueryModel.
Import ListNotations.
Local Open Scope Z_scope.
Local Strategy 1000 [wb_new fstate_init wb_xformat wb_fontnum xf_user font_set wb_font add_format api_call].

(* ------------------------------------------------------------------ *)
(** * Format objects *)

(** All the getters of a format object answer with the attributes [a]. *)
Record answers (x : xf) (a : xfattrs) : Prop := {
  an_font : get_font_index x = xa_font a;
  an_number : get_format_index x = xa_numfmt a;
  an_builtin : forall v, named v (xa_numfmt a) -> get_format x = v;
  an_other : (forall v, ~ named v (xa_numfmt a)) -> get_format x = 0;
  an_halign : get_halign x = xa_halign a; an_valign : get_valign x = xa_valign a;
  an_indent : get_indent x = xa_indent a; an_rotation : get_orientation x = xa_rotation a;
  an_fore : get_fill_fg x = xa_fore a; an_back : get_fill_bg x = xa_back a; an_pattern : get_fill_style x = xa_pattern a;
  an_locked : is_locked x = xa_locked a; an_hidden : is_hidden x = xa_hidden a; an_wrap : is_wrap x = xa_wrap a;
  an_bottom : get_border_style x 0 = Ok (fst (xa_bottom a)) /\ get_border_color x 0 = Ok (snd (xa_bottom a));
  an_top : get_border_style x 1 = Ok (fst (xa_top a)) /\ get_border_color x 1 = Ok (snd (xa_top a));
  an_left : get_border_style x 2 = Ok (fst (xa_left a)) /\ get_border_color x 2 = Ok (snd (xa_left a));
  an_right : get_border_style x 3 = Ok (fst (xa_right a)) /\ get_border_color x 3 = Ok (snd (xa_right a));
  an_side : forall s, ~ 0 <= s <= 4 -> get_border_style x s = Throw /\ get_border_color x s = Throw }.

Lemma search_spec n : forall from idx, 0 <= from ->
  (exists v, from <= v < from + Z.of_nat n /\ idx = nth (Z.to_nat v) FORMAT_TABLE 0 /\ (forall u, from <= u < v -> idx <> nth (Z.to_nat u) FORMAT_TABLE 0) /\ format_search n from idx = v)
  \/ ((forall u, from <= u < from + Z.of_nat n -> idx <> nth (Z.to_nat u) FORMAT_TABLE 0) /\ format_search n from idx = 0).
Proof.
  induction n as [|n IH]; intros from idx L; cbn [format_search].
  - right. split; [intros; lia|reflexivity].
  - destruct (idx =? nth (Z.to_nat from) FORMAT_TABLE 0) eqn:E.
    + apply Z.eqb_eq in E. left. exists from. split; [lia|]. split; [exact E|]. split; [intros; lia|reflexivity].
    + apply Z.eqb_neq in E. destruct (IH (from + 1) idx ltac:(lia)) as [(v & B & Ev & N & F)|(N & F)].
      * left. exists v. split; [lia|]. split; [exact Ev|]. split; [|exact F]. intros u Bu. destruct (Z.eq_dec u from) as [->|Nu]; [exact E|apply N; lia].
      * right. split; [|exact F]. intros u Bu. destruct (Z.eq_dec u from) as [->|Nu]; [exact E|apply N; lia].
Qed.
Lemma code_table v : 0 <= v <= 35 -> nth (Z.to_nat v) FORMAT_TABLE 0 = format_code v.
Proof. intro B. apply format_val. lia. Qed.
Lemma code_inj u v : 0 <= u <= 35 -> 0 <= v <= 35 -> format_code u = format_code v -> u = v.
Proof. unfold format_code. intros Bu Bv. destruct (u <=? 22) eqn:E1, (u <=? 35) eqn:E2, (v <=? 22) eqn:E3, (v <=? 35) eqn:E4; lia. Qed.
Lemma format_named idx v : named v idx -> format_search 36 0 idx = v.
Proof.
  intros [B E]. destruct (search_spec 36 0 idx ltac:(lia)) as [(u & Bu & Eu & _ & ->)|(N & _)].
  - rewrite code_table in Eu by lia. apply code_inj; try lia. 
  - exfalso. apply (N v); [lia|]. rewrite code_table by lia. auto.
Qed.
Lemma format_unnamed idx : (forall v, ~ named v idx) -> format_search 36 0 idx = 0.
Proof.
  intro N. destruct (search_spec 36 0 idx ltac:(lia)) as [(u & Bu & Eu & _ & _)|(_ & ->)]; [|reflexivity].
  exfalso. apply (N u). split; [lia|]. rewrite code_table in Eu by lia. auto.
Qed.
Lemma answers_of x : xf_fits x -> answers x (attrs_of x).
Proof.
  intros (_ & _ & _ & _ & _ & _ & _ & _ & _ & _ & Bm & Bf).
  unfold attrs_of. constructor; cbn [xa_font xa_numfmt xa_halign xa_valign xa_indent xa_rotation xa_fore xa_back xa_pattern xa_locked xa_hidden xa_wrap xa_bottom xa_top xa_left xa_right fst snd];
    try reflexivity; try (split; reflexivity).
  - unfold get_font_index. destruct (x_font x); [apply Z.mod_small; exact Bf|reflexivity].
  - apply Z.mod_small. exact Bm.
  - intros v N. unfold get_format. rewrite Z.mod_small by exact Bm. apply format_named. exact N.
  - intro N. unfold get_format. rewrite Z.mod_small by exact Bm. apply format_unnamed. exact N.
  - intros s N. unfold get_border_style, get_border_color, xl_assert. replace (side_ok s) with false by (unfold side_ok; lia). split; reflexivity.
Qed.

(** The getters of a format object made with xformat answer with the attributes it was made
    with, changed by the setters called on it since; whatever else was done to the workbook in
    between makes no difference. *)
Theorem C47_format_answers earlier f m later w h :
  document (earlier ++ KXformat f m :: later) = Ok w -> Forall typed (earlier ++ KXformat f m :: later) -> Forall args (earlier ++ KXformat f m :: later) ->
  few (wb_fs w) -> returns earlier (KXformat f m) h ->
  exists x, xf_at (wb_fs w) h = Some x /\ answers x (attrs_since h later (attrs_made f m)).
Proof.
  intros D T A F Rt. pose proof (C25_numbers_new _ _ _ Rt) as Lh. cbn [kind_of] in Lh.
  rewrite cut_call in *. destruct (document_prefix _ _ _ D) as (w1 & D1). destruct (document_snoc _ _ _ D1) as (w0 & D0 & C).
  destruct Rt as (w0' & D0' & (fs & Rt)). rewrite D0 in D0'. apply ok_inj in D0'. subst w0'.
  destruct (own_call w0 (KXformat f m) w1 I C) as [(i & O) _]. rewrite Rt in O. apply ok_inj in O. apply pair_equal_spec in O. destruct O as [-> <-].
  pose proof (few_back _ _ (run_grows _ _ D1 later w T D) F) as F1. destruct (made_xf _ _ _ _ _ F1 Rt) as (x0 & E0 & A0).
  destruct (xf_history _ _ _ _ D1 E0 Lh later w T A D F) as (x & Ex & Ax). rewrite A0 in Ax. exists x. split; [exact Ex|]. rewrite <- Ax. apply answers_of.
  destruct (doc_tidy _ _ T A D F) as [_ Td]. exact (td_fits _ (Td _ _ (or_intror Lh) Ex)).
Qed.
Print Assumptions C47_format_answers.

(* ------------------------------------------------------------------ *)
(** * Fonts *)

(** All the getters of a font answer with [f]. *)
Record font_answers (d : font) (f : rfont) : Prop := {
  fa_name : get_name d = rf_name f; fa_height : get_height d = rf_height f; fa_bold : get_bold d = rf_weight f;
  fa_under : get_underline d = rf_underline f; fa_script : get_script d = rf_script f; fa_color : get_color d = rf_colour f;
  fa_attr : get_attributes d = rf_attr f; fa_family : get_family d = rf_family f; fa_charset : get_charset d = rf_charset f;
  fa_italic : get_italic d = Z.testbit (rf_attr f) 1; fa_strike : get_strikeout d = Z.testbit (rf_attr f) 3;
  fa_outline : get_outline d = Z.testbit (rf_attr f) 4; fa_shadow : get_shadow d = Z.testbit (rf_attr f) 5 }.
Definition font_like (f : rfont) : font :=
  mkFont (rf_name f) (rf_height f) (rf_attr f) (rf_colour f) (rf_weight f) (rf_script f) (rf_underline f) (rf_family f) (rf_charset f).
Lemma land_bit a n : 0 <= n -> negb (Z.land a (2 ^ n) =? 0) = Z.testbit a n.
Proof.
  intro N. assert (E : Z.land a (2 ^ n) = if Z.testbit a n then 2 ^ n else 0).
  { apply Z.bits_inj'. intros k K. rewrite Z.land_spec, Z.pow2_bits_eqb by exact N. destruct (Z.eqb_spec n k) as [<-|Nk].
    - destruct (Z.testbit a n) eqn:Eb; [rewrite Z.pow2_bits_true by exact N|rewrite Z.bits_0]; reflexivity.
    - rewrite andb_false_r. destruct (Z.testbit a n); [rewrite Z.pow2_bits_false by exact Nk|rewrite Z.bits_0]; reflexivity. }
  rewrite E. pose proof (Z.pow_pos_nonneg 2 n ltac:(lia) N) as P. destruct (Z.testbit a n).
  - replace (2 ^ n =? 0) with false by lia. reflexivity.
  - reflexivity.
Qed.
Lemma like_answers f : font_answers (font_like f) f.
Proof.
  destruct f as [h a c b s u fa k n]. constructor; try reflexivity; unfold get_italic, get_strikeout, get_outline, get_shadow; cbn [font_like fo_attr rf_attr].
  - apply (land_bit a 1). lia.
  - apply (land_bit a 3). lia.
  - apply (land_bit a 4). lia.
  - apply (land_bit a 5). lia.
Qed.
Lemma like_apply o f v : font_arg o -> font_apply o (font_like f) = Ok v -> v = font_like (spec_font o f).
Proof.
  destruct f as [h a c b s u fa k n]. unfold font_apply, font_like. cbn [fo_name fo_height fo_attr fo_color fo_bold fo_script fo_under fo_family fo_charset rf_name rf_height rf_attr rf_colour rf_weight rf_script rf_underline rf_family rf_charset].
  intros A H. destruct o; cbn [font_arg] in A; try (apply bind_ok in H; destruct H as (t & Ht & H); apply table_in in Ht; destruct Ht as [Hb ->]); apply ok_inj in H; subst v; try reflexivity.
  - f_equal. change (zlen SCRIPT_TABLE) with 3 in Hb. assert (V : v0 = 0 \/ v0 = 1 \/ v0 = 2) by lia. cbn [spec_font rf_script]. destruct V as [->|[->| ->]]; reflexivity.
  - f_equal. cbn [spec_font rf_colour]. apply palette_agrees; auto.
Qed.
Lemma font_kept base w0 h f : document base = Ok w0 -> fval (wb_fs w0) h = Some (font_like f) ->
  forall later w, Forall typed (base ++ later) -> Forall args (base ++ later) -> careful (base ++ later) -> document (base ++ later) = Ok w ->
  fval (wb_fs w) h = Some (font_like (font_since h later f)).
Proof.
  intros D0 E0. induction later as [|q later IH] using rev_ind; intros w T A C D.
  - rewrite app_nil_r in D. rewrite D0 in D. apply ok_inj in D. subst w. exact E0.
  - rewrite app_assoc in *. apply Forall_app in T. destruct T as [T Tq]. inversion Tq as [|? ? Tq' _]; subst. apply Forall_app in A. destruct A as [A Aq]. inversion Aq as [|? ? Aq' _]; subst.
    apply careful_prefix in C. destruct C as [C _]. destruct (document_snoc _ _ _ D) as (w1 & D1 & Cl). specialize (IH w1 T A C D1).
    pose proof (call_holds _ _ _ _ T D1 Tq' Aq' (careful_covers _ q C A) Cl) as [Hf _ _]. destruct (Hf _ _ IH) as (d2 & E2 & M). rewrite E2. f_equal. rewrite since_snoc_font.
    destruct q; try (subst d2; reflexivity). destruct (i =? h); [|subst d2; reflexivity]. cbn [args] in Aq'. exact (like_apply _ _ _ (proj2 Aq') M).
Qed.
Lemma stock_like fs n : fstate_init = Ok fs -> (Z.to_nat n < 5)%nat ->
  fval fs (if Nat.eqb (Z.to_nat n) 4 then 5 else Z.of_nat (Z.to_nat n)) = Some (font_like (stock_font n)).
Proof.
  intros H B. assert (K : match fstate_init with Ok f => forallb (fun m => match fval f (if Nat.eqb m 4 then 5 else Z.of_nat m) with Some (mkFont a9 a1 a2 a3 a4 a5 a6 a7 a8) =>
        let 'mkFont b9 b1 b2 b3 b4 b5 b6 b7 b8 := font_like (stock_font (Z.of_nat m)) in
        (a1 =? b1) && (a2 =? b2) && (a3 =? b3) && (a4 =? b4) && (a5 =? b5) && (a6 =? b6) && (a7 =? b7) && (a8 =? b8) && leqb a9 b9 | None => false end)%bool (seq 0 5) | _ => false end = true) by (vm_compute; reflexivity).
  rewrite H in K. rewrite forallb_forall in K. specialize (K (Z.to_nat n) ltac:(apply in_seq; lia)). cbv beta in K.
  assert (Es : stock_font (Z.of_nat (Z.to_nat n)) = stock_font n) by (unfold stock_font; rewrite Nat2Z.id; reflexivity). rewrite Es in K.
  destruct (fval fs _) as [[a9 a1 a2 a3 a4 a5 a6 a7 a8]|]; [|discriminate K].
  destruct (font_like (stock_font n)) as [b9 b1 b2 b3 b4 b5 b6 b7 b8]. repeat (apply andb_prop in K; let X := fresh in destruct K as [K X]).
  repeat match goal with X : (_ =? _) = true |- _ => apply Z.eqb_eq in X; subst | X : leqb _ _ = true |- _ => apply leqb_eq in X; subst end. reflexivity.
Qed.
Lemma made_like earlier q w0 w1 h f : Forall typed earlier -> Forall args earlier -> careful earlier -> document earlier = Ok w0 -> api_call w0 q = Ok w1 ->
  returns earlier q h -> font_made q = Some f -> fval (wb_fs w1) h = Some (font_like f).
Proof.
  intros T A Ca D C R M. destruct R as (w & Dw & R). rewrite D in Dw. apply ok_inj in Dw. subst w. destruct q; cbn [font_made] in M; try discriminate M; apply some_inj in M; subst f.
  - destruct (own_call w0 (KFont name) w1 I C) as [O _]. cbn [own] in O. unfold wb_font in *. unfold fval. rewrite O, font_at_add.
    unfold add_font in R. cbn [snd] in R. subst h. rewrite Z.eqb_refl. reflexivity.
  - destruct R as (fs & R). destruct (own_call w0 (KFontNum n) w1 I C) as [(i & O) _]. unfold wb_fontnum in *. destruct (nth_error (fs_dfonts (wb_fs w0)) (Z.to_nat n)) as [d|] eqn:E; [|discriminate R].
    apply ok_inj in R. apply (f_equal snd) in R. unfold add_font in R. cbn [snd] in R. apply ok_inj in O. apply (f_equal fst) in O. cbn [fst] in O.
    unfold fval. rewrite <- O, font_at_add, <- R, Z.eqb_refl. cbn [option_map fo_val]. f_equal.
    pose proof (wi_dfonts _ (w2_inv _ (mn_inv _ _ (run_means _ _ T D)))) as L5. pose proof (stock_at _ _ _ E L5) as Ea.
    assert (B : (Z.to_nat n < 5)%nat) by (rewrite <- L5; apply nth_error_Some; congruence).
    destruct (document_prefix [] earlier w0 D) as (wn & Dn). pose proof (stock_like (wb_fs wn) n (wb_new_fs _ (document_nil _ Dn)) B) as E0.
    pose proof (font_kept [] wn _ _ Dn E0 earlier w0 T A Ca D) as E'. unfold fval in E'. rewrite Ea in E'. cbn [option_map] in E'. apply some_inj in E'. rewrite E'. f_equal.
    apply stock_since; [exact A|]. destruct (Nat.eqb (Z.to_nat n) 4) eqn:E4; lia.
Qed.

(** The getters of a font answer with what it was made with, changed by the setters called on
    it since.
    Missing for the full property: histories that are not careful, see
    [C47_font_answers_refuted]. *)
Theorem C47_font_answers_partial earlier q later w h f :
  document (earlier ++ q :: later) = Ok w -> Forall typed (earlier ++ q :: later) -> Forall args (earlier ++ q :: later) -> careful (earlier ++ q :: later) ->
  returns earlier q h -> font_made q = Some f ->
  exists d, font_at (wb_fs w) h = Some d /\ font_answers (fo_val d) (font_since h later f).
Proof.
  intros D T A Ca Rt M. rewrite cut_call in *. destruct (document_prefix _ _ _ D) as (w1 & D1). destruct (document_snoc _ _ _ D1) as (w0 & D0 & C).
  pose proof T as T'. apply Forall_app in T'. destruct T' as [T' _]. apply Forall_app in T'. destruct T' as [T0 _].
  pose proof A as A'. apply Forall_app in A'. destruct A' as [A' _]. apply Forall_app in A'. destruct A' as [A0 _].
  assert (Ca0 : careful earlier) by (intros a x b ->; apply (Ca a x ((b ++ [q]) ++ later)); rewrite <- !app_assoc; cbn [app]; rewrite <- ?app_assoc; reflexivity).
  pose proof (made_like _ _ _ _ _ _ T0 A0 Ca0 D0 C Rt M) as E. pose proof (font_kept _ _ _ _ D1 E later w T A Ca D) as E'.
  unfold fval in E'. destruct (font_at (wb_fs w) h) as [d|]; [|discriminate E']. cbn [option_map] in E'. apply some_inj in E'. exists d. split; [reflexivity|]. rewrite E'. apply like_answers.
Qed.
Print Assumptions C47_font_answers_partial.

(* ------------------------------------------------------------------ *)
(** * The font name copied to the caller's buffer *)

Lemma c_string_id s : Forall (fun b => b <> 0) s -> c_string s = s.
Proof. induction 1 as [|b t N F IH]; [reflexivity|]. cbn [c_string]. replace (b =? 0) with false by lia. rewrite IH. reflexivity. Qed.
(** xlsFontGetName with a buffer of at least one byte writes nothing outside it and leaves in
    it a terminated string: the name, cut to what fits. *)
Theorem C47_name_buffer name buf : Forall (fun b => b <> 0) name -> buf <> [] ->
  exists out, font_get_name name buf (zlen buf) = Ok out /\ holds_text name buf out.
Proof.
  intros Nz Ne. unfold font_get_name. rewrite c_string_id by exact Nz. set (n := length name). assert (Hl : zlen (name ++ [0]) = Z.of_nat n + 1) by (unfold zlen; rewrite app_length; cbn [length]; lia).
  assert (Hb : (0 < length buf)%nat) by (destruct buf; [congruence|cbn; lia]). rewrite Hl. cbv zeta.
  set (len := if zlen buf <? Z.of_nat n + 1 then zlen buf else Z.of_nat n + 1).
  assert (El : Z.to_nat len = Nat.min (length buf) (n + 1)) by (subst len; unfold zlen; destruct (Z.of_nat (length buf) <? Z.of_nat n + 1) eqn:E; lia).
  clearbody len. rewrite El. set (m := Nat.min (length buf) (n + 1)). set (src := firstn m (name ++ [0])).
  assert (Ls : length src = m) by (subst src; rewrite firstn_length, app_length; cbn [length]; fold n; lia).
  unfold copy_to. replace (zlen src <=? zlen buf) with true by (unfold zlen; rewrite Ls; lia). cbn [bind]. rewrite Ls.
  set (b1 := src ++ skipn m buf). assert (Lb : length b1 = length buf) by (subst b1; rewrite app_length, Ls, skipn_length; lia).
  unfold put_at. replace ((0 <=? zlen buf - 1) && (zlen buf - 1 <? zlen b1))%bool with true by (unfold zlen; rewrite Lb; lia).
  eexists. split; [reflexivity|]. replace (Z.to_nat (zlen buf - 1)) with (length buf - 1)%nat by (unfold zlen; lia). set (p := (length buf - 1)%nat).
  assert (Lf : length (firstn p b1) = p) by (rewrite firstn_length; lia).
  assert (N1 : forall i, (i < p)%nat -> nth_error (firstn p b1 ++ 0 :: skipn (S p) b1) i = nth_error b1 i).
  { intros i Li. rewrite nth_error_app1 by lia. rewrite <- (firstn_skipn p b1) at 2. rewrite nth_error_app1 by lia. reflexivity. }
  assert (N2 : nth_error (firstn p b1 ++ 0 :: skipn (S p) b1) p = Some 0) by (rewrite nth_error_app2 by lia; replace (p - length (firstn p b1))%nat with 0%nat by lia; reflexivity).
  assert (N3 : forall i, (i < m)%nat -> nth_error b1 i = nth_error (name ++ [0]) i).
  { intros i Li. subst b1. rewrite nth_error_app1 by lia. subst src. rewrite <- (firstn_skipn m (name ++ [0])) at 2. rewrite nth_error_app1 by (rewrite Ls; exact Li). reflexivity. }
  constructor; fold n.
  - rewrite app_length, Lf. cbn [length]. rewrite skipn_length. lia.
  - intros i Li Lp. rewrite N1 by exact Lp. rewrite N3 by lia. apply nth_error_app1. exact Li.
  - destruct (Nat.le_gt_cases p n) as [G|G].
    + replace (Nat.min n (length buf - 1)) with p by lia. exact N2.
    + replace (Nat.min n (length buf - 1)) with n by lia. rewrite N1 by lia. rewrite N3 by lia. rewrite nth_error_app2 by lia. replace (n - length name)%nat with 0%nat by lia. reflexivity.
  - exact N2.
  - intros i Li Lp. rewrite N1 by exact Lp. subst b1. rewrite nth_error_app2 by lia. rewrite <- (firstn_skipn m buf) at 2. rewrite nth_error_app2 by (rewrite firstn_length; lia).
    f_equal. rewrite firstn_length. lia.
Qed.
Print Assumptions C47_name_buffer.
(** With a buffer size of zero it writes in front of the buffer. *)
Theorem C47_name_buffer_refuted : exists name, Forall (fun b => b <> 0) name /\ font_get_name name [] (zlen (@nil Z)) = UB.
Proof. exists [65]. split; [repeat constructor; discriminate|reflexivity]. Qed.
Print Assumptions C47_name_buffer_refuted.

(* ------------------------------------------------------------------ *)
(** * Sheets and cells *)

(** What the sheet object answers about its cells. *)
Record cells_right (k : nat) (calls : list call) (s : sheet) : Prop := {
  cr_none : forall r c, find_cell s r c = None <-> ~ in_use k calls r c;
  cr_some : forall r c x, find_cell s r c = Some x -> c_row x = r /\ c_col x = c
    /\ (forall i, fmt_of k calls r c = Known i -> 0 <= i < 65536 -> get_xf_index x = i);
  cr_count : exists l, NoDup l /\ (forall r c, In (r, c) l <-> in_use k calls r c) /\ num_cells s = zlen l }.
Lemma used_found k calls s r c : meaning k calls s -> find_cell s r c = None <-> ~ in_use k calls r c.
Proof.
  intro Me. pose proof (me_vals _ _ _ Me r c) as V. unfold fv in V. unfold in_use. destruct (find_cell s r c) as [x|], (cells_of k calls r c) as [u|]; cbn [option_map vm] in V; try contradiction V.
  - split; [discriminate|]. intro N. exfalso. apply N. discriminate.
  - split; [intros _ N; apply N; reflexivity|reflexivity].
Qed.
Lemma used_in k calls s r c : sheet_inv s -> meaning k calls s -> In (r, c) (map (fun x => (c_row x, c_col x)) (sh_cells s)) <-> in_use k calls r c.
Proof.
  intros I Me. split.
  - intro J. apply in_map_iff in J. destruct J as (x & E & J). apply pair_equal_spec in E. destruct E as [<- <-]. intro N. apply (cell_found _ _ I) in J.
    pose proof (me_vals _ _ _ Me (c_row x) (c_col x)) as V. unfold fv in V. rewrite J, N in V. exact V.
  - intro U. destruct (find_cell s r c) as [x|] eqn:E; [|exfalso; apply (used_found _ _ _ r c Me) in E; auto].
    destruct (find_cell_in _ _ _ _ E) as (J & <- & <-). apply in_map_iff. eauto.
Qed.
Lemma keys_nodup l : csorted l -> NoDup (map (fun x => (c_row x, c_col x)) l).
Proof.
  induction l as [|x l IH]; intro S; [constructor|]. apply csorted_inv in S. destruct S as [S F]. cbn [map]. constructor; [|exact (IH S)].
  intro J. apply in_map_iff in J. destruct J as (y & E & J). rewrite Forall_forall in F. specialize (F _ J). unfold clt in F. apply pair_equal_spec in E. destruct E as [E1 E2]. rewrite E1, E2, key_lt_irr in F. discriminate F.
Qed.
(** GetSheet(n) gives the n-th sheet made, if there is one, and NULL otherwise; on it FindCell
    finds a cell exactly where a call put one, with its position and (as long as it is the
    format last assigned) its format, and NumCells counts them. *)
Theorem C47_cells calls w n : Forall typed calls -> document calls = Ok w -> 0 <= n < 65536 ->
  match nth_error (sheet_names calls) (Z.to_nat n) with
  | None => get_sheet w n = None
  | Some name => exists s, get_sheet w n = Some s /\ sh_index s = n /\ option_map bs_name (nth_error (wb_bs w) (Z.to_nat n)) = Some (to16 name)
      /\ cells_right (Z.to_nat n) calls s
  end.
Proof.
  intros T D B. pose proof (run_means _ _ T D) as M. pose proof (w2_inv _ (mn_inv _ _ M)) as I. unfold get_sheet. rewrite Z.mod_small by exact B. unfold zlen. rewrite (mn_len _ _ M).
  destruct (nth_error (sheet_names calls) (Z.to_nat n)) as [name|] eqn:E.
  - assert (L : (Z.to_nat n < length (sheet_names calls))%nat) by (apply nth_error_Some; congruence). replace (n <? Z.of_nat (length (sheet_names calls))) with true by lia.
    assert (Ls : (Z.to_nat n < length (wb_sheets w))%nat) by (rewrite (mn_len _ _ M); exact L). apply nth_error_Some in Ls. destruct (nth_error (wb_sheets w) (Z.to_nat n)) as [s|] eqn:Es; [|congruence].
    exists s. split; [reflexivity|]. split; [rewrite (wi_idx _ I _ _ Es), Z2Nat.id by lia; apply Z.mod_small; exact B|]. split.
    { pose proof (f_equal (fun l => nth_error l (Z.to_nat n)) (mn_names _ _ M)) as N. cbv beta in N. rewrite !nth_error_map, E in N. exact N. }
    pose proof (wi_sheets _ I) as F. rewrite Forall_forall in F. pose proof (F _ (nth_error_In _ _ Es)) as Is. pose proof (mn_sheet _ _ M _ _ Es) as Me. constructor.
    + intros r c. apply used_found. exact Me.
    + intros r c x Ex. destruct (find_cell_in _ _ _ _ Ex) as (_ & Er & Ec). split; [exact Er|]. split; [exact Ec|]. intros i K Bi. pose proof (formats_tracked calls w T D (Z.to_nat n) r c) as Ag.
      rewrite K in Ag. cbn [fmt_agrees] in Ag. unfold xfat in Ag. rewrite Es, Ex in Ag. cbn [option_map] in Ag. apply some_inj in Ag. unfold get_xf_index. rewrite Ag. apply Z.mod_small. exact Bi.
    + exists (map (fun x => (c_row x, c_col x)) (sh_cells s)). split; [apply keys_nodup; apply Is|]. split; [intros r c; apply used_in; auto|]. unfold num_cells, zlen. rewrite map_length. reflexivity.
  - apply nth_error_None in E. replace (n <? Z.of_nat (length (sheet_names calls))) with false by lia. reflexivity.
Qed.
Print Assumptions C47_cells.

(* ------------------------------------------------------------------ *)
(** * Bounds *)

Definition lo (l : list Z) : Z := fold_right Z.min 4294967295 l.
Definition hi (l : list Z) : Z := fold_right Z.max 0 l.
Lemma lo_top l : lo l <= 4294967295.
Proof. induction l as [|x l IH]; cbn [lo fold_right]; [lia|]. fold (lo l). lia. Qed.
Lemma hi_bot l : 0 <= hi l.
Proof. induction l as [|x l IH]; cbn [hi fold_right]; [lia|]. fold (hi l). lia. Qed.
Lemma lo_app a b : lo (a ++ b) = Z.min (lo a) (lo b).
Proof.
  induction a as [|x a IH]; cbn [app]; [change (lo []) with 4294967295; pose proof (lo_top b); lia|].
  change (lo (x :: a ++ b)) with (Z.min x (lo (a ++ b))). change (lo (x :: a)) with (Z.min x (lo a)). rewrite IH. lia.
Qed.
Lemma hi_app a b : hi (a ++ b) = Z.max (hi a) (hi b).
Proof.
  induction a as [|x a IH]; cbn [app]; [change (hi []) with 0; pose proof (hi_bot b); lia|].
  change (hi (x :: a ++ b)) with (Z.max x (hi (a ++ b))). change (hi (x :: a)) with (Z.max x (hi a)). rewrite IH. lia.
Qed.
Lemma lo_one x : lo [x] = Z.min x 4294967295. Proof. reflexivity. Qed.
Lemma hi_one x : hi [x] = Z.max x 0. Proof. reflexivity. Qed.
Lemma lo_spans l : Forall u32 l -> l <> [] -> spans (fun x => In x l) (lo l) (hi l).
Proof.
  intros F N. assert (A : forall x, In x l -> lo l <= x <= hi l).
  { clear F N. induction l as [|y l IH]; intros x J; [destruct J|]. cbn [lo hi fold_right]. fold (lo l) (hi l). destruct J as [->|J]; [lia|]. specialize (IH _ J). lia. }
  constructor; [| |exact A]; clear A.
  - induction F as [|x l Hx F IH]; [congruence|]. cbn [lo fold_right]. fold (lo l). destruct l as [|y l].
    + left. cbn [lo fold_right]. unfold u32 in Hx. lia.
    + destruct (Z.min_spec x (lo (y :: l))) as [[_ ->]|[_ ->]]; [left; reflexivity|right; apply IH; discriminate].
  - induction F as [|x l Hx F IH]; [congruence|]. cbn [hi fold_right]. fold (hi l). destruct l as [|y l].
    + left. cbn [hi fold_right]. unfold u32 in Hx. lia.
    + destruct (Z.max_spec x (hi (y :: l))) as [[_ ->]|[_ ->]]; [right; apply IH; discriminate|left; reflexivity].
Qed.
Definition extent (rb : rbsize) (rows cols : list Z) : Prop :=
  rb_fr rb = lo rows /\ rb_lr rb = hi rows /\ rb_fc rb = lo cols /\ rb_lc rb = hi cols.
Lemma scan_extent cells : forall row rows n rb rest rows' n' rb' rs cs,
  size_scan cells row rows n rb = (rest, rows', n', rb') -> extent rb rs cs -> lo rs <= row <= hi rs ->
  exists pre, cells = pre ++ rest /\ extent rb' (rs ++ map c_row pre) (cs ++ map c_col pre).
Proof.
  induction cells as [|c t IH]; intros row rows n rb rest rows' n' rb' rs cs H E B; cbn [size_scan] in H.
  - injection H as <- _ _ <-. exists []. cbn [map app]. rewrite !app_nil_r. auto.
  - destruct (c_row c =? row) eqn:Er.
    + apply Z.eqb_eq in Er. destruct E as (E1 & E2 & E3 & E4).
      destruct (IH _ _ _ _ _ _ _ _ (rs ++ [c_row c]) (cs ++ [c_col c]) H) as (pre & -> & X).
      { unfold extent, rb_cell. cbn [rb_fr rb_lr rb_fc rb_lc]. rewrite !lo_app, !hi_app, !lo_one, !hi_one, E1, E2, E3, E4. pose proof (lo_top cs). pose proof (hi_bot cs). pose proof (lo_top rs). pose proof (hi_bot rs). repeat split; lia. }
      { rewrite lo_app, hi_app, lo_one, hi_one. lia. }
      exists (c :: pre). split; [reflexivity|]. cbn [map]. rewrite <- !app_assoc in X. exact X.
    + destruct (MAX_ROWBLOCK <=? rows).
      { injection H as <- _ _ <-. exists []. cbn [map app]. rewrite !app_nil_r. auto. }
      destruct E as (E1 & E2 & E3 & E4). destruct (IH _ _ _ _ _ _ _ _ (rs ++ [c_row c]) (cs ++ [c_col c]) H) as (pre & -> & X).
      { unfold extent, rb_cell, rb_row. cbn [rb_fr rb_lr rb_fc rb_lc]. rewrite !lo_app, !hi_app, !lo_one, !hi_one, E1, E2, E3, E4. pose proof (lo_top cs). pose proof (hi_bot cs). pose proof (lo_top rs). pose proof (hi_bot rs). repeat split; lia. }
      { rewrite lo_app, hi_app, lo_one, hi_one. lia. }
      exists (c :: pre). split; [reflexivity|]. cbn [map]. rewrite <- !app_assoc in X. exact X.
Qed.
Lemma block_extent c t : u32 (c_row c) -> exists pre, c :: t = pre ++ snd (size_block (c :: t)) /\ extent (fst (size_block (c :: t))) (map c_row pre) (map c_col pre).
Proof.
  intro U. unfold size_block. destruct (size_scan (c :: t) (c_row c) 1 0 (rb_row rb_new (c_row c))) as [[[rest rows] n] rb1] eqn:E. cbn [fst snd].
  destruct (scan_extent _ _ _ _ _ _ _ _ _ [c_row c] [] E) as (pre & Ep & X1 & X2 & X3 & X4).
  { unfold extent, rb_row, rb_new. cbn [rb_fr rb_lr rb_fc rb_lc lo hi fold_right]. repeat split; lia. }
  { cbn [lo hi fold_right]. unfold u32 in U. lia. }
  exists pre. split; [exact Ep|]. unfold extent. cbn [rb_fr rb_lr rb_fc rb_lc]. cbn [app] in X3, X4. rewrite X1, X2, X3, X4.
  destruct pre as [|p pre].
  - exfalso. cbn [app] in Ep. cbn [size_scan] in E. rewrite Z.eqb_refl in E. apply size_scan_len in E. rewrite <- Ep in E. cbn [length] in E. lia.
  - cbn [app] in Ep. injection Ep as <- _. cbn [map app lo hi fold_right]. repeat split; lia.
Qed.
Lemma merge_extent a b rs cs rs' cs' : extent a rs cs -> extent b rs' cs' -> extent (rb_merge a b) (rs ++ rs') (cs ++ cs').
Proof. intros (A1 & A2 & A3 & A4) (B1 & B2 & B3 & B4). unfold extent, rb_merge. cbn [rb_fr rb_lr rb_fc rb_lc]. rewrite !lo_app, !hi_app, A1, A2, A3, A4, B1, B2, B3, B4. auto. Qed.
Lemma blocks_extent n : forall cells acc rs cs, (length cells < n)%nat -> Forall (fun c => u32 (c_row c)) cells -> extent acc rs cs ->
  extent (fold_left rb_merge (size_blocks n cells) acc) (rs ++ map c_row cells) (cs ++ map c_col cells).
Proof.
  induction n as [|n IH]; intros cells acc rs cs L F E; [lia|]. cbn [size_blocks]. destruct cells as [|c t]; [cbn [fold_left map]; rewrite !app_nil_r; exact E|].
  destruct (block_extent c t (Forall_inv F)) as (pre & Ep & X). pose proof (size_block_len c t (fst (size_block (c :: t))) (snd (size_block (c :: t)))) as Lb.
  destruct (size_block (c :: t)) as [rb rest]. cbn [fst snd] in *. specialize (Lb eq_refl). cbn [fold_left].
  assert (Fr : Forall (fun c => u32 (c_row c)) rest) by (rewrite Ep in F; apply Forall_app in F; apply F).
  specialize (IH rest (rb_merge acc rb) (rs ++ map c_row pre) (cs ++ map c_col pre) ltac:(cbn [length] in L; lia) Fr (merge_extent _ _ _ _ _ _ E X)).
  rewrite Ep, !map_app, !app_assoc. exact IH.
Qed.
Lemma total_extent cells : Forall (fun c => u32 (c_row c)) cells -> extent (rb_total (sblocks cells)) (map c_row cells) (map c_col cells).
Proof.
  intro F. unfold rb_total, sblocks. apply (blocks_extent (S (length cells)) cells rb_new [] []); [lia|exact F|]. repeat split.
Qed.
Lemma last_cons {A} (l : list A) : forall c d, last (d :: l) c = last l d.
Proof. induction l as [|e l IH]; intros c d; [reflexivity|]. change (last (d :: e :: l) c) with (last (e :: l) c). rewrite !IH. reflexivity. Qed.
Lemma last_row l : forall c, csorted (c :: l) -> forall x, In x (c :: l) -> c_row x <= c_row (last l c).
Proof.
  induction l as [|d l IH]; intros c S x J; [destruct J as [<-|[]]; cbn [last]; lia|]. apply csorted_inv in S. destruct S as [S F]. rewrite last_cons.
  destruct J as [<-|J]; [|exact (IH d S x J)]. specialize (IH d S d (or_introl eq_refl)). pose proof (Forall_inv F) as K. unfold clt, key_lt in K. destruct (c_row c =? c_row d) eqn:Q; lia.
Qed.
Lemma last_in {A} (l : list A) : forall c, In (last l c) (c :: l).
Proof. induction l as [|d l IH]; intro c; [left; reflexivity|]. rewrite last_cons. right. apply IH. Qed.
Lemma spans_ext (u v : Z -> Prop) a b : (forall x, u x <-> v x) -> spans u a b -> spans v a b.
Proof. intros E [A B C]. constructor; [apply E; exact A|apply E; exact B|]. intros x J. apply C, E, J. Qed.

(** Asking a live sheet: the answer is right, and only the cache of block sizes changes. *)
Lemma ask_ok k calls s cols : cache_ok s -> sheet_inv (plainly s) -> meaning k calls (plainly s) -> Forall (fun c => u32 (c_row c) /\ u32 (c_col c)) (sh_cells s) ->
  exists fr lr cs s', ask_bounds s cols = Ok (fr, lr, cs, s') /\ plainly s' = plainly s /\ cache_ok s' /\ bounds_right (in_use k calls) cols fr lr cs.
Proof.
  intros C I Me U. pose proof (fun r c => used_in k calls (plainly s) r c I Me) as Us. change (sh_cells (plainly s)) with (sh_cells s) in Us. pose proof (si_cells _ I) as So. change (sh_cells (plainly s)) with (sh_cells s) in So.
  unfold ask_bounds. pose proof (num_row_blocks_ok s C) as Nb. destruct (sh_cells s) as [|c t] eqn:Ec.
  - eexists 0, 0, _, s. split; [reflexivity|]. split; [reflexivity|]. split; [exact C|].
    assert (No : ~ exists r c, in_use k calls r c) by (intros (r & c & J); apply Us in J; exact J).
    constructor; [intro X; contradiction (No X)| |auto]. intros ->. exists 0, 0. split; [reflexivity|]. split; [intro X; contradiction (No X)|auto].
  - assert (Yes : exists r c, in_use k calls r c) by (exists (c_row c), (c_col c); apply Us; left; reflexivity).
    assert (Ur : forall r, In r (map c_row (c :: t)) <-> exists c, in_use k calls r c).
    { intro r. split; [intro J; apply in_map_iff in J; destruct J as (x & <- & J); exists (c_col x); apply Us; apply in_map_iff; eauto|].
      intros (y & J). apply Us in J. apply in_map_iff in J. destruct J as (x & E & J). apply pair_equal_spec in E. destruct E as [<- _]. apply in_map. exact J. }
    assert (Uc : forall y, In y (map c_col (c :: t)) <-> exists r, in_use k calls r y).
    { intro y. split; [intro J; apply in_map_iff in J; destruct J as (x & <- & J); exists (c_row x); apply Us; apply in_map_iff; eauto|].
      intros (r & J). apply Us in J. apply in_map_iff in J. destruct J as (x & E & J). apply pair_equal_spec in E. destruct E as [_ <-]. apply in_map. exact J. }
    destruct cols.
    + rewrite Nb. cbn [bind ch_calc ch_sizes]. eexists _, _, _, _. split; [reflexivity|].
      assert (Fr : Forall (fun c => u32 (c_row c)) (c :: t)) by (eapply Forall_impl; [|exact U]; intros x [X _]; exact X).
      destruct (total_extent (c :: t) Fr) as (E1 & E2 & E3 & E4). rewrite E1, E2, E3, E4.
      assert (Sr : spans (fun r => exists c, in_use k calls r c) (lo (map c_row (c :: t))) (hi (map c_row (c :: t)))).
      { eapply spans_ext; [exact Ur|]. apply lo_spans; [|discriminate]. apply Forall_map. exact Fr. }
      assert (Sc : spans (fun y => exists r, in_use k calls r y) (lo (map c_col (c :: t))) (hi (map c_col (c :: t)))).
      { eapply spans_ext; [exact Uc|]. apply lo_spans; [|discriminate]. apply Forall_map. eapply Forall_impl; [|exact U]. intros x [_ X]. exact X. }
      split; [reflexivity|]. split.
      * right. cbn [set_dumped sh_calc sh_sizes sh_cells]. rewrite Ec. split; [reflexivity|]. split; [reflexivity|discriminate].
      * constructor; [intros _; exact Sr| |intro N; destruct Yes as (r & y & J); contradiction (N r y J)].
        intros _. eexists _, _. split; [reflexivity|]. split; [intros _; exact Sc|]. intro N. destruct Yes as (r & y & J). contradiction (N r y J).
    + eexists _, _, _, s. split; [reflexivity|]. split; [reflexivity|]. split; [exact C|].
      constructor; [intros _|discriminate|intro N; destruct Yes as (r & y & J); contradiction (N r y J)]. eapply spans_ext; [exact Ur|]. constructor.
      * left. reflexivity.
      * apply in_map. apply last_in.
      * intros r J. apply in_map_iff in J. destruct J as (x & <- & J). split; [|exact (last_row _ _ So x J)].
        destruct J as [<-|J]; [lia|]. apply csorted_inv in So. destruct So as [_ F]. rewrite Forall_forall in F. specialize (F x J). unfold clt, key_lt in F. destruct (c_row c =? c_row x) eqn:Q; lia.
Qed.
Lemma cells_u32 w k s : winv2 w -> nth_error (wb_sheets w) k = Some s -> Forall (fun c => u32 (c_row c) /\ u32 (c_col c)) (sh_cells s).
Proof.
  intros I E. pose proof (w2_tight _ I) as F. rewrite Forall_forall in F. pose proof (ti_u32 _ (F _ (nth_error_In _ _ E))) as U. unfold places in U. apply Forall_app in U. destruct U as [U _].
  rewrite Forall_forall in *. intros c J. apply (U (c_row c, c_col c)). apply in_map_iff. eauto.
Qed.

(** Calls made before a position in a history of calls, saves and questions. *)
Fixpoint said (h : list asks) : list call :=
  match h with [] => [] | ACall q :: t => q :: said t | _ :: t => said t end.
Inductive wanted := WStream | WBounds (k : nat) (cols : bool).
(** What is asked of the library, with the calls made before. *)
Fixpoint requests (before : list call) (h : list asks) : list (list call * wanted) :=
  match h with
  | [] => []
  | ACall q :: t => requests (before ++ [q]) t
  | ASave :: t => (before, WStream) :: requests before t
  | ABounds k cols :: t => (before, WBounds k cols) :: requests before t
  end.
Definition saves (l : list (list call * wanted)) : list (list call) :=
  flat_map (fun x => match snd x with WStream => [fst x] | _ => [] end) l.
Definition served (moves : Z -> nat -> bool) (x : list call * wanted) (y : reply) : Prop :=
  match x, y with
  | (calls, WStream), RStream s => exists stream, s = Some stream /\ saved moves calls stream
  | (calls, WBounds k cols), RBounds fr lr cs => bounds_right (in_use k calls) cols fr lr cs
  | _, _ => False
  end.

Section Ask.
Variables (R : Z) (moves : Z -> nat -> bool).
Hypothesis HR : 0 <= R <= 65535.
Hypothesis Calm : R <= 32819 \/ forall e n, moves e n = false.

Lemma ask_tracks calls l k s cols : Forall typed calls -> tracks calls l -> nth_error (wb_sheets (lv_wb l)) k = Some s ->
  exists fr lr cs s', ask_bounds s cols = Ok (fr, lr, cs, s') /\ bounds_right (in_use k calls) cols fr lr cs
    /\ tracks calls (mkLive (up_sheets (lv_wb l) (upd k s' (wb_sheets (lv_wb l)))) (lv_dump l)).
Proof.
  intros T (D & C & Id) E. pose proof (run_means _ _ T D) as M. assert (E' : nth_error (wb_sheets (forget (lv_wb l))) k = Some (plainly s)) by (rewrite nth_plainly, E; reflexivity).
  pose proof (wi_sheets _ (w2_inv _ (mn_inv _ _ M))) as F. rewrite Forall_forall in F, C.
  destruct (ask_ok k calls s cols (C _ (nth_error_In _ _ E)) (F _ (nth_error_In _ _ E')) (mn_sheet _ _ M _ _ E') (cells_u32 _ _ _ (mn_inv _ _ M) E')) as (fr & lr & cs & s' & H & P & C' & B).
  exists fr, lr, cs, s'. split; [exact H|]. split; [exact B|]. split; [|split; [|exact Id]]; cbn [lv_wb].
  - rewrite D. f_equal. unfold forget. cbn [up_sheets wb_sheets]. rewrite map_upd, P. 
    assert (Eu : upd k (plainly s) (map plainly (wb_sheets (lv_wb l))) = map plainly (wb_sheets (lv_wb l))).
    { clear - E. revert k E. induction (wb_sheets (lv_wb l)) as [|x t IH]; intros [|k] E; cbn [upd map nth_error] in *; try discriminate E.
      - apply some_inj in E. subst. reflexivity.
      - rewrite IH by exact E. reflexivity. }
    rewrite Eu. reflexivity.
  - cbn [up_sheets wb_sheets]. apply Forall_forall. intros x J. apply In_nth_error in J. destruct J as [i J]. destruct (Nat.eq_dec i k) as [->|N].
    + rewrite nth_upd, Nat.eqb_refl, E in J. apply some_inj in J. subst x. exact C'.
    + apply Nat.eqb_neq in N. rewrite nth_upd, N in J. apply C. eapply nth_error_In. exact J.
Qed.
Lemma no_requests before h : requests before h = [] -> forall f l out l1, ask_run f moves h l = Some (Ok (out, l1)) -> out = [].
Proof.
  revert before. induction h as [|[q| |k cols] h IH]; intros before E f l ss l1 H; cbn [requests ask_run] in *; try discriminate E.
  - apply some_inj, ok_inj in H. apply pair_equal_spec in H. destruct H as [<- _]. reflexivity.
  - destruct (api_call (lv_wb l) q); [|discriminate H|discriminate H]. eapply IH; eauto.
Qed.
Lemma ask_serves f h : forall before l out l1, tracks before l -> Forall typed (before ++ said h) -> Forall (fits R) (saves (requests before h)) ->
  Forall no_notes (saves (removelast (requests before h))) -> ask_run f moves h l = Some (Ok (out, l1)) ->
  Forall2 (served moves) (requests before h) out.
Proof.
  induction h as [|[q| |k cols] h IH]; intros before l out l1 Tr T F N H; cbn [requests ask_run said] in *.
  - apply some_inj, ok_inj in H. apply pair_equal_spec in H. destruct H as [<- _]. constructor.
  - destruct (api_call (lv_wb l) q) as [w1| |] eqn:E; [|discriminate H|discriminate H]. eapply IH; [|rewrite <- app_assoc; exact T|exact F|exact N|exact H].
    eapply call_tracks; eauto.
  - cbn [saves flat_map snd fst app] in F. fold (saves (requests before h)) in F. inversion F as [|? ? Fb Ft]; subst. pose proof (typed_mid _ _ T) as Tb. destruct (live_save f moves l) as [r|] eqn:E; [|discriminate H].
    destruct (live_saves R moves HR Calm _ _ _ _ Tb Fb Tr E) as (d & Id & ->). destruct (ask_run f moves h _) as [[[ss1 l2]| |]|] eqn:E2; [|discriminate H|discriminate H|discriminate H].
    apply some_inj, ok_inj in H. apply pair_equal_spec in H. destruct H as [<- _]. constructor.
    + eexists. split; [reflexivity|]. destruct Tr as (D & _). apply (so_saved R). apply view_saved; auto.
    + destruct (requests before h) as [|p ps] eqn:Ep.
      * rewrite (no_requests _ _ Ep _ _ _ _ E2). constructor.
      * rewrite <- Ep in *. rewrite removelast_cons in N by (rewrite Ep; discriminate). cbn [saves flat_map snd fst app] in N. inversion N; subst. eapply IH; [|exact T|exact Ft|assumption|exact E2].
        apply save_tracks; auto.
  - cbn [saves flat_map snd fst app] in F. fold (saves (requests before h)) in F. pose proof (typed_mid _ _ T) as Tb. destruct (nth_error (wb_sheets (lv_wb l)) k) as [s|] eqn:Es; [|discriminate H].
    destruct (ask_tracks _ _ _ _ cols Tb Tr Es) as (fr & lr & cs & s' & Ea & B & Tr'). rewrite Ea in H. destruct (ask_run f moves h _) as [[[ss1 l2]| |]|] eqn:E2; [|discriminate H|discriminate H|discriminate H].
    apply some_inj, ok_inj in H. apply pair_equal_spec in H. destruct H as [<- _]. constructor; [exact B|]. eapply IH; [exact Tr'|exact T|exact F| |exact E2].
    destruct (requests before h) as [|p ps] eqn:Ep; [constructor|]. rewrite <- Ep in *. rewrite removelast_cons in N by (rewrite Ep; discriminate). exact N.
Qed.
End Ask.

(** In a history of calls, saves and questions for the bounds of sheets, every answer is the
    exact range of the cells written so far, and every save writes what it would have written
    had no question been asked. *)
Theorem C47_asking_harmless R moves h out l0 l1 f : 0 <= R <= 65535 -> R <= 32819 \/ (forall e n, moves e n = false) ->
  Forall typed (said h) -> Forall (fits R) (saves (requests [] h)) -> Forall no_notes (saves (removelast (requests [] h))) ->
  live_new = Ok l0 -> ask_run f moves h l0 = Some (Ok (out, l1)) ->
  Forall2 (served moves) (requests [] h) out.
Proof. intros HR C T F N E H. apply new_tracks in E. eapply ask_serves; eauto. Qed.
Print Assumptions C47_asking_harmless.
(** A question about a sheet that exists is answered. *)
Theorem C47_bounds calls w k s cols : Forall typed calls -> document calls = Ok w -> nth_error (wb_sheets w) k = Some s ->
  exists fr lr cs s', ask_bounds s cols = Ok (fr, lr, cs, s') /\ bounds_right (in_use k calls) cols fr lr cs.
Proof.
  intros T D E. pose proof (run_means _ _ T D) as M. pose proof (wi_sheets _ (w2_inv _ (mn_inv _ _ M))) as F. rewrite Forall_forall in F. pose proof (F _ (nth_error_In _ _ E)) as I.
  assert (P : plainly s = s) by (destruct (si_cache _ I) as [A B]; destruct s; cbn in A, B; subst; reflexivity).
  destruct (ask_ok k calls s cols) as (fr & lr & cs & s' & H & _ & _ & B); [left; apply I|rewrite P; exact I|rewrite P; exact (mn_sheet _ _ M _ _ E)|exact (cells_u32 _ _ _ (mn_inv _ _ M) E)|].
  exists fr, lr, cs, s'. split; [exact H|exact B].
Qed.
Print Assumptions C47_bounds.

(* ------------------------------------------------------------------ *)
(** * Cases *)

(** The font getters fail in careless histories: nobody changes font 6, but once cell 2 is
    made italic the font says that it is. *)
Theorem C47_font_answers_refuted : exists earlier q later w h f d, document (earlier ++ q :: later) = Ok w /\ Forall typed (earlier ++ q :: later) /\ Forall args (earlier ++ q :: later)
  /\ returns earlier q h /\ font_made q = Some f /\ Forall (fun x => forall o, x <> KFontSet h o) later
  /\ font_at (wb_fs w) h = Some d /\ get_italic (fo_val d) = true /\ Z.testbit (rf_attr f) 1 = false.
Proof.
  set (calls := careless ++ [KCellOp 0 0 2 (CFont (NItalic true))]).
  destruct (document_now_spec calls (fun w => match font_at (wb_fs w) 6 with Some d => get_italic (fo_val d) | None => false end)) as (w & D & H); [vm_compute; reflexivity|].
  destruct (font_at (wb_fs w) 6) as [d|] eqn:E; [|discriminate H].
  exists [KSheet (TChar [65])], (KFont [70]), (skipn 2 calls), w, 6, (new_font [70]), d. split; [exact D|]. split; [apply careless_typed; exact I|]. split; [cbn [skipn calls careless app]; small_args|].
  split. { destruct (document_now_spec [KSheet (TChar [65])] (fun w => snd (wb_font (wb_fs w) [70]) =? 6)) as (w0 & D0 & H0); [vm_compute; reflexivity|]. exists w0. split; [exact D0|]. apply Z.eqb_eq. exact H0. }
  split; [reflexivity|]. split; [cbn [skipn calls careless app]; repeat (apply Forall_cons; [intros o X; discriminate X|]); apply Forall_nil|].
  split; [exact E|]. split; [exact H|reflexivity].
Qed.
Print Assumptions C47_font_answers_refuted.
(** A number format of the user's own is reported as General by GetFormat. *)
Theorem C47_custom_named_general : exists calls w x, Forall typed calls /\ document calls = Ok w /\ returns [KFormat (TChar [48])] (KXformat None (Some (Some 164))) 21
  /\ xf_at (wb_fs w) 21 = Some x /\ get_format_index x = 164 /\ get_format x = 0.
Proof.
  destruct (document_now_spec [KFormat (TChar [48]); KXformat None (Some (Some 164))] (fun w => match xf_at (wb_fs w) 21 with Some x => (get_format_index x =? 164) && (get_format x =? 0) | None => false end)%bool) as (w & D & H); [vm_compute; reflexivity|].
  destruct (xf_at (wb_fs w) 21) as [x|] eqn:E; [|discriminate H]. apply andb_prop in H. destruct H as [H1 H2]. apply Z.eqb_eq in H1, H2.
  exists [KFormat (TChar [48]); KXformat None (Some (Some 164))], w, x. split; [repeat (apply Forall_cons; [exact I|]); apply Forall_nil|]. split; [exact D|]. split; [|auto].
  destruct (document_now_spec [KFormat (TChar [48])] (fun w => match wb_xformat (wb_fs w) None (Some (Some 164)) with Ok (_, h) => h =? 21 | _ => false end)) as (w0 & D0 & H0); [vm_compute; reflexivity|].
  exists w0. split; [exact D0|]. destruct (wb_xformat _ _ _) as [[fs h]| |] eqn:N; try discriminate H0. apply Z.eqb_eq in H0. subst h. exists fs. first [exact N|reflexivity].
Qed.
Print Assumptions C47_custom_named_general.

Lemma few_doc calls : document_now calls (fun w => (zlen (fs_fonts (wb_fs w)) <=? 65000) && (zlen (fs_formats (wb_fs w)) <=? 65000) && (zlen (fs_xfs (wb_fs w)) <=? 65000))%bool = true ->
  exists w, document calls = Ok w /\ few (wb_fs w).
Proof. intro H. apply document_now_spec in H. destruct H as (w & D & H). exists w. split; [exact D|]. unfold few. lia. Qed.
(** The document with two fonts, a number format and a cell format of C25. *)
Example C47_objects_case : exists w x d, document objects = Ok w /\ few (wb_fs w) /\ Forall typed objects /\ Forall args objects /\ careful objects
  /\ xf_at (wb_fs w) 21 = Some x /\ is_wrap x = true /\ get_font_index x = 6 /\ get_format_index x = 164 /\ get_format x = 0
  /\ font_at (wb_fs w) 6 = Some d /\ get_italic (fo_val d) = true /\ get_height (fo_val d) = 200 /\ get_name (fo_val d) = [70].
Proof.
  destruct (document_now_spec objects (fun w => (zlen (fs_fonts (wb_fs w)) <=? 65000) && (zlen (fs_formats (wb_fs w)) <=? 65000) && (zlen (fs_xfs (wb_fs w)) <=? 65000)
     && match xf_at (wb_fs w) 21 with Some x => is_wrap x && (get_font_index x =? 6) && (get_format_index x =? 164) && (get_format x =? 0) | None => false end
     && match font_at (wb_fs w) 6 with Some d => get_italic (fo_val d) && (get_height (fo_val d) =? 200) && leqb (get_name (fo_val d)) [70] | None => false end)%bool) as (w & D & H); [vm_compute; reflexivity|].
  destruct (xf_at (wb_fs w) 21) as [x|] eqn:Ex; [|rewrite andb_false_r in H; discriminate H]. destruct (font_at (wb_fs w) 6) as [d|] eqn:Ed; [|rewrite andb_false_r in H; discriminate H].
  repeat (apply andb_prop in H; let X := fresh "H" in destruct H as [H X]). repeat match goal with X : (_ && _)%bool = true |- _ => apply andb_prop in X; destruct X end.
  repeat match goal with X : (_ =? _) = true |- _ => apply Z.eqb_eq in X | X : leqb _ _ = true |- _ => apply leqb_eq in X end.
  exists w, x, d. split; [exact D|]. split; [unfold few; lia|]. split; [exact objects_typed|]. split; [exact objects_args|]. split; [exact objects_careful|]. repeat (split; [assumption|]). assumption.
Qed.
Example C47_buffer_case : font_get_name [86; 101; 114; 100] [9; 9; 9] 3 = Ok [86; 101; 0] /\ font_get_name [86] [9; 9; 9; 9] 4 = Ok [86; 0; 9; 0].
Proof. split; reflexivity. Qed.
(** A question before the first cell, one between the cells and the save, one between two
    saves, and one after them. *)
Definition asked : list asks :=
  map ACall (firstn 1 grid) ++ ABounds 0 true :: map ACall (skipn 1 grid) ++ [ABounds 0 true; ASave; ABounds 0 false; ASave; ABounds 0 true].
Lemma asked_requests : requests [] asked = [(firstn 1 grid, WBounds 0 true); (grid, WBounds 0 true); (grid, WStream); (grid, WBounds 0 false); (grid, WStream); (grid, WBounds 0 true)].
Proof. reflexivity. Qed.
Example C47_asked_case : exists l0 l1 s,
  Forall typed (said asked) /\ Forall (fits 40) (saves (requests [] asked)) /\ Forall no_notes (saves (removelast (requests [] asked)))
  /\ live_new = Ok l0 /\ ask_run 400 (fun _ _ => false) asked l0 =
       Some (Ok ([RBounds 0 0 (Some (0, 0)); RBounds 0 9 (Some (0, 3)); RStream (Some s); RBounds 0 9 None; RStream (Some s); RBounds 0 9 (Some (0, 3))], l1)).
Proof.
  assert (K : match live_new with
              | Ok l => match ask_run 400 (fun _ _ => false) asked l with
                        | Some (Ok ([RBounds 0 0 (Some (0, 0)); RBounds 0 9 (Some (0, 3)); RStream (Some s); RBounds 0 9 None; RStream (Some s2); RBounds 0 9 (Some (0, 3))], _)) => leqb s s2
                        | _ => false end
              | _ => false end = true) by (vm_compute; reflexivity).
  destruct live_new as [l| |] eqn:E; try discriminate K. destruct (ask_run _ _ _ l) as [[[out l1]| |]|] eqn:E1; try discriminate K.
  repeat match type of K with (match ?x with _ => _ end = true) => is_var x; destruct x; try discriminate K end.
  apply leqb_eq in K. subst. eexists l, l1, _. split; [exact grid_typed|]. rewrite asked_requests. cbn [saves flat_map snd fst app removelast].
  split; [repeat (apply Forall_cons; [exact grid_fits|]); constructor|]. split; [repeat (apply Forall_cons; [exact grid_notes|]); constructor|]. split; [reflexivity|]. first [exact E1|reflexivity].
Qed.
