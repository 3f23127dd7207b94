(** Formats switched between cell and style mode (C53). *)
From Coq Require Import ZArith List Bool Lia ZifyBool ZifyNat.
From Verif Require Import Bytes UnitModel SpecBuf RecModel SheetModel XfModel WbModel RecProofs RecFrames SpecXf XfProofs SpecXfOps PropsXf XfInv Looks ApiModel ApiInv
  SpecBiff SpecApi SpecSaved ApiEff XfTrace SpecLook LookInv RefTrace LookStep SpecBook
  BookRecs SaveRecs SaveRead SaveOk SavedView ViewPay ViewLook CellLook PropsSheet PropsRows DemoDoc PropsBook ModeModel SpecMode.
Import ListNotations.
Local Open Scope Z_scope.

(** The object a setter of style mode works on, seen in cell mode and without marks. *)
Definition seen (x : xf) : xf :=
  mkXf (x_fmt x) (x_font x) (x_format x) (x_ha x) (x_va x) (x_ind x) (x_ori x) (x_fill x) (x_fg x)
       (x_bg x) (x_locked x) (x_hidden x) (x_wrap x) true (x_user x) (x_bs x) (x_bc x) 0 (x_use x).
Definition unseen (o : fmtop) (x y : xf) : xf :=
  mkXf (x_fmt y) (x_font y) (x_format y) (x_ha y) (x_va y) (x_ind y) (x_ori y) (x_fill y) (x_fg y)
       (x_bg y) (x_locked y) (x_hidden y) (x_wrap y) false (x_user y) (x_bs y)
       (match o with FXf (XBStyle _ _) => x_bc x | _ => x_bc y end) (Z.ldiff (x_flags x) (x_flags y)) (x_use y).

Lemma flag_seen c f x : x_cell x = false -> flag_if c f x =
  mkXf (x_fmt x) (x_font x) (x_format x) (x_ha x) (x_va x) (x_ind x) (x_ori x) (x_fill x) (x_fg x)
       (x_bg x) (x_locked x) (x_hidden x) (x_wrap x) false (x_user x) (x_bs x) (x_bc x) (Z.ldiff (x_flags x) (if c then f else 0)) (x_use x).
Proof. intro H. destruct c; cbn [flag_if]; [unfold set_flag; rewrite H; reflexivity|]. rewrite Z.ldiff_0_r. destruct x; cbn in *. rewrite H. reflexivity. Qed.
Lemma flag_cell c f x : x_cell x = true -> x_flags x = 0 -> flag_if c f x =
  mkXf (x_fmt x) (x_font x) (x_format x) (x_ha x) (x_va x) (x_ind x) (x_ori x) (x_fill x) (x_fg x)
       (x_bg x) (x_locked x) (x_hidden x) (x_wrap x) true (x_user x) (x_bs x) (x_bc x) (if c then f else 0) (x_use x).
Proof. intros H0 H. destruct c; cbn [flag_if]; [unfold set_flag; rewrite H, H0; reflexivity|]. destruct x; cbn in *. rewrite H, H0. reflexivity. Qed.
Lemma set_flag_if f x : set_flag f x = flag_if true f x.
Proof. reflexivity. Qed.
Lemma xf_apply_seen o x y : x_cell x = false -> xf_apply o x = Ok y -> exists z, xf_apply o (seen x) = Ok z /\ y = unseen (FXf o) x z.
Proof.
  intros Hc H. destruct o; cbn [xf_apply] in *; cbv zeta in *; rewrite ?set_flag_if in *;
    try (unfold xl_assert in *; destruct (side_ok side); cbn [bind] in *; [|discriminate H]);
    try (destruct (table _ _) as [h| |]; cbn [bind] in *; try discriminate H);
    apply ok_inj in H; subst y; eexists; (split; [reflexivity|]);
    repeat (rewrite flag_seen by exact Hc); repeat (rewrite flag_cell by reflexivity); cbn; try reflexivity.
  destruct (nth (Z.to_nat side) (x_bc x) 0 =? 0); reflexivity.
Qed.
Lemma fmt_apply_seen fs x o fs' y : x_cell x = false -> fmt_apply fs x o = Ok (fs', y) -> exists z, fmt_apply fs (seen x) o = Ok (fs', z) /\ y = unseen o x z.
Proof.
  intros Hc H. destruct o as [o|f|[f|]]; cbn [fmt_apply] in *.
  - destruct (xf_apply o x) as [z| |] eqn:E; cbn [bind] in H; try discriminate H. apply ok_inj, pair_equal_spec in H. destruct H as [<- <-].
    destruct (xf_apply_seen _ _ _ Hc E) as (y & -> & Q). exists y. split; [reflexivity|exact Q].
  - destruct (font_handle fs f); [|discriminate H]. unfold xf_set_font in *. apply ok_inj, pair_equal_spec in H. destruct H as [<- <-].
    rewrite (flag_seen _ _ x) by exact Hc. rewrite (flag_cell _ _ (seen x)) by reflexivity. eexists. split; reflexivity.
  - destruct (format_handle fs f); [|discriminate H]. unfold xf_set_format in *. apply ok_inj, pair_equal_spec in H. destruct H as [<- <-].
    rewrite (flag_seen _ _ x) by exact Hc. rewrite (flag_cell _ _ (seen x)) by reflexivity. eexists. split; reflexivity.
  - apply ok_inj, pair_equal_spec in H. destruct H as [<- <-]. eexists. split; [reflexivity|]. unfold unseen, seen. cbn. rewrite Z.ldiff_0_r. destruct x; cbn in *. rewrite Hc. reflexivity.
Qed.

(** The invariant. *)
Definition mrel (x : xf) (s : xfattrs * bool) : Prop :=
  x_cell x = snd s /\ length (x_bs x) = 5%nat /\ length (x_bc x) = 5%nat /\ xf_fits x /\ attrs_of x = fst s.
Lemma mrel_rel x s : snd s = true -> mrel x s <-> rel x (fst s).
Proof. unfold mrel, rel. intros ->. reflexivity. Qed.
Lemma ldiff_range a b : 0 <= a < 256 -> 0 <= b -> 0 <= Z.ldiff a b < 256.
Proof.
  intros Ha Hb. assert (E : Z.ldiff a b = Z.ldiff a b mod 256).
  { change 256 with (2 ^ 8) in *. apply Z.bits_inj'. intros n Hn. rewrite Z.ldiff_spec. destruct (Z.lt_ge_cases n 8) as [L|L]; [rewrite Z.mod_pow2_bits_low, Z.ldiff_spec by lia; reflexivity|].
    rewrite Z.mod_pow2_bits_high by lia. rewrite <- (Z.mod_small a (2 ^ 8)) by lia. rewrite Z.mod_pow2_bits_high by lia. reflexivity. }
  rewrite E. apply Z.mod_pos_bound. lia.
Qed.
Lemma ldiff_quarter a b : Z.ldiff a b / 4 = Z.ldiff (a / 4) (b / 4).
Proof. change 4 with (2 ^ 2). rewrite <- !Z.shiftr_div_pow2 by lia. apply Z.shiftr_ldiff. Qed.
Lemma seen_rel x a : mrel x (a, false) -> rel (seen x) (marked 0 a).
Proof.
  intros (Hc & L1 & L2 & F & E). cbn [fst snd] in *. unfold rel. split; [reflexivity|]. split; [exact L1|]. split; [exact L2|].
  split; [|rewrite <- E; reflexivity]. unfold xf_fits in *. cbn [seen x_ha x_va x_ind x_ori x_fill x_fg x_bg x_bs x_bc x_flags x_fmt x_font]. intuition lia.
Qed.
Lemma marked_set o a u v : marked u (spec_set o (marked v a)) = marked u (spec_set o a).
Proof. destruct a. unfold marked. cbn. destruct o as [[]|[|]|[|]]; reflexivity. Qed.
Lemma touches_any o a : xa_used (spec_set o (marked 0 a)) = touches o.
Proof. destruct a, o as [[]|[|]|[|]]; reflexivity. Qed.
Lemma style_rel o x a z : mrel x (a, false) -> rel z (spec_set o (marked 0 a)) -> (forall side v, o = FXf (XBStyle side v) -> x_bs z = upd (Z.to_nat side) v (x_bs x) /\ side_ok side = true) ->
  mrel (unseen o x z) (style_set o a, false).
Proof.
  intros M (Hc & L1 & L2 & F & E) Bs. pose proof M as (Hc' & L1' & L2' & F' & E'). cbn [fst snd] in *.
  assert (Fl : 0 <= x_flags z < 256 /\ 0 <= x_flags x < 256) by (unfold xf_fits in F, F'; lia). pose proof (ldiff_range (x_flags x) (x_flags z) ltac:(lia) ltac:(lia)) as Fd.
  assert (Lb : length (match o with FXf (XBStyle _ _) => x_bc x | _ => x_bc z end) = 5%nat) by (destruct o as [[]| |]; auto).
  assert (Fb : forall k, 0 <= nth k (match o with FXf (XBStyle _ _) => x_bc x | _ => x_bc z end) 0 < 128).
  { unfold xf_fits in F, F'. destruct o as [[]| |]; tauto. }
  split; [reflexivity|]. split; [exact L1|]. split; [exact Lb|]. split.
  - unfold xf_fits in *. cbn [unseen x_ha x_va x_ind x_ori x_fill x_fg x_bg x_bs x_bc x_flags x_fmt x_font]. intuition lia.
  - cbn [fst]. assert (Eu : x_flags z / 4 = touches o) by (rewrite <- (touches_any o a), <- E; reflexivity).
    assert (Ex : x_flags x / 4 = xa_used a) by (rewrite <- E'; reflexivity).
    assert (G : (forall side v, o <> FXf (XBStyle side v)) -> attrs_of (unseen o x z) = marked (Z.ldiff (xa_used a) (touches o)) (spec_set o a)).
    { intro N. rewrite <- (marked_set o a _ 0), <- E. unfold attrs_of, unseen, marked. cbn [x_ha x_va x_ind x_ori x_fill x_fg x_bg x_bs x_bc x_flags x_fmt x_font x_locked x_hidden x_wrap
        xa_font xa_numfmt xa_locked xa_hidden xa_halign xa_wrap xa_valign xa_rotation xa_indent xa_left xa_right xa_top xa_bottom xa_pattern xa_fore xa_back xa_used].
      rewrite ldiff_quarter, Eu, Ex. destruct o as [[]| |]; try reflexivity. exfalso. eapply N. reflexivity. }
    destruct o as [o| |]; try (apply G; discriminate). destruct o; try (apply G; discriminate).
    unfold style_set. destruct (Bs _ _ eq_refl) as [B Sd]. clear G Bs.
    assert (K : marked 0 (attrs_of z) = marked 0 (spec_set (FXf (XBStyle side v)) (marked 0 a))) by (rewrite E; reflexivity).
    rewrite <- E' in K |- *. unfold attrs_of, unseen, marked, on_side in *. cbn in K. cbn. rewrite ldiff_quarter, Eu, Ex. clear Eu Ex.
    pose proof (f_equal xa_font K) as K1. pose proof (f_equal xa_numfmt K) as K2. pose proof (f_equal xa_locked K) as K3. pose proof (f_equal xa_hidden K) as K4. pose proof (f_equal xa_halign K) as K5.
    pose proof (f_equal xa_wrap K) as K6. pose proof (f_equal xa_valign K) as K7. pose proof (f_equal xa_rotation K) as K8. pose proof (f_equal xa_indent K) as K9. pose proof (f_equal xa_pattern K) as K10.
    pose proof (f_equal xa_fore K) as K11. pose proof (f_equal xa_back K) as K12. cbn in K1, K2, K3, K4, K5, K6, K7, K8, K9, K10, K11, K12.
    rewrite K1, K2, K3, K4, K5, K6, K7, K8, K9, K10, K11, K12, B, <- E'. clear K K1 K2 K3 K4 K5 K6 K7 K8 K9 K10 K11 K12.
    destruct (five _ L1') as (b0 & b1 & b2 & b3 & b4 & ->). destruct (side_cases _ Sd) as [->|[->|[->|[->| ->]]]]; reflexivity.
Qed.
Lemma apply_style_bs x side v z : xf_apply (XBStyle side v) (seen x) = Ok z -> x_bs z = upd (Z.to_nat side) v (x_bs x) /\ side_ok side = true.
Proof.
  cbn [xf_apply]. intro H. unfold xl_assert in H. destruct (side_ok side); cbn [bind] in H; [|discriminate H]. split; [|reflexivity].
  destruct (table BORDERSTYLE_TABLE v) as [h| |] eqn:Et; cbn [bind] in H; try discriminate H. apply table_ok in Et. destruct Et as [Hv ->].
  unfold BORDERSTYLE_TABLE, zlen in Hv. cbn in Hv. rewrite border_val in H by (cbn; lia). cbv zeta in H. apply ok_inj in H. subst z. rewrite flag_cell by reflexivity. cbn.
  destruct (nth _ _ 0 =? 0); reflexivity.
Qed.
Lemma mode_set_rel fs x s o fs' y : mrel x s -> SpecXfOps.fits o -> fmt_apply fs x o = Ok (fs', y) -> mrel y (mode_step s (MSet o)).
Proof.
  destruct s as [a [|]]; intros M Fo H; cbn [mode_step fst snd].
  - apply mrel_rel; [reflexivity|]. apply mrel_rel in M; [|reflexivity]. exact (fmt_apply_rel _ _ _ _ _ _ M Fo H).
  - pose proof M as (Hc & _). cbn [snd] in Hc. destruct (fmt_apply_seen _ _ _ _ _ Hc H) as (z & Hz & ->). apply style_rel; [exact M|exact (fmt_apply_rel _ _ _ _ _ _ (seen_rel _ _ M) Fo Hz)|].
    intros side v ->. cbn [fmt_apply] in Hz. destruct (xf_apply (XBStyle side v) (seen x)) as [z'| |] eqn:E; cbn [bind] in Hz; try discriminate Hz.
    apply ok_inj, pair_equal_spec in Hz. destruct Hz as [_ <-]. exact (apply_style_bs _ _ _ _ E).
Qed.
Lemma mode_mode_rel x s b : mrel x s -> mrel (with_cell b x) (mode_step s (MMode b)).
Proof. intros (Hc & L1 & L2 & F & E). repeat split; try assumption; apply F. Qed.
Lemma mode_sets_rel l : forall fs p fs' x s, xf_at fs p = Some x -> mrel x s -> Forall SpecXfOps.fits (setters l) ->
  mode_sets fs p l = Ok fs' -> exists y, xf_at fs' p = Some y /\ mrel y (fold_left mode_step l s).
Proof.
  induction l as [|[o|b] t IH]; intros fs p fs' x s Hx R F H; cbn [mode_sets] in H.
  - apply ok_inj in H. subst fs'. exists x. auto.
  - unfold xf_user in H. rewrite Hx in H. destruct (fmt_apply fs x o) as [[fs1 y]| |] eqn:E; cbn [bind] in H; try discriminate H.
    cbn [setters flat_map app] in F. inversion F as [|? ? Fo Ft]; subst. cbn [fold_left]. eapply IH; [| |exact Ft|exact H].
    + erewrite xf_at_upd; [reflexivity|]. rewrite (xf_at_xfs fs1 fs) by (eapply fmt_apply_xfs; eauto). exact Hx.
    + eapply mode_set_rel; eauto.
  - unfold xf_mode in H. rewrite Hx in H. cbn [bind] in H. cbn [fold_left]. eapply IH; [|apply mode_mode_rel; exact R|exact F|exact H].
    erewrite xf_at_upd; [reflexivity|exact Hx].
Qed.

(** Take a fresh format of the workbook, set attributes and switch its mode in any order.  The
    record saved for it is of the kind last chosen (cell format based on format 0, or style),
    and decodes to the attributes of [mode_run]. *)
Theorem C53_mode_history fs fs1 p l fs2 : wb_xformat fs None None = Ok (fs1, p) -> mode_sets fs1 p l = Ok fs2 -> Forall SpecXfOps.fits (setters l) ->
  exists x payload, xf_at fs2 p = Some x /\ build (rec_xf x) = Ok (mkBU (frame 224 payload) false)
    /\ read_xf payload = Some (fst (mode_run l default_attrs))
    /\ xf_kind payload = Some (if snd (mode_run l default_attrs) then CellXf 0 else StyleXf).
Proof.
  intros H1 H2 F. rewrite wb_xformat_plain in H1. apply ok_inj in H1. unfold add_xf in H1. apply pair_equal_spec in H1. destruct H1 as [<- <-].
  assert (Hat : xf_at (set_xfs fs (fs_dxfs fs) (fs_xfs fs ++ [xf_zero])) (21 + zlen (fs_xfs fs)) = Some xf_zero).
  { unfold xf_at; cbn [set_xfs fs_xfs fs_dxfs]. replace (21 + zlen (fs_xfs fs) <? 0) with false by (unfold zlen; lia). replace (21 + zlen (fs_xfs fs) <? 21) with false by (unfold zlen; lia).
    replace (Z.to_nat (21 + zlen (fs_xfs fs) - 21)) with (length (fs_xfs fs)) by (unfold zlen; lia). apply nth_error_last. }
  assert (M0 : mrel xf_zero (default_attrs, true)) by (apply mrel_rel; [reflexivity|exact rel_zero]).
  destruct (mode_sets_rel l _ _ _ xf_zero _ Hat M0 F H2) as (y & Hy & R). destruct R as (Rc & _ & _ & Fy & Ra).
  exists y, (xbytes (xstate y)). split; [exact Hy|]. split; [apply build_xf|]. unfold mode_run. rewrite <- Ra, <- Rc. split; [apply read_xstate; exact Fy|apply xbytes_kind].
Qed.
Print Assumptions C53_mode_history.

Lemma same_look_refl a : same_look a a.
Proof. unfold same_look. tauto. Qed.
Lemma same_look_set a b o : same_look a b -> same_look (spec_set o a) (spec_set o b).
Proof.
  destruct a as [f1 f2 f3 f4 f5 f6 f7 f8 f9 [l1 l2] [r1 r2] [t1 t2] [b1 b2] p1 p2 p3 u], b as [g1 g2 g3 g4 g5 g6 g7 g8 g9 [m1 m2] [s1 s2] [v1 v2] [c1 c2] q1 q2 q3 w].
  unfold same_look. cbn [xa_font xa_numfmt xa_locked xa_hidden xa_halign xa_wrap xa_valign xa_rotation xa_indent xa_left xa_right xa_top xa_bottom xa_pattern xa_fore xa_back fst].
  intros (E1 & E2 & E3 & E4 & E5 & E6 & E7 & E8 & E9 & E10 & E11 & E12 & E13 & E14 & E15 & E16).
  destruct o as [[]|f|[f|]]; cbn [spec_set on_side xa_font xa_numfmt xa_locked xa_hidden xa_halign xa_wrap xa_valign xa_rotation xa_indent xa_left xa_right xa_top xa_bottom xa_pattern xa_fore xa_back fst snd];
    repeat split; try assumption; try reflexivity;
    match goal with |- context [if ?c then _ else _] => destruct c end; cbn [fst]; first [assumption|reflexivity].
Qed.
Lemma same_look_style a b o : same_look a b -> same_look (style_set o a) (spec_set o b).
Proof.
  intro H. assert (G : forall u, same_look (marked u (spec_set o a)) (spec_set o b)) by (intro u; exact (same_look_set a b o H)).
  unfold style_set. destruct o as [o| |]; try apply G. destruct o; try apply G. clear G. destruct a, b. unfold same_look in *. cbn in *.
  destruct H as (-> & -> & -> & -> & -> & -> & -> & -> & -> & L & R & T & B & -> & -> & ->). repeat split; try reflexivity;
    match goal with |- context [if ?c then _ else _] => destruct c end; cbn; assumption || reflexivity.
Qed.
(** Switching modes loses no attribute: but for the marks and the automatic colour of lines
    the attributes are those given by the setters alone. *)
Theorem C53_attributes_kept l a : same_look (fst (mode_run l a)) (fold_left (fun a o => spec_set o a) (setters l) a).
Proof.
  unfold mode_run. generalize true as m. assert (G : forall m b, same_look b a -> same_look (fst (fold_left mode_step l (b, m))) (fold_left (fun a o => spec_set o a) (setters l) a)); [|intro m; apply G, same_look_refl].
  revert a. induction l as [|[o|n] l IH]; intros a m b H; [exact H| |].
  - cbn [fold_left mode_step fst snd setters flat_map app]. apply IH. destruct m; [apply same_look_set|apply same_look_style]; exact H.
  - cbn [fold_left mode_step fst snd]. exact (IH a n b H).
Qed.
Print Assumptions C53_attributes_kept.

(** An attribute given its value while the format is a style is taken from the style. *)
Lemma style_used o a : xa_used (style_set o a) = Z.ldiff (xa_used a) (touches o).
Proof. unfold style_set. destruct o as [[]| |]; reflexivity. Qed.
Lemma style_run ops : forall a g, Z.land (xa_used a) g = 0 -> snd (fold_left mode_step (map MSet ops) (a, false)) = false /\ Z.land (xa_used (fst (fold_left mode_step (map MSet ops) (a, false)))) g = 0.
Proof.
  induction ops as [|o ops IH]; intros a g H; [auto|]. cbn [map fold_left mode_step fst snd]. apply IH. rewrite style_used. apply Z.bits_inj'. intros n Hn.
  rewrite Z.land_spec, Z.ldiff_spec, Z.bits_0. apply (f_equal (fun z => Z.testbit z n)) in H. rewrite Z.land_spec, Z.bits_0 in H. destruct (Z.testbit (xa_used a) n), (Z.testbit g n); cbn in *; try discriminate; auto. rewrite andb_false_r. reflexivity.
Qed.
Theorem C53_style_marks_partial l1 ops1 o ops2 a : let s := mode_run (l1 ++ MMode false :: map MSet (ops1 ++ o :: ops2)) a in
  snd s = false /\ own StyleXf (touches o) (fst s) = true.
Proof.
  cbv zeta. unfold mode_run. rewrite fold_left_app. cbn [fold_left]. rewrite map_app, fold_left_app. cbn [map fold_left].
  destruct (fold_left mode_step l1 (a, true)) as [a1 m1]. cbn [mode_step fst].
  destruct (style_run ops1 a1 0 (Z.land_0_r _)) as [Q _]. destruct (fold_left mode_step (map MSet ops1) (a1, false)) as [a2 m2]. cbn [snd] in Q. subst m2. cbn [mode_step fst snd].
  assert (Z0 : Z.land (xa_used (style_set o a2)) (touches o) = 0). { rewrite style_used. apply Z.bits_inj'. intros n Hn. rewrite Z.land_spec, Z.ldiff_spec, Z.bits_0. destruct (Z.testbit (xa_used a2) n), (Z.testbit (touches o) n); reflexivity. }
  destruct (style_run ops2 _ _ Z0) as [A B]. split; [exact A|]. unfold own. rewrite B. reflexivity.
Qed.
Print Assumptions C53_style_marks_partial.

(** While only cell mode is asked for, nothing changes to C24; and there the marks are right. *)
Lemma cell_run l a : Forall (fun x => x <> MMode false) l -> mode_run l a = (fold_left (fun a o => spec_set o a) (setters l) a, true).
Proof.
  unfold mode_run. revert a. induction l as [|[o|b] l IH]; intros a F; inversion F as [|? ? N F']; subst; [reflexivity| |].
  - cbn [fold_left mode_step fst snd setters flat_map app]. apply (IH _ F').
  - destruct b; [|congruence]. cbn [fold_left mode_step fst snd]. apply (IH _ F').
Qed.
Lemma used_set o a : xa_used (spec_set o a) = Z.lor (xa_used a) (touches o).
Proof.
  destruct a, o as [[]|[|]|[|]]; unfold touches; cbn; rewrite ?Z.lor_0_r; try reflexivity;
    match goal with |- context [on _ ?c _] => destruct c end; cbn; rewrite ?Z.lor_0_r; reflexivity.
Qed.
Lemma touches_one o : In (touches o) [0; uNUM; uFONT; uTEXT; uBORDER; uAREA; uPROT].
Proof.
  destruct o as [[]|[|]|[|]]; unfold touches; cbn; auto 10; match goal with |- context [on _ ?c _] => destruct c end; cbn; auto 10.
Qed.
Lemma used_run ops : forall a g, In g [uNUM; uFONT; uTEXT; uBORDER; uAREA; uPROT] ->
  Z.land (xa_used (fold_left (fun a o => spec_set o a) ops a)) g <> 0 <-> Z.land (xa_used a) g <> 0 \/ exists o, In o ops /\ touches o = g.
Proof.
  induction ops as [|o ops IH]; intros a g G; cbn [fold_left]; [split; [auto|intros [H|(o & [] & _)]; exact H]|]. rewrite (IH _ _ G), used_set, Z.land_lor_distr_l, Z.lor_eq_0_iff.
  assert (T : Z.land (touches o) g <> 0 <-> touches o = g).
  { pose proof (touches_one o) as J. cbn [In] in J, G. destruct J as [<-|[<-|[<-|[<-|[<-|[<-|[<-|[]]]]]]]], G as [<-|[<-|[<-|[<-|[<-|[<-|[]]]]]]]; unfold uNUM, uFONT, uTEXT, uBORDER, uAREA, uPROT; cbn; split; congruence. }
  split.
  - intros [H|(o' & J & E)]; [|right; exists o'; split; [right; exact J|exact E]].
    destruct (Z.eq_dec (Z.land (xa_used a) g) 0) as [E1|N1]; [|auto]. destruct (Z.eq_dec (Z.land (touches o) g) 0) as [E2|N2]; [tauto|]. right. exists o. split; [left; reflexivity|apply T; exact N2].
  - intros [H|(o' & [<-|J] & E)]; [left; tauto|left; apply T in E; tauto|right; eauto].
Qed.
Theorem C53_cell_marks_partial l : Forall (fun x => x <> MMode false) l -> marks_right l.
Proof.
  intros F g G. cbv zeta. rewrite (cell_run _ _ F). cbn [fst snd own].
  assert (E : negb (Z.land (xa_used (fold_left (fun a o => spec_set o a) (setters l) default_attrs)) g =? 0) = true <-> Z.land (xa_used (fold_left (fun a o => spec_set o a) (setters l) default_attrs)) g <> 0).
  { destruct (Z.eqb_spec (Z.land (xa_used (fold_left (fun a o => spec_set o a) (setters l) default_attrs)) g) 0); cbn; split; congruence. }
  rewrite E, (used_run _ _ _ G). change (Z.land (xa_used default_attrs) g) with 0. split.
  - intros [H|(o & J & Q)]; [congruence|]. exists o. split; [|exact Q]. unfold setters in J. apply in_flat_map in J. destruct J as (x & Jx & J). destruct x; [|destruct J]. destruct J as [<-|[]]. exact Jx.
  - intros (o & J & Q). right. exists o. split; [|exact Q]. unfold setters. apply in_flat_map. exists (MSet o). split; [exact J|left; reflexivity].
Qed.
Print Assumptions C53_cell_marks_partial.
(** In general they are not.  An alignment set before the format becomes a style is not taken
    from it; and a format made a style claims every attribute, though none was set. *)
Theorem C53_marks_refuted :
  (exists l, In (MSet (FXf (XHAlign 2))) l /\ snd (mode_run l default_attrs) = false /\ own StyleXf uTEXT (fst (mode_run l default_attrs)) = false)
  /\ (exists l, setters l = [] /\ snd (mode_run l default_attrs) = false /\ own StyleXf uFONT (fst (mode_run l default_attrs)) = true)
  /\ exists l, ~ marks_right l.
Proof.
  split; [exists [MSet (FXf (XHAlign 2)); MMode false]; cbn; auto|]. split; [exists [MMode false]; cbn; auto|].
  exists [MMode false]. intro H. specialize (H uFONT). cbn in H. destruct (proj1 (H (or_intror (or_introl eq_refl))) eq_refl) as (o & [E|[]] & _). discriminate E.
Qed.
Print Assumptions C53_marks_refuted.

(* ------------------------------------------------------------------ *)
(** * Documents *)

Lemma upd_same {A} (l : list A) n v : nth_error l n = Some v -> upd n v l = l.
Proof. revert n. induction l as [|a l IH]; intros [|n] H; cbn in *; try discriminate H; [injection H as ->; reflexivity|]. f_equal. auto. Qed.
Lemma mode_idle fs p x : xf_at fs p = Some x -> x_cell x = true -> xf_mode fs p true = Ok fs.
Proof.
  intros H C. unfold xf_mode. rewrite H. f_equal. unfold xf_upd. rewrite H. assert (E : with_cell true x = x) by (destruct x; cbn in *; subst; reflexivity). rewrite E.
  unfold xf_at in H. destruct (p <? 0); [discriminate H|]. destruct (p <? 21); rewrite upd_same by exact H; destruct fs; reflexivity.
Qed.
Lemma mdoc_snoc p x w' : mdocument (p ++ [x]) = Ok w' <-> exists w, mdocument p = Ok w /\ mcall_do w x = Ok w'.
Proof.
  unfold mdocument. generalize wb_new as w0. intro w0. destruct w0 as [w0| |]; cbn [bind]; [|split; [discriminate|intros (? & Q & _); discriminate Q]..].
  rewrite fold_res_app. destruct (fold_res mcall_do p w0) as [w| |]; cbn [bind fold_res]; [|split; [discriminate|intros (? & Q & _); discriminate Q]..]. split.
  - intro H. apply bind_ok in H. destruct H as (u & E & H). apply ok_inj in H. subst u. eauto.
  - intros (w1 & Q & C). apply ok_inj in Q. subst w1. rewrite C. reflexivity.
Qed.
Lemma doc_next l q w w' : document l = Ok w -> api_call w q = Ok w' -> document (l ++ [q]) = Ok w'.
Proof.
  unfold document, api_run. intros D C. apply bind_ok in D. destruct D as (w0 & E0 & D). rewrite E0. cbn [bind]. rewrite fold_res_app, D. cbn [bind fold_res]. rewrite C. reflexivity.
Qed.
(** Asking for cell mode, of formats made by the program, never changes a document. *)
Theorem C53_cell_mode_idle p w : Forall typed (mplain p) -> Forall (fun x => match x with MCellMode i b => b = true /\ 21 <= i | _ => True end) p ->
  mdocument p = Ok w -> document (mplain p) = Ok w.
Proof.
  revert w. induction p as [|x p IH] using rev_ind; intros w T F D; [revert D; unfold mdocument, document, api_run; generalize wb_new; intros r H; exact H|].
  apply Forall_app in F. destruct F as [F Fx]. inversion Fx as [|? ? Fx' _]; subst. unfold mplain in *. rewrite flat_map_app in *. apply Forall_app in T. destruct T as [T Tx].
  apply mdoc_snoc in D. destruct D as (w0 & D & C). specialize (IH _ T F D). destruct x as [q|i b]; cbn [flat_map app mcall_do] in *.
  - eapply doc_next; eauto.
  - destruct Fx' as [-> Hi]. rewrite app_nil_r. pose proof (doc_kinds _ _ T IH) as K. destruct (xf_at (wb_fs w0) i) as [y|] eqn:E.
    + rewrite (mode_idle _ _ _ E) in C by (rewrite (K _ _ E); unfold for_cells; lia). cbn [bind] in C. apply ok_inj in C. subst w. destruct w0. exact IH.
    + unfold xf_mode in C. rewrite E in C. discriminate C.
Qed.
Print Assumptions C53_cell_mode_idle.

(** A program that uses a style as the format of a cell saves a cell that refers to a style,
    which the file format forbids (compare C43_cells_use_cell_formats). *)
Definition styled : list mcall :=
  [MCall (KSheet (TChar [65])); MCall (KXformat None None); MCellMode 21 false; MCall (KCell 0 1 1 (UInt 7) (Some 21))].
Definition mstream_of (fuel : nat) (p : list mcall) : option (list Z) :=
  match mdocument p with
  | Ok w => match book_units fuel (fun _ _ => false) (wb_book w) with Some (Ok (units, _)) => Some (concat units) | _ => None end
  | _ => None
  end.
Theorem C53_style_cell_refuted : exists w units after stream g x, mdocument styled = Ok w /\ book_units 400 (fun _ _ => false) (wb_book w) = Some (Ok (units, after)) /\ stream = concat units
  /\ globals_in stream g /\ cell_record stream 0 1 1 = Some x /\ kind_at g (rc_xf x) = Some StyleXf.
Proof.
  assert (K : match mstream_of 400 styled with
              | Some s => match substream s 0, cell_record s 0 1 1 with
                          | Some (kd, g), Some x => ((kd =? K_GLOBALS) && match kind_at g (rc_xf x) with Some StyleXf => true | _ => false end)%bool
                          | _, _ => false end
              | None => false end = true) by (vm_compute; reflexivity).
  unfold mstream_of in K. destruct (mdocument styled) as [w| |]; try discriminate K. exists w. destruct (book_units _ _ _) as [[[units after]| |]|]; try discriminate K.
  exists units, after, (concat units). destruct (substream (concat units) 0) as [[kd g]|] eqn:E1; [|discriminate K]. destruct (cell_record (concat units) 0 1 1) as [x|] eqn:E2; [|discriminate K].
  exists g, x. apply andb_prop in K. destruct K as [K1 K2]. apply Z.eqb_eq in K1. subst kd. repeat (split; [reflexivity|]). split; [exact E1|]. split; [reflexivity|].
  destruct (kind_at g (rc_xf x)) as [[|]|]; try discriminate K2. reflexivity.
Qed.
Print Assumptions C53_style_cell_refuted.

(** A history with several switches, met by the hypotheses. *)
Definition switched : list mset :=
  [MSet (FXf (XHAlign 2)); MMode false; MSet (FXf (XBStyle 3 5)); MSet (FXf (XFill 1)); MMode true; MSet (FXf (XBStyle 2 1)); MMode false; MSet (FXf (XWrap true))].
Example C53_case : exists fs fs1 p fs2, fstate_init = Ok fs /\ wb_xformat fs None None = Ok (fs1, p) /\ mode_sets fs1 p switched = Ok fs2 /\ Forall SpecXfOps.fits (setters switched)
  /\ mode_run switched default_attrs = (mkXA 0 0 true false 2 true 2 0 0 (1, 64) (5, 0) (0, 0) (0, 0) 1 64 65 8, false).
Proof.
  assert (K : match fstate_init with Ok fs => match wb_xformat fs None None with Ok (fs1, p) => match mode_sets fs1 p switched with Ok _ => true | _ => false end | _ => false end | _ => false end = true) by (vm_compute; reflexivity).
  destruct fstate_init as [fs| |]; [|discriminate K|discriminate K]. destruct (wb_xformat fs None None) as [[fs1 p]| |] eqn:E1; [|discriminate K|discriminate K]. destruct (mode_sets fs1 p switched) as [fs2| |] eqn:E2; [|discriminate K|discriminate K].
  exists fs, fs1, p, fs2. split; [reflexivity|]. split; [exact E1|]. split; [exact E2|]. clear. split; [cbn; repeat (constructor; [cbn; lia|]); constructor|reflexivity].
Qed.
