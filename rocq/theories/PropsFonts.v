(** C25: the objects a user creates have numbers of their own, and the records saved under
    these numbers are theirs. *)
From Coq Require Import ZArith List Bool Lia ZifyBool ZifyNat Sorted.
From Verif Require Import Bytes UnitModel SpecBuf BufProofs RecModel SheetModel XfModel WbModel RecProofs RecFrames SpecXf XfProofs SpecXfOps PropsXf XfInv Looks ApiModel SpecBiff BookRecs ApiInv
  SpecApi ApiEff SheetProofs SheetTrace GlobTrace WbProofs SaveOk SaveRecs SaveRead SpecSaved SaveMeans DocLimits SavedView XfTrace SpecLook LookInv ViewPay PropsSheet RefTrace LookStep FontUse Careful ViewLook
  FontLook CellLook Handles PropsRows PropsLook.
Import ListNotations.
Local Open Scope Z_scope.
Local Notation fld := SpecBiff.fld.

(** The numbers of a kind in use. *)
Definition limit_of (k : kind) (fs : fstate) : Z :=
  match k with AFont => 6 + zlen (fs_fonts fs) | ANumberFormat => 164 + zlen (fs_formats fs) | ACellFormat => 21 + zlen (fs_xfs fs) end.
Lemma limit_grows k a b : grows a b -> limit_of k a <= limit_of k b.
Proof. intros []. destruct k; unfold limit_of, zlen; lia. Qed.
Lemma xformat_limit fs f m fs' h : wb_xformat fs f m = Ok (fs', h) -> h = 21 + zlen (fs_xfs fs) /\ zlen (fs_xfs fs') = zlen (fs_xfs fs) + 1.
Proof.
  intro H. rewrite wb_xformat_eq in H. cbv zeta in H. apply bind_ok in H. destruct H as (fs2 & H2 & H). apply bind_ok in H. destruct H as (fs3 & H3 & H). apply ok_pair in H. destruct H as [-> <-].
  split; [reflexivity|].
  assert (L2 : level (fst (add_xf fs xf_zero)) fs2) by (destruct f; [eapply xf_user_level; exact H2|apply ok_inj in H2; rewrite <- H2; apply level_refl]).
  assert (L3 : level fs2 fs') by (destruct m; [eapply xf_user_level; exact H3|apply ok_inj in H3; rewrite <- H3; apply level_refl]).
  unfold zlen. rewrite (lv_xfs _ _ L3), (lv_xfs _ _ L2). unfold add_xf. cbn [fst set_xfs fs_xfs]. rewrite app_length. cbn [length]. lia.
Qed.
Lemma returns_limit calls q h k w : kind_of q = Some k -> document calls = Ok w -> returns calls q h ->
  h = limit_of k (wb_fs w) /\ (forall w', api_call w q = Ok w' -> h < limit_of k (wb_fs w')).
Proof.
  intros K D (w0 & D0 & R). rewrite D in D0. apply ok_inj in D0. subst w0. destruct q; cbn [kind_of] in K; try discriminate K; apply some_inj in K; subst k.
  - unfold wb_font, add_font in R. cbn [snd] in R. subst h. split; [reflexivity|]. intros w' C. destruct (own_call w (KFont name) w' I C) as [O _]. cbn [own] in O. rewrite O.
    unfold wb_font, add_font, limit_of, zlen. cbn [fst set_fonts fs_fonts]. rewrite app_length. cbn [length]. lia.
  - destruct R as (fs & R). unfold wb_fontnum in R. destruct (nth_error (fs_dfonts (wb_fs w)) (Z.to_nat n)) as [d|] eqn:E; [|discriminate R]. apply ok_inj in R. apply (f_equal snd) in R. unfold add_font in R. cbn [snd] in R. subst h.
    split; [reflexivity|]. intros w' C. destruct (own_call w (KFontNum n) w' I C) as [O _]. cbn [own] in O. destruct O as (i & O). unfold wb_fontnum in O. rewrite E in O.
    apply ok_inj in O. apply (f_equal fst) in O. cbn [fst] in O. rewrite <- O. unfold add_font, limit_of, zlen. cbn [fst set_fonts fs_fonts]. rewrite app_length. cbn [length]. lia.
  - unfold add_format in R. cbn [snd] in R. subst h. split; [reflexivity|]. intros w' C. destruct (own_call w (KFormat t) w' I C) as [O _]. cbn [own] in O. rewrite O.
    unfold add_format, limit_of, zlen. cbn [fst set_formats fs_formats]. rewrite app_length. cbn [length]. lia.
  - destruct R as (fs & R). destruct (xformat_limit _ _ _ _ _ R) as [-> _]. split; [reflexivity|]. intros w' C. destruct (own_call w (KXformat fnt fmt) w' I C) as [O _]. cbn [own] in O.
    destruct O as (i & O). destruct (xformat_limit _ _ _ _ _ O) as [_ E]. unfold limit_of. lia.
Qed.
Lemma run_grows base w0 : document base = Ok w0 -> forall later w, Forall typed (base ++ later) -> document (base ++ later) = Ok w -> grows (wb_fs w0) (wb_fs w).
Proof.
  intros D0. induction later as [|q later IH] using rev_ind; intros w T D.
  - rewrite app_nil_r in D. rewrite D0 in D. apply ok_inj in D. subst w. apply grows_refl.
  - rewrite app_assoc in *. apply Forall_app in T. destruct T as [T Tq]. inversion Tq as [|? ? Tq' _]; subst. destruct (document_snoc _ _ _ D) as (w1 & D1 & Cl).
    eapply grows_trans; [exact (IH w1 T D1)|]. eapply rsteps_grows. exact (call_rsteps _ _ _ (mn_inv _ _ (run_means _ _ T D1)) Tq' Cl).
Qed.
Lemma cut_call (earlier : list call) q later : earlier ++ q :: later = (earlier ++ [q]) ++ later.
Proof. rewrite <- app_assoc. reflexivity. Qed.

(** C25 (numbers): two creations of the same kind never return the same number, and never
    one of the library's own. *)
Theorem C25_numbers_distinct earlier q middle q' h h' : Forall typed (earlier ++ q :: middle) ->
  returns earlier q h -> returns (earlier ++ q :: middle) q' h' -> kind_of q = kind_of q' -> h <> h'.
Proof.
  intros T R R' K. destruct (kind_of q') as [k|] eqn:K'; [|destruct q'; try discriminate K'; destruct R' as (? & _ & [])].
  destruct R as (w0 & D0 & R). destruct R' as (w2 & D2 & R'). pose proof D2 as D. rewrite cut_call in D. destruct (document_prefix _ _ _ D) as (w1 & D1).
  destruct (document_snoc _ _ _ D1) as (w0' & D0' & C). rewrite D0 in D0'. apply ok_inj in D0'. subst w0'.
  destruct (returns_limit earlier q h k w0 K D0 (ex_intro _ w0 (conj D0 R))) as [_ L]. specialize (L w1 C).
  destruct (returns_limit _ q' h' k w2 K' D2 (ex_intro _ w2 (conj D2 R'))) as [E _].
  rewrite cut_call in T. pose proof (limit_grows k _ _ (run_grows _ _ D1 middle w2 T D)). lia.
Qed.
Print Assumptions C25_numbers_distinct.
Theorem C25_numbers_new calls q h : returns calls q h ->
  match kind_of q with Some AFont => 6 <= h | Some ANumberFormat => 164 <= h | _ => 21 <= h end.
Proof.
  intro R. destruct (kind_of q) as [k|] eqn:K; [|destruct q; try discriminate K; destruct R as (? & _ & [])]. destruct R as (w & D & R).
  destruct (returns_limit calls q h k w K D (ex_intro _ w (conj D R))) as [-> _]. pose proof (zlen_nonneg _ (fs_fonts (wb_fs w))). pose proof (zlen_nonneg _ (fs_formats (wb_fs w))). pose proof (zlen_nonneg _ (fs_xfs (wb_fs w))).
  destruct k; unfold limit_of; lia.
Qed.
Print Assumptions C25_numbers_new.

(* ------------------------------------------------------------------ *)
(** * Fonts *)

Lemma stock_since h later f : Forall args later -> h < 6 -> font_since h later f = f.
Proof.
  intros A L. unfold font_since. revert f. induction A as [|q t Aq A IH]; intro f; [reflexivity|]. cbn [fold_left]. destruct q; try apply IH.
  cbn [args] in Aq. replace (i =? h) with false by lia. apply IH.
Qed.
Lemma stock_at fs n d : nth_error (fs_dfonts fs) (Z.to_nat n) = Some d -> length (fs_dfonts fs) = 5%nat ->
  font_at fs (if Nat.eqb (Z.to_nat n) 4 then 5 else Z.of_nat (Z.to_nat n)) = Some d.
Proof.
  intros E L. assert (B : (Z.to_nat n < 5)%nat) by (rewrite <- L; apply nth_error_Some; congruence). revert E B. generalize (Z.to_nat n). clear n. intros n E B. rewrite <- E.
  destruct n as [|[|[|[|[|n]]]]]; try lia; reflexivity.
Qed.
Lemma stock_init fs n : fstate_init = Ok fs -> (Z.to_nat n < 5)%nat ->
  exists d, fval fs (if Nat.eqb (Z.to_nat n) 4 then 5 else Z.of_nat (Z.to_nat n)) = Some d /\ read_font (font_bytes d) = Some (stock_font n).
Proof.
  intros H B. assert (K : match fstate_init with Ok f => forallb (fun m => match fval f (if Nat.eqb m 4 then 5 else Z.of_nat m) with Some d => match read_font (font_bytes d) with
     | Some (mkRFont a1 a2 a3 a4 a5 a6 a7 a8 a9) => let 'mkRFont b1 b2 b3 b4 b5 b6 b7 b8 b9 := stock_font (Z.of_nat m) in
        (a1 =? b1) && (a2 =? b2) && (a3 =? b3) && (a4 =? b4) && (a5 =? b5) && (a6 =? b6) && (a7 =? b7) && (a8 =? b8) && leqb a9 b9 | None => false end | None => false end)%bool (seq 0 5) | _ => false end = true) by (vm_compute; reflexivity).
  rewrite H in K. rewrite forallb_forall in K. specialize (K (Z.to_nat n) ltac:(apply in_seq; lia)). cbv beta in K.
  assert (Es : stock_font (Z.of_nat (Z.to_nat n)) = stock_font n) by (unfold stock_font; rewrite Nat2Z.id; reflexivity). rewrite Es in K.
  destruct (fval fs _) as [d|]; [|discriminate K]. exists d. split; [reflexivity|]. destruct (read_font (font_bytes d)) as [[a1 a2 a3 a4 a5 a6 a7 a8 a9]|]; [|discriminate K].
  destruct (stock_font n) as [b1 b2 b3 b4 b5 b6 b7 b8 b9]. repeat (apply andb_prop in K; let X := fresh in destruct K as [K X]). f_equal.
  repeat match goal with X : (_ =? _) = true |- _ => apply Z.eqb_eq in X; subst | X : leqb _ _ = true |- _ => apply leqb_eq in X; subst end. reflexivity.
Qed.
Lemma made_font earlier q w0 w1 h f : Forall typed earlier -> Forall args earlier -> careful earlier -> args q -> document earlier = Ok w0 -> api_call w0 q = Ok w1 ->
  returns earlier q h -> font_made q = Some f -> exists d, fval (wb_fs w1) h = Some d /\ read_font (font_bytes d) = Some f.
Proof.
  intros T A Ca Aq D C R M. destruct R as (w & Dw & R). rewrite D in Dw. apply ok_inj in Dw. subst w. destruct q; cbn [font_made] in M; try discriminate M; apply some_inj in M; subst f.
  - destruct (own_call w0 (KFont name) w1 I C) as [O _]. cbn [own] in O. unfold wb_font in *. exists (mkFont name 200 0 32767 400 0 0 0 1). unfold fval. rewrite O, font_at_add.
    unfold add_font in R. cbn [snd] in R. subst h. rewrite Z.eqb_refl. split; [reflexivity|]. rewrite read_font_bytes. cbn [fo_name fo_height fo_attr fo_color fo_bold fo_script fo_under fo_family fo_charset].
    destruct Aq as [A1 A2]. rewrite (whole_read _ A1 A2). reflexivity.
  - destruct R as (fs & R). destruct (own_call w0 (KFontNum n) w1 I C) as [(i & O) _]. unfold wb_fontnum in *. destruct (nth_error (fs_dfonts (wb_fs w0)) (Z.to_nat n)) as [d|] eqn:E; [|discriminate R].
    apply ok_inj in R. apply (f_equal snd) in R. unfold add_font in R. cbn [snd] in R. apply ok_inj in O. apply (f_equal fst) in O. cbn [fst] in O.
    exists (fo_val d). unfold fval. rewrite <- O, font_at_add, <- R, Z.eqb_refl. split; [reflexivity|].
    pose proof (wi_dfonts _ (w2_inv _ (mn_inv _ _ (run_means _ _ T D)))) as L5. pose proof (stock_at _ _ _ E L5) as Ea.
    assert (B : (Z.to_nat n < 5)%nat) by (rewrite <- L5; apply nth_error_Some; congruence).
    destruct (document_prefix [] earlier w0 D) as (wn & Dn). destruct (stock_init (wb_fs wn) n (wb_new_fs _ (document_nil _ Dn)) B) as (d0 & E0 & F0).
    destruct (font_history [] wn _ d0 _ Dn E0 F0 earlier w0 T A Ca D) as (d' & E' & F'). unfold fval in E'. rewrite Ea in E'. cbn [option_map] in E'. apply some_inj in E'. subst d'.
    rewrite F'. f_equal. apply stock_since; [exact A|]. destruct (Nat.eqb (Z.to_nat n) 4) eqn:E4; lia.
Qed.

(** C25 (fonts): the FONT record of the number returned describes the font as made, with
    the changes made to it since. *)
Theorem C25_font_record_partial R moves earlier q later s g h f :
  saved_ok R moves (earlier ++ q :: later) s -> globals_of s = Some g ->
  Forall args (earlier ++ q :: later) -> careful (earlier ++ q :: later) ->
  returns earlier q h -> font_made q = Some f ->
  font_record g h = Some (font_since h later f).
Proof.
  intros S G A Ca Rt M. destruct (saved_view _ _ _ _ S) as [w V]. pose proof (view_gof _ _ _ _ V) as G'. rewrite G in G'. apply some_inj in G'. subst g. rewrite (view_font _ _ _ _ V).
  pose proof (vw_typed _ _ _ _ V) as T. pose proof (vw_doc _ _ _ _ V) as D. rewrite cut_call in *. destruct (document_prefix _ _ _ D) as (w1 & D1). destruct (document_snoc _ _ _ D1) as (w0 & D0 & C).
  pose proof T as T'. apply Forall_app in T'. destruct T' as [T' _]. apply Forall_app in T'. destruct T' as [T0 _].
  pose proof A as A'. apply Forall_app in A'. destruct A' as [A' _]. apply Forall_app in A'. destruct A' as [A0 Aq]. inversion Aq as [|? ? Aq' _]; subst.
  assert (Ca0 : careful earlier) by (intros a x b ->; apply (Ca a x ((b ++ [q]) ++ later)); rewrite <- !app_assoc; cbn [app]; rewrite <- ?app_assoc; reflexivity).
  destruct (made_font _ _ _ _ _ _ T0 A0 Ca0 Aq' D0 C Rt M) as (d & E & F). destruct (font_history _ _ _ _ _ D1 E F later w T A Ca D) as (d' & E' & F').
  unfold font_rec. rewrite E'. exact F'.
Qed.
Print Assumptions C25_font_record_partial.

(* ------------------------------------------------------------------ *)
(** * Number formats *)

Lemma formats_typed calls : forall w, Forall typed calls -> Forall args calls -> document calls = Ok w -> Forall (Forall u16) (fstrs (wb_fs w)).
Proof.
  intros w T A D. destruct (document_prefix [] calls w D) as (wn & Dn). rewrite (fmt_history [] wn Dn calls w T D). apply Forall_app. split.
  - pose proof (wb_new_fs _ (document_nil _ Dn)) as E. assert (K : match fstate_init with Ok f => match fs_formats f with [] => true | _ => false end | _ => false end = true) by (vm_compute; reflexivity).
    rewrite E in K. unfold fstrs. destruct (fs_formats (wb_fs wn)); [constructor|discriminate K].
  - clear D T. induction A as [|q t Aq A IH]; cbn [flat_map]; [constructor|]. apply Forall_app. split; [|exact IH]. destruct q; try constructor; [|constructor]. apply to16_typed. exact Aq.
Qed.
Lemma read_format_bytes i s : 0 <= i < 65536 -> Forall u16 s -> zlen s <= 65535 -> read_format (format_bytes (mkFormat i s)) = Some (i, s).
Proof.
  intros B F L. unfold format_bytes, pl. cbn [appended op_bytes fm_index fm_str]. rewrite app_nil_r. unfold read_format.
  assert (E1 : fld 2 (le16 i ++ ustr_bytes s LEN2) 0 = Some (i mod 65536)) by (apply (fld16 [] i); reflexivity). rewrite E1, Z.mod_small by exact B.
  change (skipn 2 (le16 i ++ ustr_bytes s LEN2)) with (ustr_bytes s LEN2). unfold whole_string. rewrite ustr_spec by exact F.
  pose proof (read_spec_string s LEN2 2 [] F) as H. rewrite app_nil_r in H. rewrite H by (right; repeat split; lia). reflexivity.
Qed.
Lemma read_formats l : forall n, 0 <= n -> n + zlen l <= 65536 -> Forall (fun f => Forall u16 (fmo_str f) /\ zlen (fmo_str f) <= 65535) l ->
  exists r, traverse read_format (map format_bytes (indexed_formats l n)) = Some r
    /\ (forall i, i < n -> find (fun x => fst x =? i) r = None)
    /\ forall k f, nth_error l k = Some f -> find (fun x => fst x =? n + Z.of_nat k) r = Some (n + Z.of_nat k, fmo_str f).
Proof.
  induction l as [|y t IH]; intros n B L F.
  - exists []. split; [reflexivity|]. split; [reflexivity|]. intros [|k] f E; discriminate E.
  - inversion F as [|? ? [Fy Ly] Ft]; subst. unfold zlen in L. cbn [length] in L. destruct (IH (n + 1)) as (r & E & N & K); [lia|unfold zlen; lia|exact Ft|].
    cbn [indexed_formats map traverse]. rewrite E. change (mkFormat n (fmo_str y)) with (mkFormat n (fmo_str y)). rewrite read_format_bytes by (auto; lia).
    exists ((n, fmo_str y) :: r). split; [reflexivity|]. split.
    + intros i Li. cbn [find fst]. replace (n =? i) with false by lia. apply N. lia.
    + intros [|k] f Ef; cbn [nth_error] in Ef.
      * apply some_inj in Ef. subst f. cbn [find fst]. replace (n =? n + Z.of_nat 0) with true by lia. f_equal. f_equal. lia.
      * cbn [find fst]. replace (n =? n + Z.of_nat (S k)) with false by lia. replace (n + Z.of_nat (S k)) with (n + 1 + Z.of_nat k) by lia. apply K. exact Ef.
Qed.
(** C25 (number formats): the FORMAT record of the number returned holds the text given. *)
Theorem C25_number_format R moves earlier t u later s g h :
  saved_ok R moves (earlier ++ KFormat t :: later) s -> globals_of s = Some g -> few_records s ->
  Forall args (earlier ++ KFormat t :: later) -> returns earlier (KFormat t) h -> units t = Some u ->
  number_format g h = Some (Custom u).
Proof.
  intros S G Fw A Rt U. destruct (saved_view _ _ _ _ S) as [w V]. pose proof (view_gof _ _ _ _ V) as G'. rewrite G in G'. apply some_inj in G'. subst g.
  destruct (view_few _ _ _ _ V Fw) as [F _]. pose proof (vw_typed _ _ _ _ V) as T. pose proof (vw_doc _ _ _ _ V) as D. pose proof (formats_typed _ _ T A D) as Ft.
  pose proof (li_formats _ _ (vw_limits _ _ _ _ V)) as Lm.
  assert (Tt : text_typed t) by (rewrite Forall_forall in A; apply (A (KFormat t)); apply in_elt). destruct Rt as (w0 & D0 & Rt).
  unfold number_format. destruct (view_pays _ _ _ _ V) as (_ & -> & _).
  pose proof (fmt_history earlier w0 D0 (KFormat t :: later) w T D) as E. cbn [flat_map app] in E. unfold add_format in Rt. cbn [snd] in Rt.
  assert (B : exists f, nth_error (fs_formats (wb_fs w)) (length (fs_formats (wb_fs w0))) = Some f /\ fmo_str f = u).
  { apply (f_equal (fun l => nth_error l (length (fs_formats (wb_fs w0))))) in E. unfold fstrs in E. rewrite nth_error_map in E. rewrite nth_error_app2 in E by (rewrite map_length; lia).
    rewrite map_length, Nat.sub_diag in E. cbn [nth_error] in E. destruct (nth_error (fs_formats (wb_fs w)) _) as [f|]; [|discriminate E]. exists f. split; [reflexivity|]. cbn [option_map] in E. apply some_inj in E.
    rewrite E. apply to16_units; assumption. }
  destruct B as (f & B1 & B2). destruct (read_formats (fs_formats (wb_fs w)) 164) as (r & Er & _ & K); [lia|destruct F as (_ & F & _); lia| |].
  { apply Forall_forall. intros x J. split; [rewrite Forall_forall in Ft; apply Ft; unfold fstrs; apply in_map; exact J|]. rewrite Forall_forall in Lm. specialize (Lm x J). cbv beta in Lm. lia. }
  rewrite Er. specialize (K _ _ B1). replace h with (164 + Z.of_nat (length (fs_formats (wb_fs w0)))) by (subst h; reflexivity). rewrite K. cbn [snd]. rewrite B2. reflexivity.
Qed.
Print Assumptions C25_number_format.

(* ------------------------------------------------------------------ *)
(** * Cell formats *)

Lemma attrs_zero : attrs_of xf_zero = default_attrs.
Proof. destruct rel_zero as (_ & _ & _ & _ & E). exact E. Qed.
Lemma made_xf fs f m fs' h : few fs' -> wb_xformat fs f m = Ok (fs', h) -> exists x, xf_at fs' h = Some x /\ attrs_of x = attrs_made f m.
Proof.
  intros F H. pose proof (wb_xformat_eq fs f m) as Eq. rewrite H in Eq. symmetry in Eq. clear H. cbv zeta in Eq. apply bind_ok in Eq. destruct Eq as (fs2 & H2 & Eq). apply bind_ok in Eq. destruct Eq as (fs3 & H3 & Eq). apply ok_pair in Eq. destruct Eq as [-> <-].
  assert (L2 : level (fst (add_xf fs xf_zero)) fs2) by (destruct f; [eapply xf_user_level; exact H2|apply ok_inj in H2; rewrite <- H2; apply level_refl]).
  assert (L3 : level fs2 fs') by (destruct m; [eapply xf_user_level; exact H3|apply ok_inj in H3; rewrite <- H3; apply level_refl]).
  assert (F2 : few fs2) by (eapply few_back; [apply level_grows; exact L3|exact F]).
  assert (F1 : few (fst (add_xf fs xf_zero))) by (eapply few_back; [apply level_grows; exact L2|exact F2]).
  set (p := 21 + zlen (fs_xfs fs)) in *.
  assert (E1 : xf_at (fst (add_xf fs xf_zero)) p = Some xf_zero) by (rewrite xf_at_add; unfold p; rewrite Z.eqb_refl; reflexivity).
  clearbody p. set (fs1 := fst (add_xf fs xf_zero)) in *. clearbody fs1.
  assert (S2 : exists x, xf_at fs2 p = Some x /\ tidy x /\ attrs_of x = match f with Some y => spec_set (FFont y) default_attrs | None => default_attrs end).
  { destruct f as [y|]; [|apply ok_inj in H2; subst fs2; exists xf_zero; split; [exact E1|]; split; [exact tidy_zero|exact attrs_zero]].
    destruct (xf_user_own _ _ _ _ _ H2 E1) as (z & fs4 & A & Ez). destruct (fmt_apply_tidy fs1 xf_zero (FFont y) fs4 z F1 tidy_zero I A) as [Tz Az]. exists z. rewrite Az, attrs_zero. auto. }
  destruct S2 as (x & Ex & Tx & Ax). unfold attrs_made. cbv zeta. rewrite <- Ax. destruct m as [y|]; [|apply ok_inj in H3; subst fs'; eauto].
  destruct (xf_user_own _ _ _ _ _ H3 Ex) as (z & fs4 & A & Ez). destruct (fmt_apply_tidy fs2 x (FFormat y) fs4 z F2 Tx I A) as [Tz Az]. exists z. auto.
Qed.
(** C25 (cell formats): the XF record of the number returned describes the format as made,
    with the changes made to it since. *)
Theorem C25_cell_format R moves earlier f m later s g h :
  saved_ok R moves (earlier ++ KXformat f m :: later) s -> globals_of s = Some g -> few_records s ->
  Forall args (earlier ++ KXformat f m :: later) -> returns earlier (KXformat f m) h ->
  exists p, nth_error (payloads T_XF g) (Z.to_nat h) = Some p /\ read_xf p = Some (attrs_since h later (attrs_made f m)).
Proof.
  intros S G Fw A Rt. pose proof (C25_numbers_new _ _ _ Rt) as Lh. cbn [kind_of] in Lh. destruct (saved_view _ _ _ _ S) as [w V]. pose proof (view_gof _ _ _ _ V) as G'. rewrite G in G'. apply some_inj in G'. subst g.
  destruct (view_few _ _ _ _ V Fw) as [F _]. pose proof (vw_typed _ _ _ _ V) as T. pose proof (vw_doc _ _ _ _ V) as D.
  rewrite cut_call in *. destruct (document_prefix _ _ _ D) as (w1 & D1). destruct (document_snoc _ _ _ D1) as (w0 & D0 & C).
  destruct Rt as (w0' & D0' & (fs & Rt)). rewrite D0 in D0'. apply ok_inj in D0'. subst w0'.
  destruct (own_call w0 (KXformat f m) w1 I C) as [(i & O) _]. rewrite Rt in O. apply ok_inj in O. apply pair_equal_spec in O. destruct O as [-> <-].
  pose proof (few_back _ _ (run_grows _ _ D1 later w T D) F) as F1. destruct (made_xf _ _ _ _ _ F1 Rt) as (x0 & E0 & A0).
  destruct (xf_history _ _ _ _ D1 E0 Lh later w T A D F) as (x & Ex & Ax). rewrite A0 in Ax.
  assert (Ag : Forall args (earlier ++ [KXformat f m] ++ later)) by (rewrite app_assoc; exact A).
  destruct (doc_tidy _ _ T A D F) as [_ Td]. pose proof (xf_rec_tidy _ _ _ Ex (Td _ _ (or_intror Lh) Ex)) as X. rewrite <- (view_xf _ _ _ _ V) in X. replace (h <? 0) with false in X by lia.
  destruct (nth_error (payloads T_XF (globals_body (dg w) (dstarts w))) (Z.to_nat h)) as [p|]; [|discriminate X]. exists p. split; [reflexivity|]. rewrite X, Ax. reflexivity.
Qed.
Print Assumptions C25_cell_format.

(* ------------------------------------------------------------------ *)
(** * Cases *)

Definition objects_a : list call := [KSheet (TChar [65])].
Definition objects_b : list call := [KFontNum 1; KFontSet 6 (NItalic true); KFontSet 7 (NItalic true)].
Definition objects_c : list call := [KXformat (Some (Some 6)) (Some (Some 164)); KXfSet 21 (FXf (XWrap true)); KCell 0 0 0 (UInt 7) (Some 21); KCellOp 0 0 0 (CFont (NBold 0))].
Definition objects : list call := objects_a ++ KFont [70] :: objects_b ++ KFormat (TChar [48; 46; 48]) :: objects_c.
Lemma objects_typed : Forall typed objects.
Proof. unfold objects, objects_a, objects_b, objects_c. cbn [app]. small_typed. Qed.
Lemma objects_fits : fits 40 objects.
Proof. unfold objects, objects_a, objects_b, objects_c. cbn [app]. small_fits. apply (heightless objects). reflexivity. Qed.
Lemma code_typed : text_typed (TChar [48; 46; 48]).
Proof. repeat constructor; unfold u8; lia. Qed.
Lemma objects_args : Forall args objects.
Proof. unfold objects, objects_a, objects_b, objects_c. cbn [app]. repeat (apply Forall_cons; [cbn [args op_args]; first [exact I|exact name70|exact code_typed|lia|split; [lia|exact I]]|]). apply Forall_nil. Qed.
Lemma objects_careful : careful objects.
Proof.
  unfold objects, objects_a, objects_b, objects_c. cbn [app].
  change (careful (((((((((([] ++ [KSheet (TChar [65])]) ++ [KFont [70]]) ++ [KFontNum 1]) ++ [KFontSet 6 (NItalic true)]) ++ [KFontSet 7 (NItalic true)]) ++ [KFormat (TChar [48; 46; 48])])
    ++ [KXformat (Some (Some 6)) (Some (Some 164))]) ++ [KXfSet 21 (FXf (XWrap true))]) ++ [KCell 0 0 0 (UInt 7) (Some 21)]) ++ [KCellOp 0 0 0 (CFont (NBold 0))])).
  repeat apply careful_snoc; try exact I.
  - intros a x b E. destruct a; discriminate E.
  - cbn [careful_call app]. left. split.
    + exists (Some (Some 6)), [KXfSet 21 (FXf (XWrap true))].
      apply (made_now [KSheet (TChar [65]); KFont [70]; KFontNum 1; KFontSet 6 (NItalic true); KFontSet 7 (NItalic true); KFormat (TChar [48; 46; 48])] (Some (Some 6)) (Some (Some 164)) _ 21). vm_compute. reflexivity.
    + repeat constructor; intros [].
Qed.
Definition document_now (calls : list call) (f : wb -> bool) : bool := match document calls with Ok w => f w | _ => false end.
Lemma document_now_spec calls f : document_now calls f = true -> exists w, document calls = Ok w /\ f w = true.
Proof. unfold document_now. destruct (document calls) as [w| |]; try discriminate. eauto. Qed.

(** Two fonts, a number format and a cell format; the saved document meets the hypotheses
    of all the theorems. *)
Example C25_case : exists s g, saved_ok 40 (fun _ _ => false) objects s /\ globals_of s = Some g /\ few_records s /\ Forall args objects /\ careful objects
  /\ returns objects_a (KFont [70]) 6 /\ returns (objects_a ++ KFont [70] :: []) (KFontNum 1) 7
  /\ returns (objects_a ++ KFont [70] :: objects_b) (KFormat (TChar [48; 46; 48])) 164
  /\ returns (objects_a ++ KFont [70] :: objects_b ++ [KFormat (TChar [48; 46; 48])]) (KXformat (Some (Some 6)) (Some (Some 164))) 21
  /\ font_record g 6 = Some (mkRFont 200 2 32767 400 0 0 0 1 [70]) /\ number_format g 164 = Some (Custom [48; 46; 48]).
Proof.
  assert (E : match stream_of 400 objects with Some s => few_now s | None => false end = true) by (vm_compute; reflexivity).
  destruct (stream_of 400 objects) as [s|] eqn:Es; [|discriminate E].
  assert (S : saved_ok 40 (fun _ _ => false) objects s) by (apply (small_saved 400); [exact objects_typed|exact objects_fits|exact Es]).
  assert (G : exists g, globals_of s = Some g) by (unfold few_now in E; destruct (globals_of s) as [g|]; [eauto|discriminate E]). destruct G as [g G]. apply few_now_spec in E.
  assert (R1 : returns objects_a (KFont [70]) 6).
  { destruct (document_now_spec objects_a (fun w => snd (wb_font (wb_fs w) [70]) =? 6)) as (w & D & H); [vm_compute; reflexivity|]. exists w. split; [exact D|]. apply Z.eqb_eq. exact H. }
  assert (R2 : returns (objects_a ++ KFont [70] :: []) (KFontNum 1) 7).
  { destruct (document_now_spec (objects_a ++ KFont [70] :: []) (fun w => match wb_fontnum (wb_fs w) 1 with Ok (_, h) => h =? 7 | _ => false end)) as (w & D & H); [vm_compute; reflexivity|]. exists w. split; [exact D|].
    destruct (wb_fontnum (wb_fs w) 1) as [[fs h]| |] eqn:N; try discriminate H. apply Z.eqb_eq in H. subst h. exists fs. first [exact N|reflexivity]. }
  assert (R3 : returns (objects_a ++ KFont [70] :: objects_b) (KFormat (TChar [48; 46; 48])) 164).
  { destruct (document_now_spec (objects_a ++ KFont [70] :: objects_b) (fun w => snd (add_format (wb_fs w) (to16 (TChar [48; 46; 48]))) =? 164)) as (w & D & H); [vm_compute; reflexivity|]. exists w. split; [exact D|]. apply Z.eqb_eq. exact H. }
  assert (R4 : returns (objects_a ++ KFont [70] :: objects_b ++ [KFormat (TChar [48; 46; 48])]) (KXformat (Some (Some 6)) (Some (Some 164))) 21).
  { destruct (document_now_spec (objects_a ++ KFont [70] :: objects_b ++ [KFormat (TChar [48; 46; 48])]) (fun w => match wb_xformat (wb_fs w) (Some (Some 6)) (Some (Some 164)) with Ok (_, h) => h =? 21 | _ => false end)) as (w & D & H); [vm_compute; reflexivity|].
    exists w. split; [exact D|]. destruct (wb_xformat _ _ _) as [[fs h]| |] eqn:N; try discriminate H. apply Z.eqb_eq in H. subst h. exists fs. first [exact N|reflexivity]. }
  exists s, g. repeat (split; [first [assumption|exact objects_args|exact objects_careful]|]). split.
  - exact (C25_font_record_partial _ _ objects_a (KFont [70]) _ s g 6 _ S G objects_args objects_careful R1 eq_refl).
  - refine (C25_number_format _ _ (objects_a ++ KFont [70] :: objects_b) (TChar [48; 46; 48]) _ objects_c s g 164 _ G E _ R3 eq_refl); rewrite <- app_assoc; [exact S|exact objects_args].
Qed.

(** C25 fails for fonts in careless histories: nobody changes font 6, but making cell 2
    italic rewrites its record. *)
Theorem C25_font_record_refuted : exists R moves earlier q later s g h f,
  saved_ok R moves (earlier ++ q :: later) s /\ globals_of s = Some g /\ Forall args (earlier ++ q :: later)
  /\ returns earlier q h /\ font_made q = Some f /\ Forall (fun x => forall o, x <> KFontSet h o) later /\ font_record g h <> Some f.
Proof.
  set (calls := careless ++ [KCellOp 0 0 2 (CFont (NItalic true))]).
  assert (E : match stream_of 400 calls with Some s => match globals_of s with Some g => match font_record g 6 with Some f => rf_attr f =? 2 | None => false end | None => false end | None => false end = true) by (vm_compute; reflexivity).
  destruct (stream_of 400 calls) as [s|] eqn:Es; [|discriminate E]. destruct (globals_of s) as [g|] eqn:G; [|discriminate E]. destruct (font_record g 6) as [f|] eqn:F; [|discriminate E].
  exists 40, (fun _ _ => false), [KSheet (TChar [65])], (KFont [70]), (skipn 2 calls), s, g, 6, (new_font [70]).
  split; [apply (small_saved 400); [apply careless_typed; exact I|exact careless_fits_op|exact Es]|]. split; [exact G|]. split; [cbn [skipn calls careless app]; small_args|].
  split. { destruct (document_now_spec [KSheet (TChar [65])] (fun w => snd (wb_font (wb_fs w) [70]) =? 6)) as (w & D & H); [vm_compute; reflexivity|]. exists w. split; [exact D|]. apply Z.eqb_eq. exact H. }
  split; [reflexivity|]. split; [cbn [skipn calls careless app]; repeat (apply Forall_cons; [intros o X; discriminate X|]); apply Forall_nil|].
  intro X. rewrite F in X. apply some_inj in X. subst f. discriminate E.
Qed.
Print Assumptions C25_font_record_refuted.
