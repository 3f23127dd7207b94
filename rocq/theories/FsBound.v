(** The names of fonts and the strings of formats in the tables come from the calls. *)
From Coq Require Import ZArith List Bool Lia ZifyBool ZifyNat.
From Verif Require Import Bytes UnitModel RecModel SheetModel XfModel WbModel XfInv ApiModel ApiInv SpecApi ApiEff SpecSaved.
Import ListNotations.
Local Open Scope Z_scope.

Lemma in_upd {A} (x : A) : forall l k y, In y (upd k x l) -> y = x \/ In y l.
Proof.
  induction l as [|z l IH]; intros [|k] y H; cbn in *; auto.
  - destruct H; auto.
  - destruct H as [->|H]; auto. destruct (IH _ _ H); auto.
Qed.

Section Names.
Variables P Q : list Z -> Prop.
Definition nm (f : fontobj) : Prop := P (fo_name (fo_val f)).
Definition fm (f : fmtobj) : Prop := Q (fmo_str f).
Record named (fs : fstate) : Prop := {
  na_d : Forall nm (fs_dfonts fs); na_f : Forall nm (fs_fonts fs); na_m : Forall fm (fs_formats fs) }.

Lemma forall_upd {A} (R : A -> Prop) x l k : R x -> Forall R l -> Forall R (upd k x l).
Proof. intros Hx Hl. rewrite Forall_forall in *. intros y H. destruct (in_upd x l k y H) as [->|]; auto. Qed.
Lemma font_at_named fs i o : named fs -> font_at fs i = Some o -> nm o.
Proof.
  intros [D F M] H. rewrite Forall_forall in *. unfold font_at in H. repeat (destruct (_ : bool) in H; [try discriminate|]).
  all: apply nth_error_In in H; auto.
Qed.
Lemma font_upd_named fs i f : named fs -> (forall o, nm o -> nm (f o)) -> named (font_upd fs i f).
Proof.
  intros N K. unfold font_upd. destruct (font_at fs i) as [o|] eqn:E; [|exact N]. pose proof (font_at_named fs i o N E) as O.
  destruct N. destruct (i <? 6); constructor; cbn [fs_dfonts fs_fonts fs_formats set_fonts]; auto; apply forall_upd; auto.
Qed.
Lemma xf_upd_named fs i f : named fs -> named (xf_upd fs i f).
Proof. intros []. unfold xf_upd. destruct (xf_at fs i); [|constructor; auto]. destruct (i <? 21); constructor; auto. Qed.
Lemma fmt_upd_named fs i f : named fs -> named (fmt_upd fs i f).
Proof.
  intros []. unfold fmt_upd. destruct (nth_error _ _) as [o|] eqn:E; [|constructor; auto].
  constructor; cbn [fs_dfonts fs_fonts fs_formats set_formats]; auto. apply forall_upd; auto.
  rewrite Forall_forall in na_m0. apply nth_error_In in E. exact (na_m0 o E).
Qed.
Lemma font_mark_named fs p : named fs -> named (font_mark fs p).
Proof. destruct p; cbn [font_mark]; auto. intro. apply font_upd_named; auto. Qed.
Lemma font_unmark_named fs p : named fs -> named (font_unmark fs p).
Proof. destruct p; cbn [font_unmark]; auto. intro. apply font_upd_named; auto. Qed.
Lemma fmt_mark_named fs p : named fs -> named (fmt_mark fs p).
Proof. destruct p; cbn [fmt_mark]; auto. apply fmt_upd_named. Qed.
Lemma fmt_unmark_named fs p : named fs -> named (fmt_unmark fs p).
Proof. destruct p; cbn [fmt_unmark]; auto. apply fmt_upd_named. Qed.
Lemma xf_mark_named fs i : named fs -> named (xf_mark fs i).
Proof. apply xf_upd_named. Qed.
Lemma xf_unmark_named fs i : named fs -> named (xf_unmark fs i).
Proof.
  intro N. unfold xf_unmark. destruct (xf_at fs i); [|exact N]. cbv zeta.
  destruct (_ =? 0); [apply fmt_unmark_named, font_unmark_named|]; apply xf_upd_named; exact N.
Qed.
Lemma xf_set_font_named fs x p : named fs -> named (fst (xf_set_font fs x p)).
Proof. intro. cbn [xf_set_font fst]. apply font_mark_named, font_unmark_named. assumption. Qed.
Lemma xf_set_format_named fs x f : named fs -> named (fst (xf_set_format fs x f)).
Proof. intro. unfold xf_set_format. cbn [fst]. apply fmt_mark_named, fmt_unmark_named. assumption. Qed.
Lemma xf_dup_named fs x : named fs -> named (fst (xf_dup fs x)).
Proof.
  intro N. unfold xf_dup. cbv zeta. match goal with |- context [xf_set_font fs ?y ?p] => pose proof (xf_set_font_named fs y p N) as L;
    destruct (xf_set_font fs y p) as [fs1 x1]; cbn [fst] in L end.
  destruct (x_format x); [|exact L]. apply xf_set_format_named. exact L.
Qed.
Lemma fmt_apply_named fs x o fs' y : named fs -> fmt_apply fs x o = Ok (fs', y) -> named fs'.
Proof.
  intro N. destruct o as [o|f|[f|]]; cbn [fmt_apply]; intro H.
  - apply bind_ok in H. destruct H as (z & _ & H). apply ok_inj in H. apply pair_equal_spec in H. destruct H as [<- _]. exact N.
  - destruct (font_handle fs f); [|discriminate H]. apply ok_inj in H. apply (f_equal fst) in H. cbn [fst] in H. rewrite <- H. apply (xf_set_font_named fs x f N).
  - destruct (format_handle fs f); [|discriminate H]. apply ok_inj in H. apply (f_equal fst) in H. cbn [fst] in H. rewrite <- H. apply (xf_set_format_named fs x f N).
  - apply ok_inj in H. apply pair_equal_spec in H. destruct H as [<- _]. exact N.
Qed.
Definition fop_ok (o : fontop) : Prop := match o with NName s => P s | _ => True end.
Lemma font_set_named fs i o fs' : named fs -> fop_ok o -> font_set fs i o = Ok fs' -> named fs'.
Proof.
  intros N O. unfold font_set. destruct (font_at fs i) as [f|] eqn:E; [|discriminate]. pose proof (font_at_named fs i f N E) as Nf.
  intro H. apply bind_ok in H. destruct H as (v & H & K). apply ok_inj in K. rewrite <- K. apply font_upd_named; [exact N|].
  intros _ _. unfold nm in *. cbn [fo_val]. unfold font_apply in H. cbv zeta in H. destruct o; cbn [fop_ok] in O;
    try (apply bind_ok in H; destruct H as (t & _ & H)); apply ok_inj in H; rewrite <- H; assumption.
Qed.
Lemma xf_user_named fs p o fs' : named fs -> xf_user fs p o = Ok fs' -> named fs'.
Proof.
  intro N. unfold xf_user. destruct (xf_at fs p); [|discriminate]. intro H. apply bind_ok in H. destruct H as ([g y] & H & K).
  apply ok_inj in K. rewrite <- K. apply xf_upd_named. eapply fmt_apply_named; eauto.
Qed.
Lemma add_font_named fs f : named fs -> P (fo_name f) -> named (fst (add_font fs f)).
Proof. intros [] F. constructor; cbn [add_font fst set_fonts fs_dfonts fs_fonts fs_formats]; auto. apply Forall_app. split; auto. Qed.
Lemma add_format_named fs s : named fs -> Q s -> named (fst (add_format fs s)).
Proof. intros [] F. constructor; cbn [add_format fst set_formats fs_dfonts fs_fonts fs_formats]; auto. apply Forall_app. split; auto. Qed.
Lemma set_xfs_named fs d l : named fs -> named (set_xfs fs d l).
Proof. intros []. constructor; auto. Qed.
Lemma find_xf_named fs p fs' q : named fs -> find_xf fs p = Ok (fs', q) -> named fs'.
Proof.
  intro N. unfold find_xf. destruct (xf_at fs p); [|discriminate]. destruct (find_pos _ _ _); [destruct (_ =? _)|];
    intro H; apply ok_inj in H; apply pair_equal_spec in H; destruct H as [<- _]; auto. apply set_xfs_named. exact N.
Qed.
Lemma tail_named fs t p r q : named fs ->
  (let (fs3, pt) := add_xf fs t in let fs4 := xf_unmark fs3 p in let* (fs5, q) := find_xf fs4 pt in Ok (xf_mark fs5 q, q)) = Ok (r, q) -> named r.
Proof.
  intro N. change (add_xf fs t) with (fst (add_xf fs t), 21 + zlen (fs_xfs fs)). cbv iota beta zeta. intro H.
  apply bind_ok in H. destruct H as ([g y] & H & K). apply ok_inj in K. apply (f_equal fst) in K. cbn [fst] in K. rewrite <- K.
  apply xf_mark_named. eapply find_xf_named; [|exact H]. apply xf_unmark_named, set_xfs_named. exact N.
Qed.
Lemma cell_format_named fs p o fs' q : named fs -> cell_format fs p o = Ok (fs', q) -> named fs'.
Proof.
  intro N. unfold cell_format. destruct (xf_at fs p) as [x|]; [|discriminate].
  pose proof (xf_dup_named fs x N) as L. destruct (xf_dup fs x) as [g t0]. cbn [fst] in L. intro H. apply bind_ok in H.
  destruct H as ([g2 t] & E & H). apply fmt_apply_named in E; [|exact L]. eapply tail_named; [exact E|exact H].
Qed.
Lemma set_cell_font_named fs p fs' q : named fs -> set_cell_font fs p = Ok (fs', q) -> named fs'.
Proof.
  intro N. unfold set_cell_font. destruct (xf_at fs p) as [x|]; [|discriminate].
  pose proof (xf_dup_named fs x N) as L. destruct (xf_dup fs x) as [g t0]. cbn [fst] in L. intro H. apply bind_ok in H.
  destruct H as ([g2 t] & E & H). eapply tail_named; [|exact H]. clear H. 
  assert (K : forall d i, font_at g i = Some d -> Ok (xf_set_font (fst (add_font g (fo_val d))) t0 (Some (snd (add_font g (fo_val d))))) = Ok (g2, t) -> named g2).
  { intros d i F H. apply ok_inj in H. apply (f_equal fst) in H. cbn [fst] in H. rewrite <- H. apply (xf_set_font_named _ t0).
    apply add_font_named; [exact L|]. exact (font_at_named g i d L F). }
  destruct (x_font t0) as [i|].
  - destruct (font_at g i) as [d|] eqn:F; [|discriminate]. destruct (1 <? fo_use d).
    + eapply K; [exact F|exact E].
    + apply ok_inj in E. apply (f_equal fst) in E. cbn [fst] in E. rewrite <- E. exact L.
  - destruct (font_at g 0) as [d|] eqn:F; [|discriminate]. eapply K; [exact F|exact E].
Qed.
Definition cop_ok (o : cellop) : Prop := match o with CFont o => fop_ok o | _ => True end.
Lemma cellop_named o fs p fs' q : named fs -> cop_ok o -> cellop_apply o fs p = Ok (fs', q) -> named fs'.
Proof.
  intros N O. destruct o as [o|o|[i|]]; cbn [cellop_apply cop_ok] in *; intro H.
  - eapply cell_format_named; eauto.
  - unfold cell_font in H. apply bind_ok in H. destruct H as ([g y] & E & H). apply set_cell_font_named in E; [|exact N].
    destruct (xf_at g y) as [x|]; [|discriminate]. destruct (x_font x) as [i|]; [|discriminate]. apply bind_ok in H. destruct H as (g2 & F & H).
    apply ok_inj in H. apply (f_equal fst) in H. cbn [fst] in H. rewrite <- H. eapply font_set_named; eauto.
  - destruct (xf_valid fs (Some i)); [|discriminate]. apply ok_inj in H. apply (f_equal fst) in H. cbn [fst cell_setxf] in H. rewrite <- H.
    apply xf_unmark_named, xf_mark_named. exact N.
  - destruct (xf_valid fs None); [|discriminate]. apply ok_inj in H. apply (f_equal fst) in H. cbn [fst cell_setxf] in H. rewrite <- H. exact N.
Qed.
Lemma mark_opt_named fs p : named fs -> named (mark_opt fs p).
Proof. destruct p; cbn [mark_opt]; auto. apply xf_mark_named. Qed.
Lemma unmark_opt_named fs p : named fs -> named (unmark_opt fs p).
Proof. destruct p; cbn [unmark_opt]; auto. apply xf_unmark_named. Qed.
Lemma wb_xformat_named fs f m fs' q : named fs -> wb_xformat fs f m = Ok (fs', q) -> named fs'.
Proof.
  intro N. unfold wb_xformat. intro H. apply bind_ok in H. destruct H as (x & _ & H).
  change (add_xf fs x) with (fst (add_xf fs x), 21 + zlen (fs_xfs fs)) in H. cbv iota beta in H.
  apply bind_ok in H. destruct H as (g & E & H). apply bind_ok in H. destruct H as (g2 & F & H).
  apply ok_inj in H. apply (f_equal fst) in H. cbn [fst] in H. rewrite <- H.
  assert (N1 : named (fst (add_xf fs x))) by (apply set_xfs_named; exact N).
  assert (N2 : named g). { destruct f; [eapply xf_user_named; eauto|]. apply ok_inj in E. rewrite <- E. exact N1. }
  destruct m; [eapply xf_user_named; eauto|]. apply ok_inj in F. rewrite <- F. exact N2.
Qed.
Lemma wb_fontnum_named fs n fs' q : named fs -> wb_fontnum fs n = Ok (fs', q) -> named fs'.
Proof.
  intro N. unfold wb_fontnum. destruct (nth_error _ _) as [d|] eqn:E; [|discriminate]. intro H. apply ok_inj in H. apply (f_equal fst) in H. cbn [fst] in H.
  rewrite <- H. apply (add_font_named fs (fo_val d) N). destruct N as [D _ _]. rewrite Forall_forall in D. apply nth_error_In in E. exact (D d E).
Qed.
End Names.
