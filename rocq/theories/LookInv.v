(** Formats of cells stay well-formed through every history of fitting calls. *)
From Coq Require Import ZArith List Bool Lia ZifyBool ZifyNat.
From Verif Require Import Bytes UnitModel RecModel SheetModel XfModel RecProofs RecFrames SpecXf XfProofs SpecXfOps PropsXf XfInv Looks.
Import ListNotations.
Local Open Scope Z_scope.

Definition flagged (x : xf) (f : Z) : Prop := Z.lor (x_flags x) f = x_flags x.
Record tidy (x : xf) : Prop := {
  td_cell : x_cell x = true; td_bs : length (x_bs x) = 5%nat; td_bc : length (x_bc x) = 5%nat;
  td_fits : xf_fits x;
  td_font : x_font x <> None -> flagged x ATRFONT;
  td_fmt : forall f, x_format x = Some f -> x_fmt x = f /\ (f <> 0 -> flagged x ATRNUM) }.
Lemma tidy_core x y : core x = core y -> tidy x -> tidy y.
Proof.
  intros E [A B C D F G]. destruct x, y. injection E. intros. subst. constructor; cbn in *; auto.
Qed.
Lemma tidy_rel x : tidy x -> rel x (attrs_of x).
Proof. intros []. repeat (split; auto). Qed.
Lemma tidy_user x : tidy x -> tidy (mkXf (x_fmt x) (x_font x) (x_format x) (x_ha x) (x_va x) (x_ind x) (x_ori x) (x_fill x) (x_fg x) (x_bg x) (x_locked x) (x_hidden x) (x_wrap x) true true (x_bs x) (x_bc x) (x_flags x) 0).
Proof. intros [A B C D F G]. constructor; cbn in *; auto. Qed.

Lemma flag_if_mk b f fm fo ft ha va ind ori fill fg bg lo hi wr us bs bc fl use :
  flag_if b f (mkXf fm fo ft ha va ind ori fill fg bg lo hi wr true us bs bc fl use) =
  mkXf fm fo ft ha va ind ori fill fg bg lo hi wr true us bs bc (if b then Z.lor fl f else fl) use.
Proof. destruct b; reflexivity. Qed.
(** A copy of a well-formed format has its attributes. *)
Lemma dup_tidy fs x fs1 t : tidy x -> xf_dup fs x = (fs1, t) -> tidy t /\ attrs_of t = attrs_of x.
Proof.
  intros T H. apply dup_core in H.
  set (u := mkXf (x_fmt x) (x_font x) (x_format x) (x_ha x) (x_va x) (x_ind x) (x_ori x) (x_fill x) (x_fg x) (x_bg x) (x_locked x) (x_hidden x) (x_wrap x) true true (x_bs x) (x_bc x) (x_flags x) 0).
  assert (E : core t = core u).
  { rewrite H. clear H. destruct T as [_ _ _ _ TF TN]. unfold u. clear u. unfold flagged in *.
    destruct x as [fm fo ft ha va ind ori fill fg bg lo hi wr ce us bs bc fl use]. cbn in TF, TN. cbn [x_fmt x_font x_format x_ha x_va x_ind x_ori x_fill x_fg x_bg x_locked x_hidden x_wrap x_bs x_bc x_flags].
    assert (TF' : forall b, b = match fo with Some _ => true | None => false end -> (if b then Z.lor fl ATRFONT else fl) = fl).
    { intros b ->. destruct fo; [apply TF; discriminate|reflexivity]. }
    cbv zeta. rewrite (flag_if_mk _ ATRFONT). rewrite (TF' _ eq_refl). clear TF TF'.
    destruct ft as [f|]; [|reflexivity]. destruct (TN f eq_refl) as [-> TN2]. unfold with_font. cbn [x_fmt x_font x_format x_ha x_va x_ind x_ori x_fill x_fg x_bg x_locked x_hidden x_wrap x_cell x_user x_bs x_bc x_flags x_use].
    rewrite (flag_if_mk _ ATRNUM). destruct (f =? 0) eqn:E; cbn [negb]; [reflexivity|]. rewrite TN2 by lia. reflexivity. }
  split.
  - apply (tidy_core u); [congruence|]. apply tidy_user. exact T.
  - assert (Q : attrs_of t = attrs_of (core t)) by reflexivity. rewrite Q, E. reflexivity.
Qed.

Lemma flagged_set x f g : x_cell x = true -> flagged x g -> flagged (set_flag f x) g.
Proof.
  unfold flagged, set_flag. intros -> H. cbn [x_flags]. rewrite <- Z.lor_assoc, (Z.lor_comm f g), Z.lor_assoc, H. reflexivity.
Qed.
Lemma flagged_if b x f g : x_cell x = true -> flagged x g -> flagged (flag_if b f x) g.
Proof. destruct b; [apply flagged_set|auto]. Qed.
Lemma flagged_own x f : x_cell x = true -> flagged (set_flag f x) f.
Proof. unfold flagged, set_flag. intros ->. cbn [x_flags]. rewrite <- Z.lor_assoc, Z.lor_diag. reflexivity. Qed.

(** What a setter leaves in the two pointers, and the flags it keeps. *)
Lemma xfop_ptrs o x y : x_cell x = true -> xf_apply o x = Ok y ->
  x_font y = x_font x /\ (x_format y = None \/ (x_format y = x_format x /\ x_fmt y = x_fmt x)) /\ (forall g, flagged x g -> flagged y g).
Proof.
  intros C H. destruct o; cbn [xf_apply] in H;
    repeat match type of H with
    | bind ?e _ = Ok _ => destruct e; cbn [bind] in H; try discriminate H
    end; apply ok_inj in H; subst y;
    try (split; [unfold flag_if, set_flag; repeat match goal with |- context [if ?b then _ else _] => destruct b end; reflexivity|]; split;
         [unfold flag_if, set_flag; repeat match goal with |- context [if ?b then _ else _] => destruct b end; cbn; auto
         |intros g F; first [apply (flagged_set x ATRPAT g C F) | apply (flagged_if _ x _ g C F)]]).
  - set (x1 := flag_if _ _ _).
    assert (E : x_font x1 = x_font x /\ x_format x1 = x_format x /\ x_fmt x1 = x_fmt x /\ forall g, flagged x g -> flagged x1 g).
    { subst x1. unfold flag_if. destruct (negb _); cbn; repeat split; auto. intros g F. unfold flagged, set_flag in *. cbn. rewrite C. cbn.
      rewrite <- Z.lor_assoc, (Z.lor_comm _ g), Z.lor_assoc, F. reflexivity. }
    destruct E as (E1 & E2 & E3 & E4). destruct (_ && _)%bool; cbn; repeat split; auto.
  - unfold flag_if, set_flag. destruct (negb _); cbn; repeat split; auto. intros g F. unfold flagged in *. cbn. rewrite C. cbn.
    rewrite <- Z.lor_assoc, (Z.lor_comm _ g), Z.lor_assoc, F. reflexivity.
  - unfold flag_if, set_flag. destruct (negb _); cbn; repeat split; auto. intros g F. unfold flagged in *. cbn. rewrite C. cbn.
    rewrite <- Z.lor_assoc, (Z.lor_comm _ g), Z.lor_assoc, F. reflexivity.
Qed.

(** Bounds under which handles fit their 16-bit fields. *)
Definition few (fs : fstate) : Prop := zlen (fs_fonts fs) <= 65000 /\ zlen (fs_formats fs) <= 65000 /\ zlen (fs_xfs fs) <= 65000.
(** Setters with raw values must fit; handles fit because they exist. *)
Definition fmtop_ok (o : fmtop) : Prop := match o with FXf o => SpecXfOps.fits (FXf o) | _ => True end.
Lemma font_handle_fits fs f : few fs -> font_handle fs f = true -> SpecXfOps.fits (FFont f).
Proof.
  intros (L & _) H. destruct f as [i|]; [|exact I]. cbn [font_handle SpecXfOps.fits] in *. destruct (font_at fs i) as [o|] eqn:E; [|discriminate].
  apply font_at_bound in E. lia.
Qed.
Lemma format_handle_fits fs f : few fs -> format_handle fs f = true -> 164 <= f < 65536.
Proof. intros (_ & L & _) H. unfold format_handle in H. lia. Qed.
Lemma fmt_apply_tidy fs x o fs' y : few fs -> tidy x -> fmtop_ok o -> fmt_apply fs x o = Ok (fs', y) ->
  tidy y /\ attrs_of y = spec_set o (attrs_of x).
Proof.
  intros L T O H.
  assert (F : SpecXfOps.fits o).
  { destruct o as [o|f|[f|]]; [exact O| | |exact I]; cbn [fmt_apply] in H.
    - destruct (font_handle fs f) eqn:E; [|discriminate]. eapply font_handle_fits; eauto.
    - destruct (format_handle fs f) eqn:E; [|discriminate]. apply (format_handle_fits fs) in E; [|exact L]. cbn. lia. }
  pose proof (fmt_apply_rel _ _ _ _ _ _ (tidy_rel _ T) F H) as R. split; [|apply R].
  destruct R as (R1 & R2 & R3 & R4 & R5). destruct T as [TC TB1 TB2 TF TFo TFm].
  constructor; auto.
  - destruct o as [o|f|[f|]]; cbn [fmt_apply] in H.
    + destruct (xf_apply o x) as [z| |] eqn:E; cbn [bind] in H; try discriminate. apply ok_pair in H. destruct H as [_ <-].
      apply xfop_ptrs in E; [|exact TC]. destruct E as (-> & _ & E). auto.
    + destruct (font_handle fs f); [|discriminate]. apply ok_pair in H. destruct H as [_ <-]. cbn [xf_set_font snd x_font with_font]. intro N.
      destruct f; [|contradiction]. cbn [flag_if]. apply (flagged_own x ATRFONT TC).
    + destruct (format_handle fs f); [|discriminate]. apply ok_pair in H. destruct H as [_ <-]. cbn [xf_set_format x_font with_format with_fmt].
      intro N. apply (flagged_if (negb (f =? 0)) x ATRNUM ATRFONT TC). apply TFo. destruct (negb (f =? 0)); exact N.
    + apply ok_pair in H. destruct H as [_ <-]. exact TFo.
  - destruct o as [o|f|[f|]]; cbn [fmt_apply] in H.
    + destruct (xf_apply o x) as [z| |] eqn:E; cbn [bind] in H; try discriminate. apply ok_pair in H. destruct H as [_ <-].
      apply xfop_ptrs in E; [|exact TC]. destruct E as (_ & [E|[E1 E2]] & E3); intros g G.
      * rewrite E in G. discriminate.
      * rewrite E1 in G. destruct (TFm g G) as [A B]. rewrite E2. auto.
    + destruct (font_handle fs f); [|discriminate]. apply ok_pair in H. destruct H as [_ <-]. intros g G.
      assert (G' : x_format x = Some g) by (destruct f; exact G). destruct (TFm g G') as [A B]. split.
      * destruct f; exact A.
      * intro N. apply (flagged_if (match f with Some _ => true | None => false end) x ATRFONT ATRNUM TC). auto.
    + destruct (format_handle fs f); [|discriminate]. apply ok_pair in H. destruct H as [_ <-]. intros g G. cbn in G. injection G as <-. split; [reflexivity|].
      intro N. replace (f =? 0) with false by lia. cbn [negb flag_if]. apply (flagged_own x ATRNUM TC).
    + apply ok_pair in H. destruct H as [_ <-]. exact TFm.
Qed.
Lemma set_font_tidy x j : tidy x -> 0 <= j < 65536 ->
  tidy (with_font (Some j) (set_flag ATRFONT x)) /\ attrs_of (with_font (Some j) (set_flag ATRFONT x)) = spec_set (FFont (Some j)) (attrs_of x).
Proof.
  intros T B. pose proof (rel_flag_font x (attrs_of x) (Some j) (tidy_rel _ T) B) as R. cbn [flag_if] in R. split; [|apply R].
  destruct R as (R1 & R2 & R3 & R4 & _). destruct T as [TC _ _ _ TFo TFm]. constructor; auto.
  - intros _. apply (flagged_own x ATRFONT TC).
  - intros f G. change (x_format x = Some f) in G. destruct (TFm f G) as [A C]. split; [exact A|]. intro N. apply (flagged_set x ATRFONT ATRNUM TC). auto.
Qed.
