(** The format tables under the operations of the API: nothing disappears, indices stay
    valid. *)
From Coq Require Import ZArith List Bool Lia ZifyBool ZifyNat.
From Verif Require Import Bytes UnitModel RecModel SheetModel XfModel.
Import ListNotations.
Local Open Scope Z_scope.

Lemma upd_length {A} k (x : A) : forall l, length (upd k x l) = length l.
Proof. induction k; intros [|y l]; cbn; auto. Qed.

(** The tables only grow; the default ones keep their size. *)
Record grows (a b : fstate) : Prop := {
  gr_dfonts : length (fs_dfonts b) = length (fs_dfonts a);
  gr_dxfs : length (fs_dxfs b) = length (fs_dxfs a);
  gr_fonts : (length (fs_fonts a) <= length (fs_fonts b))%nat;
  gr_formats : (length (fs_formats a) <= length (fs_formats b))%nat;
  gr_xfs : (length (fs_xfs a) <= length (fs_xfs b))%nat
}.
(** Same sizes. *)
Record level (a b : fstate) : Prop := {
  lv_dfonts : length (fs_dfonts b) = length (fs_dfonts a);
  lv_dxfs : length (fs_dxfs b) = length (fs_dxfs a);
  lv_fonts : length (fs_fonts b) = length (fs_fonts a);
  lv_formats : length (fs_formats b) = length (fs_formats a);
  lv_xfs : length (fs_xfs b) = length (fs_xfs a)
}.
Lemma level_grows a b : level a b -> grows a b.
Proof. intros []. constructor; lia. Qed.
Lemma level_refl a : level a a. Proof. constructor; reflexivity. Qed.
Lemma level_trans a b c : level a b -> level b c -> level a c.
Proof. intros [] []. constructor; congruence. Qed.
Lemma grows_refl a : grows a a. Proof. constructor; lia. Qed.
Lemma grows_trans a b c : grows a b -> grows b c -> grows a c.
Proof. intros [] []. constructor; lia. Qed.

Ltac lev := constructor; cbn [fs_dfonts fs_fonts fs_formats fs_dxfs fs_xfs set_fonts set_formats set_xfs];
            rewrite ?upd_length; reflexivity.
Lemma font_upd_level fs i f : level fs (font_upd fs i f).
Proof. unfold font_upd. destruct (font_at fs i); [|apply level_refl]. destruct (i <? 6); lev. Qed.
Lemma xf_upd_level fs i f : level fs (xf_upd fs i f).
Proof. unfold xf_upd. destruct (xf_at fs i); [|apply level_refl]. destruct (i <? 21); lev. Qed.
Lemma fmt_upd_level fs i f : level fs (fmt_upd fs i f).
Proof. unfold fmt_upd. destruct (nth_error _ _); [|apply level_refl]. lev. Qed.
Lemma font_mark_level fs p : level fs (font_mark fs p).
Proof. destruct p; [apply font_upd_level|apply level_refl]. Qed.
Lemma font_unmark_level fs p : level fs (font_unmark fs p).
Proof. destruct p; [apply font_upd_level|apply level_refl]. Qed.
Lemma fmt_mark_level fs p : level fs (fmt_mark fs p).
Proof. destruct p; [apply fmt_upd_level|apply level_refl]. Qed.
Lemma fmt_unmark_level fs p : level fs (fmt_unmark fs p).
Proof. destruct p; [apply fmt_upd_level|apply level_refl]. Qed.
Lemma xf_mark_level fs i : level fs (xf_mark fs i).
Proof. apply xf_upd_level. Qed.
Lemma xf_unmark_level fs i : level fs (xf_unmark fs i).
Proof.
  unfold xf_unmark. destruct (xf_at fs i); [|apply level_refl]. cbv zeta. destruct (_ =? 0); [|apply xf_upd_level].
  eapply level_trans; [apply xf_upd_level|]. eapply level_trans; [apply font_unmark_level|apply fmt_unmark_level].
Qed.
Lemma xf_set_font_level fs x p : level fs (fst (xf_set_font fs x p)).
Proof. cbn [xf_set_font fst]. eapply level_trans; [apply font_unmark_level|apply font_mark_level]. Qed.
Lemma xf_set_format_level fs x f : level fs (fst (xf_set_format fs x f)).
Proof. unfold xf_set_format. cbn [fst]. eapply level_trans; [apply fmt_unmark_level|apply fmt_mark_level]. Qed.
Lemma xf_dup_level fs x : level fs (fst (xf_dup fs x)).
Proof.
  unfold xf_dup. cbv zeta. match goal with |- context [xf_set_font fs ?y ?p] => pose proof (xf_set_font_level fs y p) as L;
    destruct (xf_set_font fs y p) as [fs1 x1]; cbn [fst] in L end.
  destruct (x_format x); [|exact L]. eapply level_trans; [exact L|]. apply xf_set_format_level.
Qed.
Lemma fmt_apply_level fs x o fs' y : fmt_apply fs x o = Ok (fs', y) -> level fs fs'.
Proof.
  destruct o as [o|f|[f|]]; cbn [fmt_apply].
  - destruct (xf_apply o x); cbn [bind]; try discriminate. intro H. injection H as <- _. apply level_refl.
  - destruct (font_handle fs f); [|discriminate]. intro H. apply (f_equal (fun r => match r with Ok (a, _) => a | _ => fs end)) in H. cbn in H. subst fs'. apply xf_set_font_level.
  - destruct (format_handle fs f); [|discriminate]. intro H. apply (f_equal (fun r => match r with Ok (a, _) => a | _ => fs end)) in H. cbn in H. subst fs'. apply xf_set_format_level.
  - intro H. injection H as <- _. apply level_refl.
Qed.
Lemma font_set_level fs i o fs' : font_set fs i o = Ok fs' -> level fs fs'.
Proof.
  unfold font_set. destruct (font_at fs i); [|discriminate]. destruct (font_apply o _); cbn [bind]; try discriminate.
  intro H. injection H as <-. apply font_upd_level.
Qed.
Lemma xf_user_level fs p o fs' : xf_user fs p o = Ok fs' -> level fs fs'.
Proof.
  unfold xf_user. destruct (xf_at fs p); [|discriminate]. destruct (fmt_apply fs x o) as [[fs1 y]| |] eqn:E; cbn [bind]; try discriminate.
  intro H. injection H as <-. eapply level_trans; [eapply fmt_apply_level; eauto|apply xf_upd_level].
Qed.
Lemma add_font_grows fs f : grows fs (fst (add_font fs f)).
Proof. constructor; cbn; rewrite ?app_length; lia. Qed.

(** Validity of an XF index. *)
Definition valid (fs : fstate) (i : Z) : Prop := xf_at fs i <> None.
Lemma valid_grows a b i : grows a b -> valid a i -> valid b i.
Proof.
  intros [] H. unfold valid, xf_at in *. destruct (i <? 0); [congruence|]. destruct (i <? 21); apply nth_error_Some; apply nth_error_Some in H; lia.
Qed.
Lemma valid_level a b i : level a b -> valid a i <-> valid b i.
Proof.
  intros []. unfold valid, xf_at. destruct (i <? 0); [tauto|]. destruct (i <? 21); rewrite !nth_error_Some; lia.
Qed.

(** The tail shared by the setters: push, release the old XF, look for an equal one. *)
Lemma find_pos_bound l x : forall k j, find_pos l x k = Some j -> (k <= j < k + length l)%nat.
Proof.
  induction l as [|y l IH]; cbn [find_pos]; intros k j H; [discriminate|].
  destruct (xf_eqb y x). { injection H as <-. cbn [length]. lia. } apply IH in H. cbn [length]. lia.
Qed.
Lemma ok_pair {A B} (a c : A) (b d : B) : Ok (a, b) = Ok (c, d) -> a = c /\ b = d.
Proof. intro H. inversion H. auto. Qed.
Lemma push_find fs t p fs5 q :
  find_xf (xf_unmark (fst (add_xf fs t)) p) (21 + zlen (fs_xfs fs)) = Ok (fs5, q) -> grows fs fs5 /\ valid fs5 q /\ (21 <= q).
Proof.
  intro H. set (fs4 := xf_unmark (fst (add_xf fs t)) p) in *.
  assert (L : level (fst (add_xf fs t)) fs4) by apply xf_unmark_level. destruct L as [L1 L2 L3 L4 L5].
  cbn [add_xf fst fs_dfonts fs_fonts fs_formats fs_dxfs fs_xfs set_xfs] in *. rewrite app_length in L5. cbn [length] in L5.
  clearbody fs4. unfold find_xf in H. destruct (xf_at fs4 (21 + zlen (fs_xfs fs))) as [x|] eqn:Ex; [|discriminate].
  unfold zlen in *. 
  assert (V : forall g, length (fs_xfs g) = S (length (fs_xfs fs)) -> valid g (21 + Z.of_nat (length (fs_xfs fs)))).
  { intros g Hg. unfold valid, xf_at. pose proof (zlen_nonneg _ (fs_xfs fs)). replace (_ <? 0) with false by lia. replace (_ <? 21) with false by lia. apply nth_error_Some. lia. }
  destruct (find_pos (fs_xfs fs4) x 0) as [k|] eqn:Ek.
  - apply find_pos_bound in Ek. destruct (21 + Z.of_nat k =? _) eqn:E.
    + apply ok_pair in H; destruct H as [<- <-]. split; [constructor; lia|]. split; [apply V; lia|lia].
    + apply ok_pair in H; destruct H as [<- <-]. unfold set_xfs. 
      assert (Lr : length (removelast (fs_xfs fs4)) = length (fs_xfs fs)).
      { rewrite removelast_firstn_len, firstn_length. lia. }
      split; [constructor; cbn [fs_dfonts fs_fonts fs_formats fs_dxfs fs_xfs]; lia|].
      split; [|lia]. unfold valid, xf_at. cbn [fs_dxfs fs_xfs]. replace (_ <? 0) with false by lia. replace (_ <? 21) with false by lia. apply nth_error_Some. lia.
  - apply ok_pair in H; destruct H as [<- <-]. split; [constructor; lia|]. split; [apply V; lia|lia].
Qed.

Lemma cell_format_grows fs p o fs' q : cell_format fs p o = Ok (fs', q) -> grows fs fs' /\ valid fs' q /\ 21 <= q.
Proof.
  unfold cell_format. destruct (xf_at fs p) as [x|]; [|discriminate].
  pose proof (xf_dup_level fs x) as L1. destruct (xf_dup fs x) as [fs1 t0]. cbn [fst] in L1.
  destruct (fmt_apply fs1 t0 o) as [[fs2 t]| |] eqn:E2; cbn [bind]; try discriminate. apply fmt_apply_level in E2.
  change (add_xf fs2 t) with (fst (add_xf fs2 t), 21 + zlen (fs_xfs fs2)). cbv iota beta.
  destruct (find_xf _ _) as [[fs5 q5]| |] eqn:E5; cbn [bind]; try discriminate. intro H. 
  apply (f_equal (fun r => match r with Ok a => a | _ => (fs, 0) end)) in H. apply pair_equal_spec in H. destruct H as [<- <-].
  apply push_find in E5. destruct E5 as (G & V & Q). pose proof (xf_mark_level fs5 q5) as L.
  split; [|split; [apply (valid_level _ _ q5 L); exact V|exact Q]].
  eapply grows_trans; [apply level_grows, L1|]. eapply grows_trans; [apply level_grows, E2|].
  eapply grows_trans; [exact G|]. apply level_grows, L.
Qed.
Lemma set_cell_font_grows fs p fs' q : set_cell_font fs p = Ok (fs', q) -> grows fs fs' /\ valid fs' q /\ 21 <= q.
Proof.
  unfold set_cell_font. destruct (xf_at fs p) as [x|]; [|discriminate].
  pose proof (xf_dup_level fs x) as L1. destruct (xf_dup fs x) as [fs1 t0]. cbn [fst] in L1.
  match goal with |- (let* (a, b) := ?e in _) = _ -> _ => assert (K : forall fs2 t, e = Ok (fs2, t) -> grows fs1 fs2) end.
  { intros fs2 t. destruct (x_font t0) as [i|].
    - destruct (font_at fs1 i) as [d|]; [|discriminate]. destruct (1 <? fo_use d).
      + pose proof (add_font_grows fs1 (fo_val d)) as G. destruct (add_font fs1 (fo_val d)) as [g nf]. cbn [fst] in G.
        intro H. apply (f_equal (fun r => match r with Ok (a, _) => a | _ => fs1 end)) in H. cbn beta iota in H. subst fs2.
        eapply grows_trans; [exact G|]. apply level_grows, xf_set_font_level.
      + intro H. injection H as <- _. apply grows_refl.
    - destruct (font_at fs1 0) as [d|]; [|discriminate].
      pose proof (add_font_grows fs1 (fo_val d)) as G. destruct (add_font fs1 (fo_val d)) as [g nf]. cbn [fst] in G.
      intro H. apply (f_equal (fun r => match r with Ok (a, _) => a | _ => fs1 end)) in H. cbn beta iota in H. subst fs2.
      eapply grows_trans; [exact G|]. apply level_grows, xf_set_font_level. }
  match goal with |- (let* (a, b) := ?e in _) = _ -> _ => destruct e as [[fs2 t]| |]; cbn [bind]; try discriminate end.
  specialize (K fs2 t eq_refl).
  change (add_xf fs2 t) with (fst (add_xf fs2 t), 21 + zlen (fs_xfs fs2)). cbv iota beta.
  destruct (find_xf _ _) as [[fs5 q5]| |] eqn:E5; cbn [bind]; try discriminate. intro H. 
  apply (f_equal (fun r => match r with Ok a => a | _ => (fs, 0) end)) in H. apply pair_equal_spec in H. destruct H as [<- <-].
  apply push_find in E5. destruct E5 as (G & V & Q). pose proof (xf_mark_level fs5 q5) as L.
  split; [|split; [apply (valid_level _ _ q5 L); exact V|exact Q]].
  eapply grows_trans; [apply level_grows, L1|]. eapply grows_trans; [exact K|].
  eapply grows_trans; [exact G|]. apply level_grows, L.
Qed.
Lemma cell_font_grows fs p o fs' q : cell_font fs p o = Ok (fs', q) -> grows fs fs' /\ valid fs' q /\ 21 <= q.
Proof.
  unfold cell_font. destruct (set_cell_font fs p) as [[fs1 q1]| |] eqn:E; cbn [bind]; try discriminate.
  apply set_cell_font_grows in E. destruct E as (G & V & Q). destruct (xf_at fs1 q1) as [x|]; [|discriminate].
  destruct (x_font x) as [i|]; [|discriminate]. destruct (font_set fs1 i o) as [fs2| |] eqn:E2; cbn [bind]; try discriminate.
  intro H. injection H as <- <-. apply font_set_level in E2. split; [|split; [apply (valid_level _ _ q1 E2), V|exact Q]].
  eapply grows_trans; [exact G|apply level_grows, E2].
Qed.
Lemma cell_setxf_grows fs p q : valid fs p -> (forall i, q = Some i -> valid fs i) ->
  grows fs (fst (cell_setxf fs p q)) /\ valid (fst (cell_setxf fs p q)) (snd (cell_setxf fs p q)).
Proof.
  intros Vp Vq. destruct q as [q|]; cbn [cell_setxf fst snd].
  - assert (L : level fs (xf_unmark (xf_mark fs q) p)).
    { eapply level_trans; [apply xf_mark_level|apply xf_unmark_level]. }
    split; [apply level_grows, L|]. apply (valid_level _ _ q L). auto.
  - split; [apply grows_refl|exact Vp].
Qed.
Lemma wb_xformat_grows fs f m fs' q : wb_xformat fs f m = Ok (fs', q) -> grows fs fs'.
Proof.
  unfold wb_xformat. destruct (xf_new true true false) as [x| |]; cbn [bind]; try discriminate.
  change (add_xf fs x) with (fst (add_xf fs x), 21 + zlen (fs_xfs fs)). cbv iota beta.
  assert (G : grows fs (fst (add_xf fs x))) by (constructor; cbn; rewrite ?app_length; lia).
  set (fs1 := fst (add_xf fs x)) in *.
  match goal with |- (let* fs2 := ?e in _) = _ -> _ => assert (K : forall g, e = Ok g -> level fs1 g); [|destruct e as [fs2| |]; cbn [bind]; try discriminate] end.
  { intros g. destruct f; [apply xf_user_level|]. intro H. injection H as <-. apply level_refl. }
  specialize (K fs2 eq_refl).
  match goal with |- (let* fs3 := ?e in _) = _ -> _ => assert (K2 : forall g, e = Ok g -> level fs2 g); [|destruct e as [fs3| |]; cbn [bind]; try discriminate] end.
  { intros g. destruct m; [apply xf_user_level|]. intro H. injection H as <-. apply level_refl. }
  specialize (K2 fs3 eq_refl). intro H. injection H as <- _.
  eapply grows_trans; [exact G|]. apply level_grows. eapply level_trans; eauto.
Qed.
Lemma wb_fontnum_grows fs n fs' q : wb_fontnum fs n = Ok (fs', q) -> grows fs fs'.
Proof.
  unfold wb_fontnum. destruct (nth_error _ _) as [d|]; [|discriminate]. intro H.
  apply (f_equal (fun r => match r with Ok (a, _) => a | _ => fs end)) in H. cbn beta iota in H. subst fs'.
  apply add_font_grows.
Qed.
Lemma add_format_grows fs s : grows fs (fst (add_format fs s)).
Proof. constructor; cbn; rewrite ?app_length; lia. Qed.
Lemma init_sizes fs : fstate_init = Ok fs -> length (fs_dfonts fs) = 5%nat /\ length (fs_dxfs fs) = 21%nat
  /\ fs_fonts fs = [] /\ fs_formats fs = [] /\ fs_xfs fs = [].
Proof. intro H. vm_compute in H. injection H as <-. repeat split; reflexivity. Qed.
