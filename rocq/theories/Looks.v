(** Formatting objects keep their content: what the setters leave alone in the tables of
    fonts, number formats and extended formats. *)
From Coq Require Import ZArith List Bool Lia ZifyBool ZifyNat.
From Verif Require Import Bytes UnitModel RecModel SheetModel XfModel XfInv.
Import ListNotations.
Local Open Scope Z_scope.

(** Everything but the usage counter. *)
Definition core (x : xf) : xf := with_use 0 x.
Definition fval (fs : fstate) (i : Z) : option font := option_map fo_val (font_at fs i).
Definition fstrs (fs : fstate) : list (list Z) := map fmo_str (fs_formats fs).

Record keeps (a b : fstate) : Prop := {
  kp_xf : forall i x, xf_at a i = Some x -> exists y, xf_at b i = Some y /\ core y = core x;
  kp_font : forall i v, fval a i = Some v -> fval b i = Some v;
  kp_fmt : fstrs b = fstrs a }.
Lemma keeps_refl a : keeps a a.
Proof. constructor; eauto. Qed.
Lemma keeps_trans a b c : keeps a b -> keeps b c -> keeps a c.
Proof.
  intros [A1 A2 A3] [B1 B2 B3]. constructor; [|auto|congruence].
  intros i x H. destruct (A1 i x H) as (y & Hy & E). destruct (B1 i y Hy) as (z & Hz & E2). exists z. split; [exact Hz|congruence].
Qed.

Lemma nth_error_upd {A} k (x : A) : forall l j, nth_error (upd k x l) j = if Nat.eqb j k then match nth_error l k with Some _ => Some x | None => None end else nth_error l j.
Proof.
  induction k as [|k IH]; intros [|y l] [|j]; cbn [upd nth_error Nat.eqb]; auto.
  destruct (Nat.eqb j k); reflexivity.
Qed.
(** Table lookups after an update, pointwise. *)
Lemma dpos_inj i j : 0 <= i < 6 -> 0 <= j < 6 -> i <> 4 -> j <> 4 -> dfont_pos i = dfont_pos j -> i = j.
Proof. unfold dfont_pos. destruct (i =? 5) eqn:A, (j =? 5) eqn:B; lia. Qed.
Lemma font_at_upd fs i f j : font_at (font_upd fs i f) j =
  if i =? j then option_map f (font_at fs j) else font_at fs j.
Proof.
  unfold font_upd. destruct (font_at fs i) as [o|] eqn:E.
  2:{ destruct (i =? j) eqn:Q; [|reflexivity]. assert (i = j) by lia. subst j. rewrite E. reflexivity. }
  unfold font_at in *. destruct ((i <? 0) || (i =? 4))%bool eqn:Ei; [discriminate E|].
  destruct ((j <? 0) || (j =? 4))%bool eqn:Ej. { destruct (i =? j) eqn:Q; [lia|reflexivity]. }
  destruct (i <? 6) eqn:Li; destruct (j <? 6) eqn:Lj; cbn [set_fonts fs_dfonts fs_fonts]; rewrite ?nth_error_upd.
  - destruct (i =? j) eqn:Q.
    + assert (i = j) by lia. subst j. rewrite Nat.eqb_refl, E. reflexivity.
    + replace (Nat.eqb (dfont_pos j) (dfont_pos i)) with false; [reflexivity|]. symmetry. apply Nat.eqb_neq. intro K.
      apply dpos_inj in K; lia.
  - replace (i =? j) with false by lia. reflexivity.
  - replace (i =? j) with false by lia. reflexivity.
  - destruct (i =? j) eqn:Q.
    + assert (i = j) by lia. subst j. rewrite Nat.eqb_refl, E. reflexivity.
    + replace (Nat.eqb (Z.to_nat (j - 6)) (Z.to_nat (i - 6))) with false by lia. reflexivity.
Qed.
Lemma xf_at_font_upd fs i f j : xf_at (font_upd fs i f) j = xf_at fs j.
Proof. unfold font_upd. destruct (font_at fs i); [|reflexivity]. destruct (i <? 6); reflexivity. Qed.
Lemma fmts_font_upd fs i f : fs_formats (font_upd fs i f) = fs_formats fs.
Proof. unfold font_upd. destruct (font_at fs i); [|reflexivity]. destruct (i <? 6); reflexivity. Qed.
Lemma xf_at_upd_all fs i f j : xf_at (xf_upd fs i f) j = if i =? j then option_map f (xf_at fs j) else xf_at fs j.
Proof.
  unfold xf_upd. destruct (xf_at fs i) as [o|] eqn:E.
  2:{ destruct (i =? j) eqn:Q; [|reflexivity]. assert (i = j) by lia. subst j. rewrite E. reflexivity. }
  unfold xf_at in *. destruct (i <? 0) eqn:Ei; [discriminate E|].
  destruct (j <? 0) eqn:Ej. { destruct (i =? j) eqn:Q; [lia|reflexivity]. }
  destruct (i <? 21) eqn:Li; destruct (j <? 21) eqn:Lj; cbn [set_xfs fs_dxfs fs_xfs]; rewrite ?nth_error_upd.
  - destruct (i =? j) eqn:Q.
    + assert (i = j) by lia. subst j. rewrite Nat.eqb_refl, E. reflexivity.
    + replace (Nat.eqb (Z.to_nat j) (Z.to_nat i)) with false by lia. reflexivity.
  - replace (i =? j) with false by lia. reflexivity.
  - replace (i =? j) with false by lia. reflexivity.
  - destruct (i =? j) eqn:Q.
    + assert (i = j) by lia. subst j. rewrite Nat.eqb_refl, E. reflexivity.
    + replace (Nat.eqb (Z.to_nat (j - 21)) (Z.to_nat (i - 21))) with false by lia. reflexivity.
Qed.
Lemma font_at_xf_upd fs i f j : font_at (xf_upd fs i f) j = font_at fs j.
Proof. unfold xf_upd. destruct (xf_at fs i); [|reflexivity]. destruct (i <? 21); reflexivity. Qed.
Lemma fmts_xf_upd fs i f : fs_formats (xf_upd fs i f) = fs_formats fs.
Proof. unfold xf_upd. destruct (xf_at fs i); [|reflexivity]. destruct (i <? 21); reflexivity. Qed.
Lemma xf_at_fmt_upd fs i f j : xf_at (fmt_upd fs i f) j = xf_at fs j.
Proof. unfold fmt_upd. destruct (nth_error _ _); reflexivity. Qed.
Lemma font_at_fmt_upd fs i f j : font_at (fmt_upd fs i f) j = font_at fs j.
Proof. unfold fmt_upd. destruct (nth_error _ _); reflexivity. Qed.
Lemma map_upd_same {A B} (g : A -> B) k x : forall l, option_map g (nth_error l k) = Some (g x) -> map g (upd k x l) = map g l.
Proof. induction k as [|k IH]; intros [|y l] H; cbn in *; try discriminate; [congruence|]. f_equal. auto. Qed.
Lemma fstrs_fmt_upd fs i f : fstrs (fmt_upd fs i f) = fstrs fs.
Proof.
  unfold fmt_upd, fstrs. destruct (nth_error (fs_formats fs) (Z.to_nat (i - 164))) as [o|] eqn:E; [|reflexivity].
  cbn [set_formats fs_formats]. apply map_upd_same. rewrite E. reflexivity.
Qed.

Lemma font_upd_keeps fs i f : (forall o, fo_val (f o) = fo_val o) -> keeps fs (font_upd fs i f).
Proof.
  intro H. constructor.
  - intros j x. rewrite xf_at_font_upd. eauto.
  - intros j v. unfold fval. rewrite font_at_upd. destruct (i =? j); [|auto]. destruct (font_at fs j); cbn; [rewrite H|]; auto.
  - unfold fstrs. rewrite fmts_font_upd. reflexivity.
Qed.
Lemma xf_upd_keeps fs i f : (forall x, xf_at fs i = Some x -> core (f x) = core x) -> keeps fs (xf_upd fs i f).
Proof.
  intro H. constructor.
  - intros j x E. rewrite xf_at_upd_all. destruct (i =? j) eqn:Q; [|eauto]. assert (i = j) by lia. subst j. rewrite E. cbn. eauto.
  - intros j v. unfold fval. rewrite font_at_xf_upd. auto.
  - unfold fstrs. rewrite fmts_xf_upd. reflexivity.
Qed.
Lemma fmt_upd_keeps fs i f : keeps fs (fmt_upd fs i f).
Proof.
  constructor; [intros j x; rewrite xf_at_fmt_upd; eauto|intros j v; unfold fval; rewrite font_at_fmt_upd; auto|apply fstrs_fmt_upd].
Qed.
Lemma font_mark_keeps fs p : keeps fs (font_mark fs p).
Proof. destruct p; [apply font_upd_keeps; reflexivity|apply keeps_refl]. Qed.
Lemma font_unmark_keeps fs p : keeps fs (font_unmark fs p).
Proof. destruct p; [apply font_upd_keeps; reflexivity|apply keeps_refl]. Qed.
Lemma fmt_mark_keeps fs p : keeps fs (fmt_mark fs p).
Proof. destruct p; [apply fmt_upd_keeps|apply keeps_refl]. Qed.
Lemma fmt_unmark_keeps fs p : keeps fs (fmt_unmark fs p).
Proof. destruct p; [apply fmt_upd_keeps|apply keeps_refl]. Qed.
Lemma xf_mark_keeps fs i : keeps fs (xf_mark fs i).
Proof. apply xf_upd_keeps. reflexivity. Qed.
Lemma xf_unmark_keeps fs i : keeps fs (xf_unmark fs i).
Proof.
  unfold xf_unmark. destruct (xf_at fs i) as [x|]; [|apply keeps_refl]. cbv zeta.
  assert (K : forall n, keeps fs (xf_upd fs i (with_use n))) by (intro; apply xf_upd_keeps; reflexivity).
  destruct (_ =? 0); [|apply K]. eapply keeps_trans; [apply K|]. eapply keeps_trans; [apply font_unmark_keeps|apply fmt_unmark_keeps].
Qed.
Lemma set_font_keeps fs x p : keeps fs (fst (xf_set_font fs x p)).
Proof. cbn [xf_set_font fst]. eapply keeps_trans; [apply font_unmark_keeps|apply font_mark_keeps]. Qed.
Lemma set_format_keeps fs x p : keeps fs (fst (xf_set_format fs x p)).
Proof. cbn [xf_set_format fst]. eapply keeps_trans; [apply fmt_unmark_keeps|apply fmt_mark_keeps]. Qed.
Lemma dup_keeps fs x : keeps fs (fst (xf_dup fs x)).
Proof.
  unfold xf_dup. cbv zeta. match goal with |- context [xf_set_font fs ?y ?p] => pose proof (set_font_keeps fs y p) as L;
    destruct (xf_set_font fs y p) as [fs1 x1]; cbn [fst] in L end.
  destruct (x_format x); [|exact L]. eapply keeps_trans; [exact L|]. apply set_format_keeps.
Qed.
Lemma fmt_apply_keeps fs x o fs' y : fmt_apply fs x o = Ok (fs', y) -> keeps fs fs'.
Proof.
  destruct o as [o|f|[f|]]; cbn [fmt_apply].
  - destruct (xf_apply o x); cbn [bind]; try discriminate. intro H. injection H as <- _. apply keeps_refl.
  - destruct (font_handle fs f); [|discriminate]. intro H. apply (f_equal (fun r => match r with Ok (a, _) => a | _ => fs end)) in H. cbn beta iota in H. subst fs'. apply set_font_keeps.
  - destruct (format_handle fs f); [|discriminate]. intro H. apply (f_equal (fun r => match r with Ok (a, _) => a | _ => fs end)) in H. cbn beta iota in H. subst fs'. apply set_format_keeps.
  - intro H. injection H as <- _. apply keeps_refl.
Qed.
Lemma xf_at_add fs x i : xf_at (fst (add_xf fs x)) i = if i =? 21 + zlen (fs_xfs fs) then Some x else xf_at fs i.
Proof.
  unfold xf_at, add_xf, zlen. cbn [fst set_xfs fs_xfs fs_dxfs]. destruct (i <? 0) eqn:E0. { destruct (i =? _) eqn:Q; [lia|reflexivity]. }
  destruct (i <? 21) eqn:E1. { destruct (i =? _) eqn:Q; [lia|reflexivity]. }
  destruct (i =? _) eqn:Q.
  - replace (Z.to_nat (i - 21)) with (length (fs_xfs fs)) by lia. rewrite nth_error_app2, Nat.sub_diag by lia. reflexivity.
  - destruct (Nat.ltb (Z.to_nat (i - 21)) (length (fs_xfs fs))) eqn:L.
    + rewrite nth_error_app1 by lia. reflexivity.
    + assert (N : nth_error (fs_xfs fs) (Z.to_nat (i - 21)) = None) by (apply nth_error_None; lia). rewrite N.
      apply nth_error_None. rewrite app_length. cbn [length]. lia.
Qed.
Lemma xf_at_bound fs i x : xf_at fs i = Some x -> 0 <= i /\ (21 <= i -> i < 21 + zlen (fs_xfs fs)).
Proof.
  unfold xf_at, zlen. destruct (i <? 0) eqn:E; [discriminate|]. intro H. split; [lia|]. intro L. replace (i <? 21) with false in H by lia.
  assert (N : nth_error (fs_xfs fs) (Z.to_nat (i - 21)) <> None) by congruence. apply nth_error_Some in N. lia.
Qed.
Lemma add_xf_keeps fs x : keeps fs (fst (add_xf fs x)).
Proof.
  constructor; [|auto|reflexivity]. intros i y E. rewrite xf_at_add. pose proof (xf_at_bound _ _ _ E) as B. pose proof (zlen_nonneg _ (fs_xfs fs)).
  replace (i =? _) with false by lia. eauto.
Qed.
Lemma font_at_add fs v i : font_at (fst (add_font fs v)) i = if i =? 6 + zlen (fs_fonts fs) then Some (mkFO v 0) else font_at fs i.
Proof.
  unfold font_at, add_font, zlen. cbn [fst set_fonts fs_fonts fs_dfonts]. destruct ((i <? 0) || (i =? 4))%bool eqn:E0. { destruct (i =? 6 + _) eqn:Q; [lia|reflexivity]. }
  destruct (i <? 6) eqn:E1. { destruct (i =? 6 + _) eqn:Q; [lia|reflexivity]. }
  destruct (i =? 6 + _) eqn:Q.
  - replace (Z.to_nat (i - 6)) with (length (fs_fonts fs)) by lia. rewrite nth_error_app2, Nat.sub_diag by lia. reflexivity.
  - destruct (Nat.ltb (Z.to_nat (i - 6)) (length (fs_fonts fs))) eqn:L.
    + rewrite nth_error_app1 by lia. reflexivity.
    + assert (N : nth_error (fs_fonts fs) (Z.to_nat (i - 6)) = None) by (apply nth_error_None; lia). rewrite N.
      apply nth_error_None. rewrite app_length. cbn [length]. lia.
Qed.
Lemma font_at_bound fs i x : font_at fs i = Some x -> 0 <= i /\ i < 6 + zlen (fs_fonts fs).
Proof.
  unfold font_at, zlen. destruct ((i <? 0) || (i =? 4))%bool eqn:E; [discriminate|]. intro H. split; [lia|]. destruct (i <? 6) eqn:L; [lia|].
  assert (N : nth_error (fs_fonts fs) (Z.to_nat (i - 6)) <> None) by congruence. apply nth_error_Some in N. lia.
Qed.
Lemma add_font_keeps fs v : keeps fs (fst (add_font fs v)).
Proof.
  constructor; [eauto| |reflexivity]. intros i y. unfold fval. rewrite font_at_add. destruct (font_at fs i) as [o|] eqn:E; cbn [option_map]; [|discriminate].
  pose proof (font_at_bound _ _ _ E) as B. replace (i =? 6 + zlen (fs_fonts fs)) with false by lia. auto.
Qed.

(** [xf_eqb] compares everything but the usage counter. *)
Lemma leqb_eq a : forall b, leqb a b = true -> a = b.
Proof. induction a as [|x a IH]; intros [|y b] H; cbn in H; try discriminate; auto. apply andb_prop in H. destruct H as [H1 H2]. f_equal; [lia|auto]. Qed.
Lemma oeqb_eq a b : oeqb a b = true -> a = b.
Proof. destruct a, b; cbn; intro; try discriminate; auto. f_equal. lia. Qed.
Lemma xf_eqb_core a b : xf_eqb a b = true -> core a = core b.
Proof.
  unfold xf_eqb. intro H. repeat (apply andb_prop in H; destruct H as [H ?]).
  repeat match goal with
  | K : Bool.eqb _ _ = true |- _ => apply eqb_prop in K
  | K : (_ =? _) = true |- _ => apply Z.eqb_eq in K
  | K : leqb _ _ = true |- _ => apply leqb_eq in K
  | K : oeqb _ _ = true |- _ => apply oeqb_eq in K
  end.
  destruct a, b. cbn in *. subst. reflexivity.
Qed.
Lemma find_pos_eq l x : forall k j, find_pos l x k = Some j -> exists y, nth_error l (j - k) = Some y /\ xf_eqb y x = true /\ (k <= j)%nat.
Proof.
  induction l as [|y l IH]; cbn [find_pos]; intros k j H; [discriminate|].
  destruct (xf_eqb y x) eqn:E. { injection H as <-. rewrite Nat.sub_diag. exists y. auto. }
  destruct (IH _ _ H) as (z & N & E2 & L). exists z. replace (j - k)%nat with (S (j - S k)) by lia. cbn [nth_error]. auto with arith.
Qed.
Lemma nth_removelast {A} (l : list A) : forall i, (S i < length l)%nat -> nth_error (removelast l) i = nth_error l i.
Proof.
  induction l as [|x [|y l] IH]; intros i H; cbn [length] in H; try lia. destruct i as [|i]; [reflexivity|].
  change (removelast (x :: y :: l)) with (x :: removelast (y :: l)). cbn [nth_error]. apply IH. cbn [length]. lia.
Qed.
(** The end shared by the setters: the old contents stay, and the format found is the one
    that was pushed. *)
Definition finish (fs : fstate) (t : xf) (p : Z) : res (fstate * Z) :=
  let* (fs5, q) := find_xf (xf_unmark (fst (add_xf fs t)) p) (21 + zlen (fs_xfs fs)) in Ok (xf_mark fs5 q, q).
Lemma finish_keeps fs t p fs' q : finish fs t p = Ok (fs', q) ->
  keeps fs fs' /\ exists y, xf_at fs' q = Some y /\ core y = core t.
Proof.
  unfold finish. pose proof (xf_unmark_keeps (fst (add_xf fs t)) p) as K4. pose proof (xf_unmark_level (fst (add_xf fs t)) p) as L4.
  remember (xf_unmark (fst (add_xf fs t)) p) as fs4 eqn:Q4. clear Q4.
  destruct L4 as [_ _ _ _ L4]. cbn [add_xf fst set_xfs fs_xfs] in L4. rewrite app_length in L4. cbn [length] in L4.
  destruct (kp_xf _ _ K4 (21 + zlen (fs_xfs fs)) t) as (t' & Et & Ct). { rewrite xf_at_add, Z.eqb_refl. reflexivity. }
  assert (K : keeps fs fs4) by (eapply keeps_trans; [apply add_xf_keeps|exact K4]).
  unfold find_xf. rewrite Et. intro H.
  assert (A : forall fs5 q5, (if match find_pos (fs_xfs fs4) t' 0 with Some k => negb (21 + Z.of_nat k =? 21 + zlen (fs_xfs fs)) | None => false end
            then exists k, find_pos (fs_xfs fs4) t' 0 = Some k /\ fs5 = set_xfs fs4 (fs_dxfs fs4) (removelast (fs_xfs fs4)) /\ q5 = 21 + Z.of_nat k
            else fs5 = fs4 /\ q5 = 21 + zlen (fs_xfs fs)) -> keeps fs fs5 /\ exists y, xf_at fs5 q5 = Some y /\ core y = core t).
  { intros fs5 q5 C. destruct (find_pos (fs_xfs fs4) t' 0) as [k|] eqn:Ek; [destruct (21 + Z.of_nat k =? _) eqn:Q; cbn [negb] in C|].
    - destruct C as [-> ->]. split; [exact K|]. eauto.
    - destruct C as (k' & Ek' & -> & ->). injection Ek' as <-. pose proof (find_pos_bound _ _ _ _ Ek) as Bk.
      apply find_pos_eq in Ek. destruct Ek as (y & Ny & Ey & _). rewrite Nat.sub_0_r in Ny. apply xf_eqb_core in Ey. unfold zlen in Q.
      split.
      + destruct K as [KX KF KT]. constructor; [|exact KF|exact KT]. intros i x E. destruct (KX i x E) as (z & Ez & Cz).
        exists z. split; [|exact Cz]. pose proof (xf_at_bound _ _ _ E) as B. unfold xf_at, zlen in *. cbn [set_xfs fs_xfs fs_dxfs].
        destruct (i <? 0); [discriminate Ez|]. destruct (i <? 21) eqn:Li; [exact Ez|]. rewrite nth_removelast; [exact Ez|lia].
      + exists y. split; [|congruence]. unfold xf_at. cbn [set_xfs fs_xfs fs_dxfs]. replace (_ <? 0) with false by lia. replace (_ <? 21) with false by lia.
        replace (Z.to_nat (21 + Z.of_nat k - 21)) with k by lia. rewrite nth_removelast; [exact Ny|lia].
    - destruct C as [-> ->]. split; [exact K|]. eauto. }
  assert (B : exists fs5 q5, fs' = xf_mark fs5 q5 /\ q = q5 /\ keeps fs fs5 /\ exists y, xf_at fs5 q5 = Some y /\ core y = core t).
  { destruct (find_pos (fs_xfs fs4) t' 0) as [k|] eqn:Ek; [destruct (21 + Z.of_nat k =? _) eqn:Q|];
      cbn [bind] in H; apply ok_pair in H; destruct H as [<- <-].
    - exists fs4, (21 + zlen (fs_xfs fs)). split; [reflexivity|]. split; [reflexivity|]. apply A. cbn [negb]. auto.
    - eexists _, (21 + Z.of_nat k). split; [reflexivity|]. split; [reflexivity|]. apply A. cbn [negb]. eauto.
    - exists fs4, (21 + zlen (fs_xfs fs)). split; [reflexivity|]. split; [reflexivity|]. apply A. auto. }
  destruct B as (fs5 & q5 & -> & -> & K5 & y & Ey & Cy). split; [eapply keeps_trans; [exact K5|apply xf_mark_keeps]|].
  destruct (kp_xf _ _ (xf_mark_keeps fs5 q5) _ _ Ey) as (z & Ez & Cz). exists z. split; [exact Ez|congruence].
Qed.

(** The copy made by the setters has the attributes of the original. *)
Lemma dup_core fs x fs1 t : xf_dup fs x = (fs1, t) ->
  core t = core (let y := flag_if (match x_font x with Some _ => true | None => false end) ATRFONT
                   (mkXf (x_fmt x) None None (x_ha x) (x_va x) (x_ind x) (x_ori x) (x_fill x) (x_fg x) (x_bg x) (x_locked x) (x_hidden x) (x_wrap x) true true (x_bs x) (x_bc x) (x_flags x) 0) in
                 match x_format x with
                 | Some f => with_format (Some f) (with_fmt f (flag_if (negb (f =? 0)) ATRNUM (with_font (x_font x) y)))
                 | None => with_font (x_font x) y
                 end).
Proof.
  unfold xf_dup. cbv zeta. cbn [xf_set_font]. destruct (x_format x) as [f|]; intro H.
  - apply (f_equal snd) in H. cbn [xf_set_format snd] in H. subst t. reflexivity.
  - apply (f_equal snd) in H. cbn [snd] in H. subst t. reflexivity.
Qed.
Lemma cell_format_finish fs p o fs' q : cell_format fs p o = Ok (fs', q) ->
  exists x fs1 t0 fs2 t, xf_at fs p = Some x /\ xf_dup fs x = (fs1, t0) /\ fmt_apply fs1 t0 o = Ok (fs2, t) /\ finish fs2 t p = Ok (fs', q).
Proof.
  unfold cell_format. destruct (xf_at fs p) as [x|]; [|discriminate]. destruct (xf_dup fs x) as [fs1 t0] eqn:Ed.
  destruct (fmt_apply fs1 t0 o) as [[fs2 t]| |] eqn:E2; cbn [bind]; try discriminate.
  change (add_xf fs2 t) with (fst (add_xf fs2 t), 21 + zlen (fs_xfs fs2)). cbv iota beta. intro H.
  exists x, fs1, t0, fs2, t. auto.
Qed.
Theorem cell_format_keeps fs p o fs' q : cell_format fs p o = Ok (fs', q) ->
  keeps fs fs' /\ exists x t0 fs1 fs2 t y, xf_at fs p = Some x /\ xf_dup fs x = (fs1, t0) /\ fmt_apply fs1 t0 o = Ok (fs2, t)
    /\ xf_at fs' q = Some y /\ core y = core t.
Proof.
  intro H. apply cell_format_finish in H. destruct H as (x & fs1 & t0 & fs2 & t & Ex & Ed & Ef & H).
  apply finish_keeps in H. destruct H as (K & y & Ey & Cy). split.
  - pose proof (dup_keeps fs x) as K1. rewrite Ed in K1. cbn [fst] in K1. eapply keeps_trans; [exact K1|].
    eapply keeps_trans; [eapply fmt_apply_keeps; exact Ef|exact K].
  - exists x, t0, fs1, fs2, t, y. auto.
Qed.
Lemma dup_fonts fs x fs1 t0 j : xf_dup fs x = (fs1, t0) -> font_at fs1 j = font_at (font_mark fs (x_font x)) j.
Proof.
  unfold xf_dup. cbv zeta. cbn [xf_set_font]. intro Ed. destruct (x_font x) as [i|]; (destruct (x_format x) as [f|];
    [apply (f_equal fst) in Ed; cbn [xf_set_format fst fmt_mark fmt_unmark] in Ed; subst fs1; rewrite font_at_fmt_upd; cbn; reflexivity
    |apply (f_equal fst) in Ed; cbn [fst] in Ed; subst fs1; reflexivity]).
Qed.
(** A font setter that gives the cell a font of its own. *)
Lemma cell_font_keeps fs p o fs' q x : xf_at fs p = Some x ->
  (forall i d, x_font x = Some i -> font_at fs i = Some d -> 1 <= fo_use d) ->
  cell_font fs p o = Ok (fs', q) ->
  keeps fs fs' /\ exists fs1 t0 nf d v y, xf_dup fs x = (fs1, t0) /\ nf = 6 + zlen (fs_fonts fs)
    /\ fval fs (match x_font x with Some i => i | None => 0 end) = Some d /\ font_apply o d = Ok v
    /\ xf_at fs' q = Some y /\ core y = core (with_font (Some nf) (set_flag ATRFONT t0)) /\ fval fs' nf = Some v.
Proof.
  intros Ex U H. unfold cell_font in H. unfold set_cell_font in H. rewrite Ex in H.
  destruct (xf_dup fs x) as [fs1 t0] eqn:Ed. pose proof (dup_keeps fs x) as K1. pose proof (xf_dup_level fs x) as L1. rewrite Ed in K1, L1. cbn [fst] in K1, L1.
  assert (Ft : x_font t0 = x_font x).
  { pose proof (dup_core _ _ _ _ Ed) as C. apply (f_equal x_font) in C. cbv zeta in C. destruct (x_format x) as [f|]; [destruct (negb (f =? 0))|]; exact C. }
  assert (Z1 : zlen (fs_fonts fs1) = zlen (fs_fonts fs)) by (unfold zlen; rewrite (lv_fonts _ _ L1); reflexivity).
  (* the font copied *)
  set (src := match x_font x with Some i => i | None => 0 end).
  assert (B : exists d, font_at fs1 src = Some d /\
     (let* (fs1', q1) :=
        (let* (fs2, t) := Ok (xf_set_font (fst (add_font fs1 (fo_val d))) t0 (Some (6 + zlen (fs_fonts fs1)))) in
         let (fs3, pt) := add_xf fs2 t in
         let* (fs5, q5) := find_xf (xf_unmark fs3 p) pt in Ok (xf_mark fs5 q5, q5)) in
      match xf_at fs1' q1 with
      | Some x0 => match x_font x0 with Some i => let* fs2' := font_set fs1' i o in Ok (fs2', q1) | None => UB end
      | None => UB end) = Ok (fs', q)).
  { subst src. rewrite Ft in H. destruct (x_font x) as [i|] eqn:Ei.
    - destruct (font_at fs1 i) as [d|] eqn:Efd; [|discriminate H]. exists d. split; [reflexivity|].
      assert (Hu : (1 <? fo_use d) = true).
      { (* the copy marked the font once more *)
        pose proof (fun j => dup_fonts _ _ _ _ j Ed) as Ef. rewrite Ei in Ef.
        rewrite Ef in Efd. cbn [font_mark] in Efd. rewrite font_at_upd, Z.eqb_refl in Efd.
        destruct (font_at fs i) as [d0|] eqn:E0; cbn [option_map] in Efd; [|discriminate Efd]. injection Efd as <-.
        specialize (U i d0 eq_refl E0). cbn [fo_mark fo_use]. unfold use_up. lia. }
      rewrite Hu in H. exact H.
    - destruct (font_at fs1 0) as [d|] eqn:Efd; [|discriminate H]. exists d. split; [reflexivity|].
      exact H. }
  clear H. destruct B as (d & Efd & H).
  destruct (xf_set_font (fst (add_font fs1 (fo_val d))) t0 (Some (6 + zlen (fs_fonts fs1)))) as [fs2 t] eqn:Es.
  assert (Et : t = with_font (Some (6 + zlen (fs_fonts fs1))) (set_flag ATRFONT t0)) by (apply (f_equal snd) in Es; cbn in Es; auto).
  assert (K2 : keeps (fst (add_font fs1 (fo_val d))) fs2).
  { pose proof (set_font_keeps (fst (add_font fs1 (fo_val d))) t0 (Some (6 + zlen (fs_fonts fs1)))) as K. rewrite Es in K. exact K. }
  cbn [bind] in H. change (add_xf fs2 t) with (fst (add_xf fs2 t), 21 + zlen (fs_xfs fs2)) in H. cbv iota beta in H.
  assert (F : exists fs6, finish fs2 t p = Ok (fs6, q) /\ match xf_at fs6 q with
      | Some x0 => match x_font x0 with Some i => font_set fs6 i o | None => UB end | None => UB end = Ok fs').
  { change ((let* (fs1', q1) := finish fs2 t p in
      match xf_at fs1' q1 with
      | Some x0 => match x_font x0 with Some i => let* fs2' := font_set fs1' i o in Ok (fs2', q1) | None => UB end
      | None => UB end) = Ok (fs', q)) in H.
    destruct (finish fs2 t p) as [[fs6 q6]| |] eqn:Ef; cbn [bind] in H; try discriminate H.
    destruct (xf_at fs6 q6) as [x0|] eqn:E6; [|discriminate H]. destruct (x_font x0) as [i|] eqn:E7; [|discriminate H].
    destruct (font_set fs6 i o) as [fs7| |] eqn:E8; cbn [bind] in H; try discriminate H. apply ok_pair in H. destruct H as [-> ->].
    exists fs6. split; [reflexivity|]. rewrite E6, E7. exact E8. }
  clear H. destruct F as (fs6 & Hf & H). apply finish_keeps in Hf. destruct Hf as (K3 & y & Ey & Cy). rewrite Ey in H.
  assert (Fy : x_font y = Some (6 + zlen (fs_fonts fs1))) by (apply (f_equal x_font) in Cy; rewrite Et in Cy; exact Cy).
  rewrite Fy in H. unfold font_set in H. destruct (font_at fs6 (6 + zlen (fs_fonts fs1))) as [fo|] eqn:E6; [|discriminate H].
  destruct (font_apply o (fo_val fo)) as [v| |] eqn:Ev; cbn [bind] in H; try discriminate H.
  apply (f_equal (fun r => match r with Ok a => a | _ => fs6 end)) in H. cbn beta iota in H. subst fs'.
  assert (Vd : fval fs6 (6 + zlen (fs_fonts fs1)) = Some (fo_val d)).
  { apply (kp_font _ _ K3). apply (kp_font _ _ K2). unfold fval. rewrite font_at_add, Z.eqb_refl. reflexivity. }
  unfold fval in Vd. rewrite E6 in Vd. cbn [option_map] in Vd. injection Vd as Vd. rewrite Vd in Ev.
  assert (Kall : keeps fs fs6).
  { eapply keeps_trans; [exact K1|]. eapply keeps_trans; [apply add_font_keeps|]. eapply keeps_trans; [exact K2|exact K3]. }
  rewrite Z1 in *.
  split.
  - destruct Kall as [KX KF KT]. constructor.
    + intros i z E. rewrite xf_at_font_upd. auto.
    + intros i z E. pose proof E as E'. apply KF in E. unfold fval in *. rewrite font_at_upd. destruct (6 + zlen (fs_fonts fs) =? i) eqn:Q; [|exact E].
      exfalso. destruct (font_at fs i) as [o0|] eqn:E0; [|discriminate E']. apply font_at_bound in E0. lia.
    + unfold fstrs in *. rewrite fmts_font_upd. exact KT.
  - exists fs1, t0, (6 + zlen (fs_fonts fs)), (fo_val d), v, y. split; [reflexivity|]. split; [reflexivity|]. split.
    + (* value of the source font before *)
      unfold fval. destruct (font_at fs src) as [d0|] eqn:E0.
      * assert (V0 : fval fs src = Some (fo_val d0)) by (unfold fval; rewrite E0; reflexivity). apply (kp_font _ _ K1) in V0. unfold fval in V0. rewrite Efd in V0. exact (eq_sym V0).
      * exfalso. (* fonts do not appear *)
        assert (N : forall j, font_at fs j = None -> font_at fs1 j = None).
        { intros j Ej. pose proof (dup_fonts _ _ _ _ j Ed) as Ef.
          rewrite Ef. destruct (x_font x) as [i|]; cbn [font_mark]; [|exact Ej]. rewrite font_at_upd. destruct (i =? j); rewrite Ej; reflexivity. }
        rewrite (N _ E0) in Efd. discriminate Efd.
    + split; [exact Ev|]. split; [rewrite xf_at_font_upd; exact Ey|]. split; [rewrite Cy, Et; reflexivity|].
      unfold fval. rewrite font_at_upd, Z.eqb_refl, E6. reflexivity.
Qed.
