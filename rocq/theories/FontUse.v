(** Usage counters of fonts: in a careful history (formats are given to cells while they
    are new, in use, or fontless) the counter of a font is at least the number of format
    objects that rely on it, so that a cell's font setter copies the font. *)
From Coq Require Import ZArith List Bool Lia ZifyBool ZifyNat Permutation.
From Verif Require Import Bytes UnitModel RecModel SheetModel XfModel WbModel XfInv Looks ApiModel ApiInv SpecApi ApiEff XfTrace SpecXfOps SpecLook LookInv RefTrace LookStep.
Import ListNotations.
Local Open Scope Z_scope.

(* ------------------------------------------------------------------ *)
(** * Sums *)

Fixpoint total (f : Z -> Z) (n : nat) : Z := match n with O => 0 | S m => total f m + f (Z.of_nat m) end.
Lemma total_same f g n : (forall j, f j = g j) -> total f n = total g n.
Proof. intro H. induction n as [|n IH]; cbn [total]; [reflexivity|]. rewrite IH, H. reflexivity. Qed.
Lemma total_mono f g n : (forall j, f j <= g j) -> total f n <= total g n.
Proof. intro H. induction n as [|n IH]; cbn [total]; [lia|]. specialize (H (Z.of_nat n)). lia. Qed.
Lemma total_at f g n p : (forall j, j <> p -> f j = g j) -> total f n = total g n + (if (0 <=? p) && (p <? Z.of_nat n) then f p - g p else 0)%bool.
Proof.
  intro H. induction n as [|n IH]; cbn [total].
  - replace ((0 <=? p) && (p <? Z.of_nat 0))%bool with false by lia. lia.
  - rewrite IH. destruct (Z.eq_dec (Z.of_nat n) p) as [<-|N].
    + replace ((0 <=? Z.of_nat n) && (Z.of_nat n <? Z.of_nat n))%bool with false by lia.
      replace ((0 <=? Z.of_nat n) && (Z.of_nat n <? Z.of_nat (S n)))%bool with true by lia. lia.
    + rewrite (H (Z.of_nat n) N). replace ((0 <=? p) && (p <? Z.of_nat (S n)))%bool with ((0 <=? p) && (p <? Z.of_nat n))%bool by lia. lia.
Qed.
Lemma total_grow f n m : (forall j, 0 <= f j) -> (n <= m)%nat -> total f n <= total f m.
Proof. intros P. induction 1; [lia|]. cbn [total]. specialize (P (Z.of_nat m)). lia. Qed.
Lemma total_nonneg f n : (forall j, 0 <= f j) -> 0 <= total f n.
Proof. intro P. induction n as [|n IH]; cbn [total]; [lia|]. specialize (P (Z.of_nat n)). lia. Qed.

(* ------------------------------------------------------------------ *)
(** * The invariant *)

Definition b2z (b : bool) : Z := if b then 1 else 0.
Definition mem (j : Z) (l : list Z) : bool := existsb (Z.eqb j) l.
Lemma mem_in j l : mem j l = true <-> In j l.
Proof. unfold mem. rewrite existsb_exists. split; [intros (x & J & E); assert (j = x) by lia; subst; exact J|intro J; exists j; split; [exact J|lia]]. Qed.
Definition is_font (p : option Z) (i : Z) : bool := match p with Some j => j =? i | None => false end.
(** How often the format object [j] relies on the font [i]: once while it is new, once while it is used. *)
Definition relies (fs : fstate) (new : list Z) (i j : Z) : Z :=
  match xf_at fs j with
  | Some x => if is_font (x_font x) i then b2z (mem j new) + b2z (0 <? x_use x) else 0
  | None => 0
  end.
Lemma relies_pos fs new i j : 0 <= relies fs new i j.
Proof. unfold relies. destruct (xf_at fs j) as [x|]; [|lia]. destruct (is_font _ _); [|lia]. unfold b2z. destruct (mem j new), (0 <? x_use x); lia. Qed.
Definition cnt (R : list Z) (j : Z) : Z := Z.of_nat (count_occ Z.eq_dec R j).

(** [R] are the references held by cells and columns, [new] the format objects never
    given to anything, [E] the font held by a format object under construction. *)
Record uses (fs : fstate) (R new : list Z) (E : option Z) : Prop := {
  us_xf : forall j x, 21 <= j -> xf_at fs j = Some x -> x_use x = cnt R j;
  us_dxf : forall j x, j < 21 -> xf_at fs j = Some x -> 2 + cnt R j <= x_use x;
  us_ref : forall j, In j R -> xf_at fs j <> None;
  us_font : forall j x i, xf_at fs j = Some x -> x_font x = Some i -> font_at fs i <> None;
  us_tmp : forall i, E = Some i -> font_at fs i <> None;
  us_new : forall j, In j new -> 21 <= j /\ xf_at fs j <> None;
  us_hold : forall n i d, font_at fs i = Some d -> total (relies fs new i) n + b2z (is_font E i) <= fo_use d }.

Lemma cnt_cons_eq R j : cnt (j :: R) j = cnt R j + 1.
Proof. unfold cnt. rewrite count_occ_cons_eq by reflexivity. lia. Qed.
Lemma cnt_cons_neq R i j : i <> j -> cnt (i :: R) j = cnt R j.
Proof. intro N. unfold cnt. rewrite count_occ_cons_neq by exact N. reflexivity. Qed.
Lemma cnt_pos R j : 0 <= cnt R j.
Proof. unfold cnt. lia. Qed.
Lemma cnt_in R j : In j R -> 1 <= cnt R j.
Proof. intro J. unfold cnt. apply (count_occ_In Z.eq_dec) in J. lia. Qed.
Lemma cnt_none R j : ~ In j R -> cnt R j = 0.
Proof. intro J. unfold cnt. apply (count_occ_not_In Z.eq_dec) in J. lia. Qed.

Lemma uses_perm fs R R' new E : Permutation R R' -> uses fs R new E -> uses fs R' new E.
Proof.
  intros P [A B C D T F H]. assert (K : forall j, cnt R' j = cnt R j) by (intro j; unfold cnt; rewrite (Permutation_count_occ Z.eq_dec) in P; rewrite P; reflexivity).
  constructor; auto.
  - intros j x L X. rewrite K. eauto.
  - intros j x L X. rewrite K. eauto.
  - intros j J. apply C. eapply Permutation_in; [symmetry; exact P|exact J].
Qed.
(** Changes to the fonts only. *)
Lemma uses_fonts fs fs' R new E E' : (forall j, xf_at fs' j = xf_at fs j) ->
  (forall i, font_at fs i <> None -> font_at fs' i <> None) ->
  (forall i, E' = Some i -> font_at fs' i <> None) ->
  (forall i d', font_at fs' i = Some d' -> (exists d, font_at fs i = Some d /\ fo_use d + b2z (is_font E' i) <= fo_use d' + b2z (is_font E i))
     \/ (font_at fs i = None /\ b2z (is_font E' i) <= fo_use d')) ->
  uses fs R new E -> uses fs' R new E'.
Proof.
  intros X K T U [A B C D _ F H]. assert (Rl : forall i j, relies fs' new i j = relies fs new i j) by (intros; unfold relies; rewrite X; reflexivity).
  constructor; auto.
  - intros j x L. rewrite X. eauto.
  - intros j x L. rewrite X. eauto.
  - intros j J. rewrite X. auto.
  - intros j x i. rewrite X. eauto.
  - intros j J. rewrite X. auto.
  - intros n i d' Ed. rewrite (total_same _ _ n (Rl i)). destruct (U i d' Ed) as [(d & Ed0 & L)|[N L]].
    + specialize (H n i d Ed0). lia.
    + rewrite (total_same _ (fun _ => 0) n).
      2:{ intro j. unfold relies. destruct (xf_at fs j) as [x|] eqn:Ex; [|reflexivity]. destruct (x_font x) as [k|] eqn:Ef; [|reflexivity]. cbn [is_font].
          destruct (k =? i) eqn:Ek; [|reflexivity]. assert (k = i) by lia. subst k. exfalso. apply (D _ _ _ Ex Ef). exact N. }
      assert (Z0 : total (fun _ => 0) n = 0) by (clear; induction n as [|n IH]; cbn [total]; lia). lia.
Qed.
(** Changes that touch neither. *)
Lemma uses_same fs fs' R new E : (forall j, xf_at fs' j = xf_at fs j) -> (forall i, font_at fs' i = font_at fs i) -> uses fs R new E -> uses fs' R new E.
Proof.
  intros X F U. apply (uses_fonts fs fs' R new E E); auto.
  - intros i. rewrite F. auto.
  - intros i Ei. rewrite F. apply (us_tmp _ _ _ _ U i Ei).
  - intros i d'. rewrite F. intro Ed. left. exists d'. split; [exact Ed|lia].
Qed.
Lemma uses_fmt_upd fs i f R new E : uses fs R new E -> uses (fmt_upd fs i f) R new E.
Proof. apply uses_same; intro j; [apply xf_at_fmt_upd|apply font_at_fmt_upd]. Qed.
Lemma uses_fmt_mark fs p R new E : uses fs R new E -> uses (fmt_mark fs p) R new E.
Proof. destruct p; [apply uses_fmt_upd|auto]. Qed.
Lemma uses_fmt_unmark fs p R new E : uses fs R new E -> uses (fmt_unmark fs p) R new E.
Proof. destruct p; [apply uses_fmt_upd|auto]. Qed.

(** One format object changes (its font, its usage, or being new). *)
Lemma uses_at fs p f R' new' E : forall R new, uses fs R new E ->
  (forall x, xf_at fs p = Some x -> x_font (f x) = x_font x /\ (if p <? 21 then 2 + cnt R' p <= x_use (f x) else x_use (f x) = cnt R' p)) ->
  (forall j, j <> p -> cnt R' j = cnt R j) -> (forall j, j <> p -> mem j new' = mem j new) -> (In p new' -> In p new) ->
  (In p R' -> xf_at fs p <> None) ->
  (forall x i, xf_at fs p = Some x -> x_font x = Some i -> b2z (mem p new') + b2z (0 <? x_use (f x)) <= b2z (mem p new) + b2z (0 <? x_use x)) ->
  uses (xf_upd fs p f) R' new' E.
Proof.
  intros R new [A B C D T F H] Hx Hc Hm Hn Hp Hh.
  constructor.
  - intros j x L. rewrite xf_at_upd_all. destruct (p =? j) eqn:Ep.
    + assert (p = j) by lia. subst j. destruct (xf_at fs p) as [y|] eqn:Ey; [|discriminate]. cbn [option_map]. intro X. injection X as <-.
      destruct (Hx y eq_refl) as [_ K]. replace (p <? 21) with false in K by lia. exact K.
    + intro X. rewrite Hc by lia. eauto.
  - intros j x L. rewrite xf_at_upd_all. destruct (p =? j) eqn:Ep.
    + assert (p = j) by lia. subst j. destruct (xf_at fs p) as [y|] eqn:Ey; [|discriminate]. cbn [option_map]. intro X. injection X as <-.
      destruct (Hx y eq_refl) as [_ K]. replace (p <? 21) with true in K by lia. exact K.
    + intro X. rewrite Hc by lia. eauto.
  - intros j J. rewrite xf_at_upd_all. destruct (p =? j) eqn:Ep.
    + assert (p = j) by lia. subst j. specialize (Hp J). destruct (xf_at fs p); [discriminate|congruence].
    + apply C. apply (count_occ_In Z.eq_dec) in J. apply (count_occ_In Z.eq_dec). specialize (Hc j ltac:(lia)). unfold cnt in Hc. lia.
  - intros j x i. rewrite xf_at_upd_all, font_at_xf_upd. destruct (p =? j) eqn:Ep.
    + destruct (xf_at fs j) as [y|] eqn:Ey; [|discriminate]. cbn [option_map]. intro X. injection X as <-. assert (p = j) by lia. subst j.
      destruct (Hx y Ey) as [-> _]. eauto.
    + eauto.
  - intros i Ei. rewrite font_at_xf_upd. auto.
  - intros j J. rewrite xf_at_upd_all. destruct (p =? j) eqn:Ep.
    + assert (p = j) by lia. subst j. destruct (F p (Hn J)) as [L N]. split; [exact L|]. destruct (xf_at fs p); [discriminate|congruence].
    + apply F. apply mem_in. rewrite <- Hm by lia. apply mem_in. exact J.
  - intros n i d. rewrite font_at_xf_upd. intro Ed. specialize (H n i d Ed).
    assert (total (relies (xf_upd fs p f) new' i) n <= total (relies fs new i) n); [|lia]. apply total_mono. intro j. unfold relies.
    rewrite xf_at_upd_all. destruct (p =? j) eqn:Ep.
    + assert (p = j) by lia. subst j. destruct (xf_at fs p) as [y|] eqn:Ey; cbn [option_map]; [|lia]. destruct (Hx y eq_refl) as [-> _].
      destruct (x_font y) as [k|] eqn:Ef; cbn [is_font]; [|lia]. destruct (k =? i) eqn:Ek; [|lia]. eapply Hh; eauto.
    + rewrite Hm by lia. lia.
Qed.

Definition drop (i : Z) (l : list Z) : list Z := filter (fun j => negb (j =? i)) l.
Lemma drop_in i l j : In j (drop i l) <-> In j l /\ j <> i.
Proof. unfold drop. rewrite filter_In. split; intros [A B]; split; auto; lia. Qed.
Lemma mem_drop i l j : j <> i -> mem j (drop i l) = mem j l.
Proof. intro N. apply eq_true_iff_eq. rewrite !mem_in, drop_in. tauto. Qed.
Lemma mem_dropped i l : mem i (drop i l) = false.
Proof. apply not_true_is_false. rewrite mem_in, drop_in. tauto. Qed.
Lemma use_up_pos n : use_up n = n + 1. Proof. reflexivity. Qed.

(** A format object is given to one more cell. *)
Definition attachable (fs : fstate) (R new : list Z) (i : Z) : Prop :=
  In i R \/ i < 21 \/ In i new \/ forall x, xf_at fs i = Some x -> x_font x = None.
Lemma uses_mark fs i R new E : valid fs i -> attachable fs R new i -> uses fs R new E -> uses (xf_mark fs i) (i :: R) (drop i new) E.
Proof.
  intros V At U. unfold xf_mark. apply (uses_at fs i _ _ _ E R new U).
  - intros x Ex. split; [destruct x; reflexivity|]. rewrite cnt_cons_eq. change (x_use (with_use (use_up (x_use x)) x)) with (x_use x + 1).
    destruct (i <? 21) eqn:L; [pose proof (us_dxf _ _ _ _ U i x ltac:(lia) Ex)|pose proof (us_xf _ _ _ _ U i x ltac:(lia) Ex)]; lia.
  - intros j N. apply cnt_cons_neq. congruence.
  - intros j N. apply mem_drop. exact N.
  - intro J. apply drop_in in J. tauto.
  - intros _. exact V.
  - intros x k Ex Ek. rewrite mem_dropped. change (x_use (with_use (use_up (x_use x)) x)) with (x_use x + 1).
    destruct At as [J|[J|[J|J]]].
    + assert (0 < x_use x). { destruct (Z.lt_ge_cases i 21); [pose proof (us_dxf _ _ _ _ U i x ltac:(lia) Ex); pose proof (cnt_pos R i)|pose proof (us_xf _ _ _ _ U i x ltac:(lia) Ex); pose proof (cnt_in R i J)]; lia. }
      unfold b2z. destruct (mem i new), (0 <? x_use x + 1) eqn:E1, (0 <? x_use x) eqn:E2; lia.
    + pose proof (us_dxf _ _ _ _ U i x ltac:(lia) Ex). pose proof (cnt_pos R i). unfold b2z. destruct (mem i new), (0 <? x_use x + 1) eqn:E1, (0 <? x_use x) eqn:E2; lia.
    + apply mem_in in J. rewrite J. unfold b2z. destruct (0 <? x_use x + 1) eqn:E1, (0 <? x_use x) eqn:E2; lia.
    + rewrite (J x Ex) in Ek. discriminate Ek.
Qed.
Lemma font_at_unmark fs p j : font_at (font_unmark fs p) j = if is_font p j then option_map fo_unmark (font_at fs j) else font_at fs j.
Proof. destruct p; cbn [font_unmark is_font]; [apply font_at_upd|reflexivity]. Qed.
Lemma font_at_mark fs p j : font_at (font_mark fs p) j = if is_font p j then option_map fo_mark (font_at fs j) else font_at fs j.
Proof. destruct p; cbn [font_mark is_font]; [apply font_at_upd|reflexivity]. Qed.
Lemma xf_at_funmark fs p j : xf_at (font_unmark fs p) j = xf_at fs j.
Proof. destruct p; [apply xf_at_font_upd|reflexivity]. Qed.
Lemma xf_at_fmark fs p j : xf_at (font_mark fs p) j = xf_at fs j.
Proof. destruct p; [apply xf_at_font_upd|reflexivity]. Qed.
Lemma use_down_le n : n - 1 <= use_down n.
Proof. unfold use_down. destruct (n =? 0) eqn:E; lia. Qed.

(** A cell lets go of its format object. *)
Lemma uses_unmark fs i R new E : uses fs (i :: R) new E -> uses (xf_unmark fs i) R new E.
Proof.
  intro U. pose proof (us_ref _ _ _ _ U i (or_introl eq_refl)) as V. unfold xf_unmark. destruct (xf_at fs i) as [x|] eqn:Ex; [|congruence].
  assert (Pos : 1 <= x_use x).
  { destruct (Z.lt_ge_cases i 21); [pose proof (us_dxf _ _ _ _ U i x ltac:(lia) Ex)|pose proof (us_xf _ _ _ _ U i x ltac:(lia) Ex)]; rewrite cnt_cons_eq in *; pose proof (cnt_pos R i); lia. }
  assert (Dn : use_down (x_use x) = x_use x - 1) by (unfold use_down; replace (x_use x =? 0) with false by lia; reflexivity).
  cbv zeta. rewrite Dn.
  assert (U1 : uses (xf_upd fs i (with_use (x_use x - 1))) R new E).
  { apply (uses_at fs i _ _ _ E (i :: R) new U).
    - intros y Ey. rewrite Ex in Ey. injection Ey as <-. split; [destruct x; reflexivity|]. change (x_use (with_use (x_use x - 1) x)) with (x_use x - 1).
      destruct (i <? 21) eqn:L; [pose proof (us_dxf _ _ _ _ U i x ltac:(lia) Ex)|pose proof (us_xf _ _ _ _ U i x ltac:(lia) Ex)]; rewrite cnt_cons_eq in *; lia.
    - intros j N. symmetry. apply cnt_cons_neq. congruence.
    - reflexivity.
    - auto.
    - intros _. congruence.
    - intros y k Ey _. rewrite Ex in Ey. injection Ey as <-. change (x_use (with_use (x_use x - 1) x)) with (x_use x - 1).
      unfold b2z. destruct (mem i new), (0 <? x_use x - 1) eqn:E1, (0 <? x_use x) eqn:E2; lia. }
  destruct (x_use x - 1 =? 0) eqn:E0; [|exact U1]. apply uses_fmt_unmark.
  destruct (x_font x) as [k|] eqn:Ek; [|exact U1]. cbn [font_unmark].
  destruct U1 as [A B C D T F H]. assert (Ku : x_use x = 1) by lia.
  constructor.
  - intros j y. rewrite xf_at_font_upd. auto.
  - intros j y. rewrite xf_at_font_upd. auto.
  - intros j. rewrite xf_at_font_upd. auto.
  - intros j y m. rewrite xf_at_font_upd, font_at_upd. intros X1 X2. specialize (D j y m X1 X2). destruct (k =? m); [|exact D]. destruct (font_at _ m); [discriminate|congruence].
  - intros m Em. specialize (T m Em). rewrite font_at_upd. destruct (k =? m); [|exact T]. destruct (font_at _ m); [discriminate|congruence].
  - intros j. rewrite xf_at_font_upd. auto.
  - intros n m d. rewrite font_at_upd. destruct (k =? m) eqn:Ekm.
    2:{ intro Ed. specialize (H n m d Ed). erewrite total_same; [exact H|]. intro j. unfold relies. rewrite xf_at_font_upd. reflexivity. }
    assert (k = m) by lia. subst m. rewrite font_at_xf_upd. destruct (font_at fs k) as [d0|] eqn:Ed0; [|discriminate]. cbn [option_map]. intro Ed. injection Ed as <-.
    change (fo_use (fo_unmark d0)) with (use_down (fo_use d0)). pose proof (use_down_le (fo_use d0)) as Dl.
    pose proof (us_hold _ _ _ _ U (Nat.max n (S (Z.to_nat i))) k d0 Ed0) as H0.
    set (f' := relies (font_upd (xf_upd fs i (with_use (x_use x - 1))) k fo_unmark) new k).
    assert (Nn : total f' n <= total f' (Nat.max n (S (Z.to_nat i)))) by (apply total_grow; [intro; apply relies_pos|lia]).
    assert (Ne : forall j, j <> i -> f' j = relies fs new k j).
    { intros j N. unfold f', relies. rewrite xf_at_font_upd, xf_at_upd_all. replace (i =? j) with false by lia. reflexivity. }
    pose proof (xf_at_bound _ _ _ Ex) as [Bi _].
    pose proof (total_at f' (relies fs new k) (Nat.max n (S (Z.to_nat i))) i Ne) as Et.
    replace ((0 <=? i) && (i <? Z.of_nat (Nat.max n (S (Z.to_nat i)))))%bool with true in Et by lia.
    assert (Ei : f' i = relies fs new k i - 1).
    { unfold f', relies. rewrite xf_at_font_upd, xf_at_upd_all, Z.eqb_refl, Ex. cbn [option_map]. change (x_font (with_use (x_use x - 1) x)) with (x_font x).
      change (x_use (with_use (x_use x - 1) x)) with (x_use x - 1). rewrite Ek. cbn [is_font]. rewrite Z.eqb_refl, Ku. unfold b2z. destruct (mem i new); reflexivity. }
    lia.
Qed.

(** A format object under construction goes to a cell. *)
Lemma uses_mark_tmp fs q y R new E : xf_at fs q = Some y -> x_font y = E -> uses fs R new E -> uses (xf_mark fs q) (q :: R) new None.
Proof.
  intros Ey Ef U. pose proof U as [A B C D T F H]. pose proof (xf_at_bound _ _ _ Ey) as [Bq _]. unfold xf_mark.
  assert (X : forall j, xf_at (xf_upd fs q (fun x => with_use (use_up (x_use x)) x)) j = if q =? j then option_map (fun x => with_use (x_use x + 1) x) (xf_at fs j) else xf_at fs j)
    by (intro j; apply xf_at_upd_all).
  constructor.
  - intros j x L. rewrite X. destruct (q =? j) eqn:Q.
    + assert (q = j) by lia. subst j. rewrite Ey. cbn [option_map]. intro K. injection K as <-. rewrite cnt_cons_eq, <- (A q y L Ey). reflexivity.
    + rewrite cnt_cons_neq by lia. auto.
  - intros j x L. rewrite X. destruct (q =? j) eqn:Q.
    + assert (q = j) by lia. subst j. rewrite Ey. cbn [option_map]. intro K. injection K as <-. rewrite cnt_cons_eq. pose proof (B q y L Ey) as B'.
      change (x_use (with_use (x_use y + 1) y)) with (x_use y + 1). lia.
    + rewrite cnt_cons_neq by lia. auto.
  - intros j J. rewrite X. destruct (q =? j) eqn:Q.
    + assert (q = j) by lia. subst j. rewrite Ey. discriminate.
    + destruct J as [J|J]; [lia|auto].
  - intros j x i. rewrite X, font_at_xf_upd. destruct (q =? j) eqn:Q; [|eauto].
    assert (q = j) by lia. subst j. rewrite Ey. cbn [option_map]. intro K. injection K as <-. change (x_font (with_use (x_use y + 1) y)) with (x_font y). eauto.
  - discriminate.
  - intros j J. destruct (F j J) as [L N]. split; [exact L|]. rewrite X. destruct (q =? j) eqn:Q; [|exact N]. destruct (xf_at fs j); [discriminate|congruence].
  - intros n i d. rewrite font_at_xf_upd. intro Ed. cbn [is_font b2z]. specialize (H n i d Ed).
    match goal with |- total ?f n + 0 <= _ => assert (Ne : forall j, j <> q -> f j = relies fs new i j);
      [intros j N; unfold relies; rewrite X; replace (q =? j) with false by lia; reflexivity|pose proof (total_at f (relies fs new i) n q Ne) as Et;
       assert (K : f q - relies fs new i q <= b2z (is_font E i))] end.
    { unfold relies. rewrite X, Z.eqb_refl, Ey. cbn [option_map]. change (x_font (with_use (x_use y + 1) y)) with (x_font y). rewrite Ef.
      change (x_use (with_use (x_use y + 1) y)) with (x_use y + 1). destruct (is_font E i); unfold b2z; [|lia].
      destruct (mem q new), (0 <? x_use y + 1), (0 <? x_use y); lia. }
    destruct ((0 <=? q) && (q <? Z.of_nat n))%bool; [lia|]. unfold b2z in H. destruct (is_font E i); lia.
Qed.
Lemma uses_add fs t R new E : x_use t = 0 -> x_font t = E -> uses fs R new E -> uses (fst (add_xf fs t)) R new E.
Proof.
  intros U0 Ef U. pose proof U as [A B C D T F H]. set (N := 21 + zlen (fs_xfs fs)).
  assert (NN : xf_at fs N = None).
  { destruct (xf_at fs N) as [y|] eqn:Ey; [|reflexivity]. apply xf_at_bound in Ey. destruct Ey as [_ Ey]. unfold N in Ey. pose proof (zlen_nonneg _ (fs_xfs fs)). lia. }
  assert (X : forall j, xf_at (fst (add_xf fs t)) j = if j =? N then Some t else xf_at fs j) by (intro; apply xf_at_add).
  assert (Fo : forall i, font_at (fst (add_xf fs t)) i = font_at fs i) by reflexivity.
  assert (NR : ~ In N R) by (intro J; apply (C _ J); exact NN).
  pose proof (zlen_nonneg _ (fs_xfs fs)) as Zl. assert (Nb : 21 <= N) by (unfold N; lia). clearbody N.
  constructor.
  - intros j x L. rewrite X. destruct (j =? N) eqn:Q; [|auto]. intro K. injection K as <-. assert (j = N) by lia. subst j. rewrite U0. symmetry. apply cnt_none. exact NR.
  - intros j x L. rewrite X. replace (j =? N) with false by lia. auto.
  - intros j J. rewrite X. destruct (j =? N); [discriminate|auto].
  - intros j x i. rewrite X, Fo. destruct (j =? N); [|eauto]. intro K. injection K as <-. rewrite Ef. apply T.
  - intros i. rewrite Fo. apply T.
  - intros j J. destruct (F j J). split; [auto|]. rewrite X. destruct (j =? N); [discriminate|auto].
  - intros n i d. rewrite Fo. intro Ed. specialize (H n i d Ed). erewrite total_same; [exact H|]. intro j. unfold relies. rewrite X. destruct (j =? N) eqn:Q; [|reflexivity].
    assert (j = N) by lia. subst j. rewrite NN. destruct (is_font (x_font t) i); [|reflexivity]. rewrite U0. unfold b2z. destruct (mem N new) eqn:M; [|reflexivity].
    apply mem_in in M. destruct (F N M) as [_ F']. contradiction.
Qed.
Lemma font_handle_at fs f i : font_handle fs f = true -> f = Some i -> font_at fs i <> None.
Proof. intros H ->. cbn [font_handle] in H. destruct (font_at fs i); [discriminate|discriminate H]. Qed.
Lemma flag_if_font b m x : x_font (flag_if b m x) = x_font x /\ x_use (flag_if b m x) = x_use x.
Proof. unfold flag_if, set_flag. destruct b, x; split; reflexivity. Qed.
Lemma uses_set_font fs t f R new : font_handle fs f = true -> uses fs R new (x_font t) ->
  uses (fst (xf_set_font fs t f)) R new f /\ x_font (snd (xf_set_font fs t f)) = f /\ x_use (snd (xf_set_font fs t f)) = x_use t.
Proof.
  intros Hh U. unfold xf_set_font. cbv zeta. cbn [fst snd]. destruct (flag_if_font (match f with Some _ => true | None => false end) ATRFONT t) as [E1 E2]. rewrite E1. split; [|split].
  - apply (uses_fonts fs _ R new (x_font t) f); [| | | |exact U].
    + intro j. rewrite xf_at_fmark, xf_at_funmark. reflexivity.
    + intros i N. rewrite font_at_mark, font_at_unmark. destruct (is_font f i), (is_font (x_font t) i), (font_at fs i); try discriminate; congruence.
    + intros i ->. pose proof (font_handle_at _ _ i Hh eq_refl) as N. rewrite font_at_mark, font_at_unmark. destruct (is_font (Some i) i), (is_font (x_font t) i), (font_at fs i); try discriminate; congruence.
    + intros i d'. rewrite font_at_mark, font_at_unmark. destruct (font_at fs i) as [d|]; [|destruct (is_font f i), (is_font (x_font t) i); discriminate]. intro K. left. exists d. split; [reflexivity|].
      pose proof (use_down_le (fo_use d)). destruct (is_font f i), (is_font (x_font t) i); cbn [option_map] in K; injection K as <-; unfold b2z; cbn [fo_use fo_mark fo_unmark]; unfold use_up; lia.
  - destruct (flag_if _ _ _). reflexivity.
  - rewrite <- E2. destruct (flag_if _ _ _). reflexivity.
Qed.
Lemma dup_use fs x fs1 t : xf_dup fs x = (fs1, t) -> x_font t = x_font x /\ x_use t = 0 /\ forall j, xf_at fs1 j = xf_at fs j.
Proof.
  unfold xf_dup. cbv zeta. intro H. set (x0 := mkXf _ _ _ _ _ _ _ _ _ _ _ _ _ _ _ _ _ _ _) in H.
  assert (E0 : x_font x0 = None /\ x_use x0 = 0) by (split; reflexivity). clearbody x0. destruct E0 as [E0 E1].
  unfold xf_set_font in H. cbv zeta in H. destruct (flag_if_font (match x_font x with Some _ => true | None => false end) ATRFONT x0) as [F1 F2].
  rewrite F1, E0 in H. cbn [font_unmark] in H. destruct (flag_if _ ATRFONT x0) as [a1 a2 a3 a4 a5 a6 a7 a8 a9 b1 b2 b3 b4 b5 b6 b7 b8 b9 c1] eqn:Q. cbn [x_use] in F2.
  destruct (x_format x) as [f|].
  - unfold xf_set_format in H. apply pair_equal_spec in H. destruct H as [<- <-]. split; [|split].
    + unfold with_format, with_fmt, flag_if, set_flag, with_font. destruct (negb (f =? 0)); reflexivity.
    + unfold with_format, with_fmt, flag_if, set_flag, with_font. destruct (negb (f =? 0)); cbn; congruence.
    + intro j. unfold fmt_mark, fmt_unmark. rewrite xf_at_fmt_upd. destruct (x_format _); [rewrite xf_at_fmt_upd|]; apply xf_at_fmark.
  - apply pair_equal_spec in H. destruct H as [<- <-]. split; [reflexivity|]. split; [cbn; congruence|]. intro j. apply xf_at_fmark.
Qed.
Lemma uses_dup fs x fs1 t R new : xf_dup fs x = (fs1, t) -> (forall i, x_font x = Some i -> font_at fs i <> None) ->
  uses fs R new None -> uses fs1 R new (x_font t).
Proof.
  intros H N U. destruct (dup_use _ _ _ _ H) as (E1 & _ & X). rewrite E1. apply (uses_fonts fs _ R new None); [exact X| | | |exact U].
  - intros i K. rewrite (dup_fonts _ _ _ _ i H), font_at_mark. destruct (is_font (x_font x) i); [|exact K]. destruct (font_at fs i); [discriminate|congruence].
  - intros i K. specialize (N i K). rewrite (dup_fonts _ _ _ _ i H), font_at_mark. destruct (is_font (x_font x) i); [|exact N]. destruct (font_at fs i); [discriminate|congruence].
  - intros i d'. rewrite (dup_fonts _ _ _ _ i H), font_at_mark. destruct (font_at fs i) as [d|]; [|destruct (is_font (x_font x) i); discriminate]. intro K. left. exists d. split; [reflexivity|].
    cbn [is_font b2z]. destruct (is_font (x_font x) i); cbn [option_map] in K; injection K as <-; unfold b2z; cbn [fo_use fo_mark]; unfold use_up; lia.
Qed.
Lemma xf_apply_use o x y : xf_apply o x = Ok y -> x_font y = x_font x /\ x_use y = x_use x.
Proof.
  intro H. destruct x as [a1 a2 a3 a4 a5 a6 a7 a8 a9 b1 b2 b3 b4 b5 b6 b7 b8 b9 c1].
  destruct o; cbn [xf_apply] in H; repeat (apply bind_ok in H; destruct H as (? & _ & H)); apply ok_inj in H; subst y;
    unfold flag_if, set_flag; repeat match goal with |- context [if ?b then _ else _] => destruct b end; split; reflexivity.
Qed.
Lemma set_format_use fs x f : (forall j, xf_at (fst (xf_set_format fs x f)) j = xf_at fs j) /\ (forall j, font_at (fst (xf_set_format fs x f)) j = font_at fs j)
  /\ x_font (snd (xf_set_format fs x f)) = x_font x /\ x_use (snd (xf_set_format fs x f)) = x_use x.
Proof.
  unfold xf_set_format. cbv zeta. cbn [fst snd]. destruct (flag_if_font (negb (f =? 0)) ATRNUM x) as [E1 E2]. split; [|split; [|split]].
  - intro j. unfold fmt_mark, fmt_unmark. rewrite xf_at_fmt_upd. destruct (x_format x); [apply xf_at_fmt_upd|reflexivity].
  - intro j. unfold fmt_mark, fmt_unmark. rewrite font_at_fmt_upd. destruct (x_format x); [apply font_at_fmt_upd|reflexivity].
  - rewrite <- E1. destruct (flag_if _ _ _). reflexivity.
  - rewrite <- E2. destruct (flag_if _ _ _). reflexivity.
Qed.
Lemma uses_apply fs t o fs' y R new : fmt_apply fs t o = Ok (fs', y) -> uses fs R new (x_font t) -> uses fs' R new (x_font y) /\ x_use y = x_use t.
Proof.
  intros H U. destruct o as [o|f|[f|]]; cbn [fmt_apply] in H.
  - apply bind_ok in H. destruct H as (z & Ha & H). apply ok_pair in H. destruct H as [-> ->]. destruct (xf_apply_use _ _ _ Ha) as [E1 E2]. rewrite E1, E2. auto.
  - destruct (font_handle fs f) eqn:Hh; [|discriminate H]. apply ok_inj in H. destruct (uses_set_font fs t f R new Hh U) as (U' & E1 & E2). rewrite H in U', E1, E2. cbn [fst snd] in *. rewrite E1. auto.
  - destruct (format_handle fs f); [|discriminate H]. apply ok_inj in H. destruct (set_format_use fs t f) as (X & F & E1 & E2). rewrite H in X, F, E1, E2. cbn [fst snd] in *.
    rewrite E1, E2. split; [|reflexivity]. apply (uses_same fs); auto.
  - apply ok_pair in H. destruct H as [-> ->]. auto.
Qed.
Lemma uses_add_font fs v R new E : uses fs R new E -> uses (fst (add_font fs v)) R new E.
Proof.
  intro U. assert (K : forall i, font_at fs i <> None -> font_at (fst (add_font fs v)) i <> None) by (intros i N; rewrite font_at_add; destruct (i =? _); [discriminate|exact N]).
  apply (uses_fonts fs _ R new E E); [reflexivity|exact K| | |exact U].
  - intros i Ei. apply K. apply (us_tmp _ _ _ _ U i Ei).
  - intros i d'. rewrite font_at_add. destruct (i =? 6 + zlen (fs_fonts fs)) eqn:Q.
    + intro X. injection X as <-. right. assert (N : font_at fs i = None).
      { destruct (font_at fs i) as [d|] eqn:Ed; [|reflexivity]. apply font_at_bound in Ed. lia. }
      split; [exact N|]. cbn [fo_use]. destruct E as [e|]; cbn [is_font]; unfold b2z; [|lia]. destruct (e =? i) eqn:Qe; [|lia].
      exfalso. apply (us_tmp _ _ _ _ U e eq_refl). replace e with i by lia. exact N.
    + intro Ed. left. exists d'. split; [exact Ed|lia].
Qed.
Lemma uses_chosen fs1 t0 fs2 t R new : chosen fs1 t0 fs2 t -> uses fs1 R new (x_font t0) -> uses fs2 R new (x_font t) /\ x_use t = x_use t0.
Proof.
  intros [(d & _ & E)|(i & d & _ & _ & _ & -> & ->)] U; [|auto].
  assert (Hh : font_handle (fst (add_font fs1 (fo_val d))) (Some (6 + zlen (fs_fonts fs1))) = true) by (cbn [font_handle]; rewrite font_at_add, Z.eqb_refl; reflexivity).
  destruct (uses_set_font _ t0 _ R new Hh (uses_add_font _ (fo_val d) _ _ _ U)) as (U' & E1 & E2). rewrite <- E in U', E1, E2. cbn [fst snd] in *. rewrite E1. auto.
Qed.
Lemma core_font x y : core x = core y -> x_font x = x_font y.
Proof. intro E. change (x_font x) with (x_font (core x)). rewrite E. reflexivity. Qed.
Lemma uses_finish fs t p fs' q R new : finish fs t p = Ok (fs', q) -> x_use t = 0 -> uses fs (p :: R) new (x_font t) -> uses fs' (q :: R) new None.
Proof.
  intros H U0 U. pose proof (us_ref _ _ _ _ U p (or_introl eq_refl)) as V. pose proof (uses_unmark _ _ _ _ _ U) as U1.
  destruct (finish_cases _ _ _ _ _ V H) as [[-> ->]|(_ & -> & y & Ey & Cy)].
  - eapply uses_mark_tmp; [|reflexivity|apply (uses_add _ t); [exact U0|reflexivity|exact U1]].
    rewrite xf_at_add. pose proof (lv_xfs _ _ (xf_unmark_level fs p)) as L. unfold zlen. rewrite L. rewrite Z.eqb_refl. reflexivity.
  - eapply uses_mark_tmp; [exact Ey|apply core_font; exact Cy|exact U1].
Qed.
Lemma uses_cell_format fs p o fs' q R new : cell_format fs p o = Ok (fs', q) -> uses fs (p :: R) new None -> uses fs' (q :: R) new None.
Proof.
  intros H U. apply cell_format_finish in H. destruct H as (x & fs1 & t0 & fs2 & t & Ex & Ed & Ef & H).
  destruct (dup_use _ _ _ _ Ed) as (_ & Z0 & _). pose proof (uses_dup _ _ _ _ _ _ Ed (fun i => us_font _ _ _ _ U p x i Ex) U) as U1.
  destruct (uses_apply _ _ _ _ _ _ _ Ef U1) as [U2 Z1]. eapply uses_finish; [exact H|congruence|exact U2].
Qed.
Lemma uses_font_set fs i o fs' R new E : font_set fs i o = Ok fs' -> uses fs R new E -> uses fs' R new E.
Proof.
  unfold font_set. destruct (font_at fs i) as [d|] eqn:Ed; [|discriminate]. intro H. apply bind_ok in H. destruct H as (v & _ & H). apply ok_inj in H. subst fs'. intro U.
  assert (K : forall j, font_at fs j <> None -> font_at (font_upd fs i (fun _ => mkFO v (fo_use d))) j <> None).
  { intros j N. rewrite font_at_upd. destruct (i =? j); [|exact N]. destruct (font_at fs j); [discriminate|congruence]. }
  apply (uses_fonts fs _ R new E E); [intro; apply xf_at_font_upd|exact K| | |exact U].
  - intros j Ej. apply K. apply (us_tmp _ _ _ _ U j Ej).
  - intros j d'. rewrite font_at_upd. destruct (i =? j) eqn:Q.
    + assert (i = j) by lia. subst j. rewrite Ed. cbn [option_map]. intro X. injection X as <-. left. exists d. split; [reflexivity|]. cbn [fo_use]. lia.
    + intro X. left. exists d'. split; [exact X|lia].
Qed.
Lemma uses_cell_font fs p o fs' q R new : cell_font fs p o = Ok (fs', q) -> uses fs (p :: R) new None -> uses fs' (q :: R) new None.
Proof.
  intros H U. apply cell_font_finish in H. destruct H as (x & fs1 & t0 & fs2 & t & fs6 & y & i & Ex & Ed & C & H & _ & _ & S).
  destruct (dup_use _ _ _ _ Ed) as (_ & Z0 & _). pose proof (uses_dup _ _ _ _ _ _ Ed (fun i => us_font _ _ _ _ U p x i Ex) U) as U1.
  destruct (uses_chosen _ _ _ _ _ _ C U1) as [U2 Z1]. eapply uses_font_set; [exact S|]. eapply uses_finish; [exact H|congruence|exact U2].
Qed.
(** The font of a format object in use is counted. *)
Lemma uses_live fs p R new x i d : uses fs R new None -> In p R -> xf_at fs p = Some x -> x_font x = Some i -> font_at fs i = Some d -> 1 <= fo_use d.
Proof.
  intros U J Ex Ei Ed. pose proof (us_hold _ _ _ _ U (S (Z.to_nat p)) i d Ed) as H. pose proof (xf_at_bound _ _ _ Ex) as [B _].
  cbn [total] in H. rewrite Z2Nat.id in H by exact B. pose proof (total_nonneg (relies fs new i) (Z.to_nat p) (relies_pos fs new i)) as T.
  assert (1 <= relies fs new i p); [|cbn [is_font b2z] in H; lia].
  unfold relies. rewrite Ex, Ei. cbn [is_font]. rewrite Z.eqb_refl.
  assert (0 < x_use x). { destruct (Z.lt_ge_cases p 21); [pose proof (us_dxf _ _ _ _ U p x ltac:(lia) Ex); pose proof (cnt_pos R p)|pose proof (us_xf _ _ _ _ U p x ltac:(lia) Ex); pose proof (cnt_in R p J)]; lia. }
  replace (0 <? x_use x) with true by lia. unfold b2z. destruct (mem p new); lia.
Qed.
Lemma attachable_op fs R new i p : attachable fs R new i -> attachable fs (p :: R) new i.
Proof. unfold attachable. cbn [In]. tauto. Qed.
Lemma uses_setxf fs p j R new : valid fs j -> attachable fs R new j -> uses fs (p :: R) new None -> uses (xf_unmark (xf_mark fs j) p) (j :: R) (drop j new) None.
Proof.
  intros V A U. apply uses_unmark. eapply uses_perm; [apply perm_swap|]. apply uses_mark; [exact V|apply attachable_op; exact A|exact U].
Qed.
(** A user sets the font of a format object. *)
Lemma uses_xf_user fs p o fs' R new : xf_user fs p o = Ok fs' -> 21 <= p -> uses fs R new None ->
  (match o with FFont _ => (In p R <-> ~ In p new) | _ => True end) -> uses fs' R new None.
Proof.
  intros H L U C. unfold xf_user in H. destruct (xf_at fs p) as [x|] eqn:Ex; [|discriminate H]. apply bind_ok in H. destruct H as ([fs1 y] & Ha & H). apply ok_inj in H. subst fs'.
  pose proof (us_xf _ _ _ _ U p x L Ex) as Ux.
  assert (Plain : (forall j, xf_at fs1 j = xf_at fs j) -> (forall j, font_at fs1 j = font_at fs j) -> x_font y = x_font x -> x_use y = x_use x -> uses (xf_upd fs1 p (fun _ => y)) R new None).
  { intros X F E1 E2. pose proof (uses_same fs fs1 R new None X F U) as U1. apply (uses_at fs1 p _ _ _ None R new U1); auto.
    - intros z Ez. rewrite X, Ex in Ez. injection Ez as <-. split; [exact E1|]. replace (p <? 21) with false by lia. congruence.
    - intros J. rewrite X. congruence.
    - intros z i Ez _. rewrite X, Ex in Ez. injection Ez as <-. rewrite E2. lia. }
  destruct o as [o|f|[f|]]; cbn [fmt_apply] in Ha.
  - apply bind_ok in Ha. destruct Ha as (z & Ha & Hb). apply ok_pair in Hb. destruct Hb as [-> ->]. destruct (xf_apply_use _ _ _ Ha). apply Plain; auto.
  - destruct (font_handle fs f) eqn:Hh; [|discriminate Ha]. apply ok_inj in Ha. unfold xf_set_font in Ha. cbv zeta in Ha.
    destruct (flag_if_font (match f with Some _ => true | None => false end) ATRFONT x) as [E1 E2]. rewrite E1 in Ha.
    assert (Y : x_font y = f /\ x_use y = x_use x). { apply pair_equal_spec in Ha. destruct Ha as [_ <-]. rewrite <- E2. destruct (flag_if _ _ _). split; reflexivity. }
    apply pair_equal_spec in Ha. destruct Ha as [<- _]. destruct Y as [Y1 Y2]. clear E1 E2 Plain.
    set (fs1 := font_mark (font_unmark fs (x_font x)) f).
    assert (X1 : forall j, xf_at fs1 j = xf_at fs j) by (intro j; unfold fs1; rewrite xf_at_fmark, xf_at_funmark; reflexivity).
    assert (K : forall i, font_at fs i <> None -> font_at fs1 i <> None).
    { intros i N. unfold fs1. rewrite font_at_mark, font_at_unmark. destruct (is_font f i), (is_font (x_font x) i), (font_at fs i); try discriminate; congruence. }
    assert (X : forall j, xf_at (xf_upd fs1 p (fun _ => y)) j = if p =? j then option_map (fun _ => y) (xf_at fs j) else xf_at fs j) by (intro j; rewrite xf_at_upd_all, !X1; reflexivity).
    pose proof U as [A B Cr D T F Ho]. constructor.
    + intros j z Lj. rewrite X. destruct (p =? j) eqn:Q; [|auto]. assert (p = j) by lia. subst j. rewrite Ex. cbn [option_map]. intro Z0. injection Z0 as <-. congruence.
    + intros j z Lj. rewrite X. replace (p =? j) with false by lia. auto.
    + intros j J. rewrite X. destruct (p =? j) eqn:Q; [|auto]. specialize (Cr j J). destruct (xf_at fs j); [discriminate|congruence].
    + intros j z i. rewrite X, font_at_xf_upd. destruct (p =? j) eqn:Q; [|intros; apply K; eauto]. destruct (xf_at fs j); [|discriminate]. cbn [option_map]. intro Z0. injection Z0 as <-.
      rewrite Y1. intro Ei. apply K. eapply font_handle_at; eauto.
    + discriminate.
    + intros j J. destruct (F j J) as [F1 F2]. split; [exact F1|]. rewrite X. destruct (p =? j) eqn:Q; [|auto]. destruct (xf_at fs j); [discriminate|congruence].
    + intros n i d. rewrite font_at_xf_upd. intro Ed. cbn [is_font b2z].
      set (m := Nat.max n (S (Z.to_nat p))). pose proof (xf_at_bound _ _ _ Ex) as [Bp _].
      match goal with |- total ?f' n + 0 <= _ => 
        assert (Nn : total f' n <= total f' m) by (apply total_grow; [intro; apply relies_pos|unfold m; lia]);
        assert (Ne : forall j, j <> p -> f' j = relies fs new i j) by (intros j N; unfold relies; rewrite X; replace (p =? j) with false by lia; reflexivity);
        pose proof (total_at f' (relies fs new i) m p Ne) as Et;
        assert (Fp : f' p = if is_font f i then 1 else 0)
      end.
      { unfold relies. rewrite X, Z.eqb_refl, Ex. cbn [option_map]. rewrite Y1, Y2, Ux. destruct (is_font f i); [|reflexivity].
        destruct (mem p new) eqn:M.
        - apply mem_in in M. rewrite (cnt_none R p) by tauto. reflexivity.
        - assert (J : In p R) by (apply C; rewrite <- mem_in; congruence). pose proof (cnt_in R p J). replace (0 <? cnt R p) with true by lia. reflexivity. }
      assert (Rp : relies fs new i p = if is_font (x_font x) i then 1 else 0).
      { unfold relies. rewrite Ex, Ux. destruct (is_font (x_font x) i); [|reflexivity].
        destruct (mem p new) eqn:M.
        - apply mem_in in M. rewrite (cnt_none R p) by tauto. reflexivity.
        - assert (J : In p R) by (apply C; rewrite <- mem_in; congruence). pose proof (cnt_in R p J). replace (0 <? cnt R p) with true by lia. reflexivity. }
      replace ((0 <=? p) && (p <? Z.of_nat m))%bool with true in Et by (unfold m; lia).
      unfold fs1 in Ed. rewrite font_at_mark, font_at_unmark in Ed. destruct (font_at fs i) as [d0|] eqn:Ed0; [|destruct (is_font f i), (is_font (x_font x) i); discriminate Ed].
      specialize (Ho m i d0 Ed0). cbn [is_font b2z] in Ho. pose proof (use_down_le (fo_use d0)).
      destruct (is_font f i), (is_font (x_font x) i); cbn [option_map] in Ed; injection Ed as <-; cbn [fo_use fo_mark fo_unmark]; unfold use_up; lia.
  - destruct (format_handle fs f); [|discriminate Ha]. apply ok_inj in Ha. destruct (set_format_use fs x f) as (X & F & E1 & E2). rewrite Ha in X, F, E1, E2. cbn [fst snd] in *. apply Plain; auto.
  - apply ok_pair in Ha. destruct Ha as [-> ->]. apply Plain; auto.
Qed.
