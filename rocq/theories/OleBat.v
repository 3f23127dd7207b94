(** Proofs about the block-allocation sizing loop. *)
From Coq Require Import ZArith List Lia Bool ZifyBool.
From Verif Require Import Bytes UnitModel OleModel.
Import ListNotations.
Local Open Scope Z_scope.
Ltac Zify.zify_post_hook ::= Z.div_mod_to_equations.

(** Number of MSAT sectors needed for [x] BAT sectors. *)
Definition msat_for (x : Z) : Z := (Z.max 0 (x - 109) + 126) / 127.
(** BAT sectors needed if [x] BAT sectors are reserved. *)
Definition bat_step (d x : Z) : Z := (msat_for x + d + x + 1 + 127) / 128.

Lemma bat_msat_for x ms : (x <= 109 -> ms = 0) -> bat_msat x ms = msat_for x.
Proof.
  intro H. unfold bat_msat, msat_for, HEADER_SAT_SIZE, BAT_BLOCKS_PER_MSAT_BLOCK.
  destruct (Z.ltb_spec 109 x).
  - destruct (Z.eqb_spec ((x - 109) mod 127) 0); lia.
  - rewrite H by lia. lia.
Qed.

Lemma bat_needed_step en : 0 <= en -> bat_needed en = (en + 127) / 128.
Proof.
  intro H. unfold bat_needed, BAT_ENTRIES_PER_BLOCK.
  destruct (Z.eqb_spec (en mod 128) 0); lia.
Qed.

Lemma msat_for_mono x y : x <= y -> msat_for x <= msat_for y.
Proof. unfold msat_for. lia. Qed.
Lemma msat_for_nonneg x : 0 <= msat_for x.
Proof. unfold msat_for. lia. Qed.
Lemma bat_step_mono d x y : x <= y -> bat_step d x <= bat_step d y.
Proof. intro H. pose proof (msat_for_mono x y H). unfold bat_step. lia. Qed.
Lemma bat_step_top d x : 0 <= d -> x <= d + 2 -> bat_step d x <= d + 2.
Proof. intros. unfold bat_step, msat_for. lia. Qed.

Lemma seed_lt_step d : 0 <= d -> bat_seed d < bat_step d (bat_seed d).
Proof.
  intro H. unfold bat_seed, bat_step, msat_for, BAT_ENTRIES_PER_BLOCK. lia.
Qed.

(** Loop invariant: the previous value [x] (with its msat count) and [needed = step x],
    below every fixpoint. *)
Lemma bat_loop_spec fuel : forall d x ms en,
  0 <= d -> 0 <= x <= d + 2 ->
  ms = msat_for x -> en = ms + d + x + 1 ->
  x <= bat_step d x ->
  (forall y, 0 <= y -> bat_step d y <= y -> x <= y) ->
  (Z.to_nat (d + 2 - x) <= fuel)%nat ->
  exists nb, bat_loop fuel d x (109 + 127 * ms) ms (bat_step d x) en
             = Some (nb, msat_for nb, msat_for nb + d + nb + 1)
    /\ x <= nb /\ bat_step d nb = nb
    /\ (forall y, 0 <= y -> bat_step d y <= y -> nb <= y).
Proof.
  induction fuel as [|fuel IH]; intros d x ms en Hd Hx Hms Hen Hle Hleast Hfuel.
  - assert (x = d + 2) by lia. subst x.
    pose proof (bat_step_top d (d + 2) Hd ltac:(lia)).
    assert (E : bat_step d (d + 2) = d + 2) by lia.
    exists (d + 2). cbn [bat_loop]. rewrite E, Z.eqb_refl.
    replace (109 + 127 * ms <? d + 2) with false
      by (symmetry; apply Z.ltb_ge; subst ms; unfold msat_for; lia).
    cbn [orb negb]. subst. auto 6 with zarith.
  - cbn [bat_loop].
    replace (109 + 127 * ms <? x) with false
      by (symmetry; apply Z.ltb_ge; subst ms; unfold msat_for; lia).
    cbn [orb].
    destruct (Z.eqb_spec x (bat_step d x)) as [E|E]; cbn [negb].
    + exists x. subst. auto 6 with zarith.
    + set (x' := bat_step d x) in *.
      assert (Hx' : x < x' <= d + 2).
      { pose proof (bat_step_top d x Hd ltac:(lia)). subst x'. lia. }
      assert (Hm : bat_msat x' ms = msat_for x').
      { apply bat_msat_for. intro. subst ms. unfold msat_for. lia. }
      rewrite Hm. pose proof (msat_for_nonneg x').
      rewrite bat_needed_step by lia.
      fold (bat_step d x').
      destruct (IH d x' (msat_for x') (msat_for x' + d + x' + 1)) as (nb & Hl & Hge & Hfix & Hlst);
        try lia; auto.
      * subst x'. apply bat_step_mono. lia.
      * intros y Hy Hs. unfold x'. pose proof (bat_step_mono d x y). specialize (Hleast y Hy Hs). lia.
      * unfold HEADER_SAT_SIZE, BAT_BLOCKS_PER_MSAT_BLOCK.
        exists nb. repeat split; auto; try lia.
Qed.

Lemma seed_below d y : 0 <= d -> 0 <= y -> bat_step d y <= y -> bat_seed d <= y.
Proof.
  intros Hd Hy H.
  destruct (Z.le_gt_cases (bat_seed d) y); auto. exfalso.
  revert H H0. unfold bat_seed, bat_step, msat_for, BAT_ENTRIES_PER_BLOCK. lia.
Qed.

Lemma seed_nonneg d : 0 <= d -> 0 <= bat_seed d.
Proof. unfold bat_seed, BAT_ENTRIES_PER_BLOCK. lia. Qed.
Lemma seed_top d : 0 <= d -> bat_seed d <= d + 2.
Proof. unfold bat_seed, BAT_ENTRIES_PER_BLOCK. lia. Qed.

(** Full specification of GetBATCount. *)
Lemma get_bat_count_spec total : 0 <= total ->
  let d := total / 512 in
  exists nb,
    get_bat_count total =
      Some (mkBlocks (msat_for nb + d + nb + 1) nb (msat_for nb) (Z.min 109 nb)
              (Z.max 0 (nb - 109)) (Z.max 0 (109 - nb)) (127 * msat_for nb - Z.max 0 (nb - 109)))
    /\ 1 <= nb /\ bat_step d nb = nb
    /\ (forall y, 0 <= y -> bat_step d y <= y -> nb <= y).
Proof.
  intros Ht d. assert (Hd : 0 <= d) by (subst d; lia).
  unfold get_bat_count, BIG_BLOCK_SIZE. fold d.
  unfold bat_fuel. replace (Z.to_nat (d + 4)) with (S (Z.to_nat (d + 3))) by lia.
  cbn [bat_loop]. change (0 <? 1) with true. cbn [orb].
  pose proof (seed_nonneg d Hd) as Hs0. pose proof (seed_top d Hd) as Hs1.
  pose proof (seed_lt_step d Hd) as Hs2.
  set (s := bat_seed d) in *.
  rewrite bat_msat_for by auto.
  pose proof (msat_for_nonneg s).
  rewrite bat_needed_step by lia. fold (bat_step d s).
  destruct (bat_loop_spec (Z.to_nat (d + 3)) d s (msat_for s) (msat_for s + d + s + 1))
    as (nb & Hl & Hge & Hfix & Hleast); try lia; auto.
  { intros. apply seed_below; auto. }
  unfold HEADER_SAT_SIZE, BAT_BLOCKS_PER_MSAT_BLOCK.
  match goal with |- context [bat_loop ?a ?b ?c ?e ?f ?g ?h] =>
    replace (bat_loop a b c e f g h) with (Some (nb, msat_for nb, msat_for nb + d + nb + 1)) end.
  exists nb. assert (1 <= nb) by (rewrite <- Hfix; unfold bat_step, msat_for; lia).
  split; [|auto].
  destruct (Z.ltb_spec 109 nb).
  - f_equal. rewrite Z.min_l, Z.max_r, (Z.max_l 0 (109 - nb)) by lia.
    f_equal. destruct (Z.eqb_spec ((nb - 109) mod 127) 0); unfold msat_for; lia.
  - f_equal. replace (msat_for nb) with 0 by (unfold msat_for; lia).
    rewrite Z.min_r, Z.max_l, (Z.max_r 0 (109 - nb)) by lia. f_equal; lia.
Qed.
