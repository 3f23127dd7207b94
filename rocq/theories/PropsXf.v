(** C24: extended-format records. *)
From Coq Require Import ZArith List Bool Lia ZifyBool ZifyNat.
From Verif Require Import Bytes UnitModel RecModel SheetModel XfModel RecProofs RecFrames
  SpecXf XfProofs SpecXfOps.
Import ListNotations.
Local Open Scope Z_scope.

(** C24, object level: whatever the members of the format object are, the record saved for
    it has the XF type, 20 payload bytes, and a BIFF8 reader recovers each member. *)
Theorem C24_record_fields : forall x, xf_fits x ->
  exists payload, build (rec_xf x) = Ok (mkBU (frame 224 payload) false)
    /\ length payload = 20%nat /\ read_xf payload = Some (attrs_of x).
Proof.
  intros x H. exists (xbytes (xstate x)). split; [apply build_xf|]. split; [reflexivity|].
  apply read_xstate. exact H.
Qed.
Print Assumptions C24_record_fields.

(** Lemmas for the history theorem. *)
Lemma table_ok t v h : table t v = Ok h -> 0 <= v < zlen t /\ h = nth (Z.to_nat v) t 0.
Proof. unfold table. destruct (_ && _)%bool eqn:E; intro H; [|discriminate]. injection H as <-. lia. Qed.

Definition rel (x : xf) (a : xfattrs) : Prop :=
  x_cell x = true /\ length (x_bs x) = 5%nat /\ length (x_bc x) = 5%nat /\ xf_fits x /\ attrs_of x = a.

Lemma lor_range a b : 0 <= a < 256 -> 0 <= b < 256 -> 0 <= Z.lor a b < 256.
Proof.
  intros Ha Hb. assert (E : Z.lor a b = Z.lor a b mod 256).
  { change 256 with (2 ^ 8). rewrite <- Z.land_ones by lia. rewrite Z.land_lor_distr_l.
    rewrite !Z.land_ones by lia. rewrite !Z.mod_small by (cbn; lia). reflexivity. }
  rewrite E. apply Z.mod_pos_bound. lia.
Qed.

Lemma lor_flag u f k : f = 4 * k -> 0 <= u < 256 -> 0 <= f < 256 ->
  0 <= Z.lor u f < 256 /\ Z.lor u f / 4 = Z.lor (u / 4) k.
Proof.
  intros -> Hu Hf. split.
  - apply lor_range; auto.
  - change 4 with (2 ^ 2). rewrite <- !Z.shiftr_div_pow2 by lia. rewrite Z.shiftr_lor.
    rewrite (Z.shiftr_div_pow2 (_ * k)) by lia. rewrite (Z.mul_comm _ k), Z.div_mul by (cbn; lia). reflexivity.
Qed.

(** The flag update of a cell format, seen through the reader. *)
Lemma flag_fits c f k x : x_cell x = true -> f = 4 * k -> 0 <= f < 256 -> 0 <= x_flags x < 256 ->
  exists u, flag_if c f x = mkXf (x_fmt x) (x_font x) (x_format x) (x_ha x) (x_va x) (x_ind x) (x_ori x)
     (x_fill x) (x_fg x) (x_bg x) (x_locked x) (x_hidden x) (x_wrap x) (x_cell x) (x_user x) (x_bs x)
     (x_bc x) u (x_use x) /\ 0 <= u < 256 /\ u / 4 = on k c (x_flags x / 4).
Proof.
  intros Hc Hf Hr Hx. destruct c; cbn [flag_if on].
  - exists (Z.lor (x_flags x) f). unfold set_flag. rewrite Hc. split; [reflexivity|]. apply lor_flag; auto.
  - exists (x_flags x). split; [destruct x; reflexivity|]. auto.
Qed.

Lemma palette_agrees c : 0 <= c < 59 -> name_agrees c ->
  nth (Z.to_nat c) COLOR_TABLE 0 = palette_code c.
Proof.
  intros H N. unfold palette_code.
  assert (K : forallb (fun n => (((41 <? Z.of_nat n) && (Z.of_nat n <? 56)) ||
     (nth n COLOR_TABLE 0 =? nth n palette_of_name 0))%bool) (seq 0 59) = true) by (vm_compute; reflexivity).
  rewrite forallb_forall in K. specialize (K (Z.to_nat c)). rewrite in_seq in K.
  specialize (K ltac:(lia)). rewrite orb_true_iff in K. destruct K as [K|K]; [|lia].
  unfold name_agrees in N. lia.
Qed.
Lemma palette_range c : 0 <= palette_code c < 128.
Proof.
  unfold palette_code. destruct (Nat.ltb (Z.to_nat c) 59) eqn:E.
  - assert (K : forallb (fun n => ((0 <=? nth n palette_of_name 0) && (nth n palette_of_name 0 <? 128))%bool) (seq 0 59) = true)
      by (vm_compute; reflexivity).
    rewrite forallb_forall in K. specialize (K (Z.to_nat c)). rewrite in_seq in K.
    apply Nat.ltb_lt in E. specialize (K ltac:(lia)). lia.
  - apply Nat.ltb_ge in E. rewrite nth_overflow by (cbn [palette_of_name length]; lia). lia.
Qed.
Lemma forall_small n (P : Z -> Prop) : (forall k, (k < n)%nat -> P (Z.of_nat k)) ->
  forall v, 0 <= v < Z.of_nat n -> P v.
Proof. intros H v Hv. rewrite <- (Z2Nat.id v) by lia. apply H. lia. Qed.

Ltac enum n := let k := fresh "k" in intros v Hv; pattern v; revert v Hv; apply (forall_small n);
  intros k Hk; repeat (first [exfalso; lia | destruct k as [|k];
    [solve [vm_compute; try (repeat split; congruence); auto 40]|]]).
Lemma halign_val : forall v, 0 <= v < Z.of_nat 7 -> nth (Z.to_nat v) HALIGN_TABLE 0 = v.
Proof. enum 7%nat. Qed.
Lemma valign_val : forall v, 0 <= v < Z.of_nat 4 -> nth (Z.to_nat v) VALIGN_TABLE 0 = v.
Proof. enum 4%nat. Qed.
Lemma indent_val : forall v, 0 <= v < Z.of_nat 19 -> nth (Z.to_nat v) INDENT_TABLE 0 = indent_code v.
Proof. enum 19%nat. Qed.
Lemma indent_in : forall v, 0 <= v < Z.of_nat 19 -> In (indent_code v) INDENT_TABLE.
Proof. intros v Hv. rewrite <- indent_val by auto. apply nth_In. cbn [INDENT_TABLE length]. lia. Qed.
Lemma orient_val : forall v, 0 <= v < Z.of_nat 4 -> nth (Z.to_nat v) TXTORI_TABLE 0 = rotation_code v.
Proof. reflexivity. Qed.
Lemma orient_range : forall v, 0 <= v < Z.of_nat 4 -> 0 <= rotation_code v < 256.
Proof. enum 4%nat. Qed.
Lemma fill_range : forall v, 0 <= v < Z.of_nat 19 -> 0 <= fill_code v < 64.
Proof. enum 19%nat. Qed.
Lemma border_val : forall v, 0 <= v < Z.of_nat 8 -> nth (Z.to_nat v) BORDERSTYLE_TABLE 0 = v.
Proof. enum 8%nat. Qed.
Lemma format_val : forall v, 0 <= v < Z.of_nat 36 -> nth (Z.to_nat v) FORMAT_TABLE 0 = format_code v.
Proof. enum 36%nat. Qed.

Lemma five (l : list Z) : length l = 5%nat -> exists a b c d e, l = [a; b; c; d; e].
Proof.
  intro H. do 5 (destruct l as [|? l]; [discriminate|]). destruct l; [|discriminate]. eauto 10.
Qed.
Lemma side_cases s : side_ok s = true -> s = 0 \/ s = 1 \/ s = 2 \/ s = 3 \/ s = 4.
Proof. unfold side_ok. lia. Qed.
Lemma nth_upd5 (P : Z -> Prop) a b c d e : (forall k, P (nth k [a; b; c; d; e] 0)) <-> P a /\ P b /\ P c /\ P d /\ P e /\ P 0.
Proof.
  split.
  - intro H. repeat split; [apply (H 0%nat)|apply (H 1%nat)|apply (H 2%nat)|apply (H 3%nat)|apply (H 4%nat)|apply (H 5%nat)].
  - intros (? & ? & ? & ? & ? & ?) k. do 5 (destruct k as [|k]; [auto|]). destruct k; auto.
Qed.

Lemma n16 a b c d e : (forall k, 0 <= nth k [a; b; c; d; e] 0 < 16) <->
  0 <= a < 16 /\ 0 <= b < 16 /\ 0 <= c < 16 /\ 0 <= d < 16 /\ 0 <= e < 16 /\ 0 <= 0 < 16.
Proof. exact (nth_upd5 (fun z => 0 <= z < 16) a b c d e). Qed.
Lemma n128 a b c d e : (forall k, 0 <= nth k [a; b; c; d; e] 0 < 128) <->
  0 <= a < 128 /\ 0 <= b < 128 /\ 0 <= c < 128 /\ 0 <= d < 128 /\ 0 <= e < 128 /\ 0 <= 0 < 128.
Proof. exact (nth_upd5 (fun z => 0 <= z < 128) a b c d e). Qed.
Ltac solve_fits := repeat match goal with |- _ /\ _ => split end;
  first [assumption | apply n16; lia | apply n128; lia | lia].
Ltac toN := change (Z.to_nat 0) with 0%nat; change (Z.to_nat 1) with 1%nat; change (Z.to_nat 2) with 2%nat; change (Z.to_nat 3) with 3%nat; change (Z.to_nat 4) with 4%nat.
Ltac flag x c f k := let u := fresh "u" in let Eu := fresh "Eu" in let Hu := fresh "Hu" in let Hd := fresh "Hd" in
  destruct (flag_fits c f k x ltac:(assumption) ltac:(reflexivity) ltac:(unfold ATRNUM, ATRFONT, ATRALC, ATRBDR, ATRPAT, ATRPROT; lia) ltac:(assumption)) as (u & Eu & Hu & Hd);
  rewrite Eu.
Lemma ok_inj {A} (u v : A) : Ok u = Ok v -> u = v.
Proof. congruence. Qed.
Lemma xfop_rel o x a y : rel x a -> fits (FXf o) -> xf_apply o x = Ok y -> rel y (spec_set (FXf o) a).
Proof.
  intros (Hc & L1 & L2 & F & <-) Ho H.
  destruct F as (Hha & Hva & Hind & Hori & Hfill & Hfg & Hbg & Hbs & Hbc & Hfl & Hfmt & Hfont).
  destruct o; cbn [xf_apply] in H; cbn [fits] in Ho;
    try (destruct (table _ _) as [h| |] eqn:Et; cbn [bind] in H; try discriminate;
         apply table_ok in Et; destruct Et as [Hv ->]).
  - (* format index *)
    apply ok_inj in H; subst y. flag x (negb (idx =? 0)) ATRNUM 1.
    unfold rel, xf_fits, attrs_of; cbn. rewrite Hd. repeat (split; auto).
  - cbv zeta in H. apply ok_inj in H; subst y.
    assert (E : (if 35 <? fmt then 0 else nth (Z.to_nat fmt) FORMAT_TABLE 0) = format_code fmt).
    { unfold format_code. destruct (35 <? fmt) eqn:E; [|apply format_val; lia].
      destruct (fmt <=? 22) eqn:E1; [lia|]. destruct (fmt <=? 35) eqn:E2; lia. }
    replace (nth (Z.to_nat (if 35 <? fmt then 0 else fmt)) FORMAT_TABLE 0) with (format_code fmt)
      by (rewrite <- E; destruct (35 <? fmt); reflexivity).
    flag x (negb (format_code fmt =? 0)) ATRNUM 1.
    unfold rel, xf_fits, attrs_of; cbn. rewrite Hd. repeat (split; auto).
    + unfold format_code. destruct (fmt <=? 22) eqn:?; [lia|]. destruct (fmt <=? 35) eqn:?; lia.
    + unfold format_code. destruct (fmt <=? 22) eqn:?; [lia|]. destruct (fmt <=? 35) eqn:?; lia.
  - apply ok_inj in H; subst y. rewrite halign_val by (unfold HALIGN_TABLE, zlen in Hv; cbn in Hv; lia).
    flag x (negb (v =? 0)) ATRALC 4. unfold HALIGN_TABLE, zlen in Hv; cbn in Hv.
    unfold rel, xf_fits, attrs_of; cbn. rewrite Hd. repeat (split; auto); try lia.
  - apply ok_inj in H; subst y. rewrite valign_val by (unfold VALIGN_TABLE, zlen in Hv; cbn in Hv; lia).
    flag x (negb (v =? 2)) ATRALC 4. unfold VALIGN_TABLE, zlen in Hv; cbn in Hv.
    unfold rel, xf_fits, attrs_of; cbn. rewrite Hd. repeat (split; auto); try lia.
  - apply ok_inj in H; subst y. unfold INDENT_TABLE, zlen in Hv; cbn in Hv. rewrite indent_val by (cbn; lia).
    flag x (negb (v =? 0)) ATRALC 4.
    unfold rel, xf_fits, attrs_of; cbn. rewrite Hd. repeat (split; auto); try lia. apply indent_in; cbn; lia.
  - apply ok_inj in H; subst y. unfold TXTORI_TABLE, zlen in Hv; cbn in Hv.
    pose proof (orient_range v ltac:(cbn; lia)). change (nth (Z.to_nat v) TXTORI_TABLE 0) with (rotation_code v).
    flag x (negb (v =? 0)) ATRALC 4.
    unfold rel, xf_fits, attrs_of; cbn. rewrite Hd. repeat (split; auto); try lia.
  - apply ok_inj in H; subst y. change (zlen COLOR_TABLE) with 59 in Hv. rewrite palette_agrees by auto.
    pose proof (palette_range c). flag x (negb (c =? CLR_SYS_WIND_FG)) ATRPAT 16.
    unfold rel, xf_fits, attrs_of; cbn. rewrite Hd. repeat (split; auto); try lia.
  - apply ok_inj in H; subst y. change (set_flag ATRPAT x) with (flag_if true ATRPAT x). flag x true ATRPAT 16.
    unfold rel, xf_fits, attrs_of; cbn. rewrite Hd. repeat (split; auto); try lia.
  - apply ok_inj in H; subst y. change (zlen COLOR_TABLE) with 59 in Hv. rewrite palette_agrees by auto.
    pose proof (palette_range c). flag x (negb (c =? CLR_SYS_WIND_BG)) ATRPAT 16.
    unfold rel, xf_fits, attrs_of; cbn. rewrite Hd. repeat (split; auto); try lia.
  - apply ok_inj in H; subst y. change (set_flag ATRPAT x) with (flag_if true ATRPAT x). flag x true ATRPAT 16.
    unfold rel, xf_fits, attrs_of; cbn. rewrite Hd. repeat (split; auto); try lia.
  - apply ok_inj in H; subst y. unfold FILL_TABLE, zlen in Hv; cbn in Hv.
    pose proof (fill_range v ltac:(cbn; lia)). change (nth (Z.to_nat v) FILL_TABLE 0) with (fill_code v).
    flag x (negb (v =? 0)) ATRPAT 16.
    unfold rel, xf_fits, attrs_of; cbn. rewrite Hd. repeat (split; auto); try lia.
  - apply ok_inj in H; subst y. replace (Bool.eqb b true) with b by (destruct b; reflexivity). flag x (negb b) ATRPROT 32.
    unfold rel, xf_fits, attrs_of; cbn. rewrite Hd. repeat (split; auto).
  - apply ok_inj in H; subst y. replace (negb (Bool.eqb b false)) with b by (destruct b; reflexivity). flag x b ATRPROT 32.
    unfold rel, xf_fits, attrs_of; cbn. rewrite Hd. repeat (split; auto).
  - apply ok_inj in H; subst y. replace (negb (Bool.eqb b false)) with b by (destruct b; reflexivity). flag x b ATRALC 4.
    unfold rel, xf_fits, attrs_of; cbn. rewrite Hd. repeat (split; auto).
  - (* border style *)
    unfold xl_assert in H. destruct (side_ok side) eqn:Es; cbn [bind] in H; [|discriminate].
    destruct (table _ _) as [h| |] eqn:Et; cbn [bind] in H; try discriminate.
    apply table_ok in Et; destruct Et as [Hv ->].
    unfold BORDERSTYLE_TABLE, zlen in Hv; cbn in Hv. rewrite border_val in H by (cbn; lia).
    assert (Hb' : length (upd (Z.to_nat side) v (x_bs x)) = 5%nat) by (rewrite upd_length; auto).
    set (x0 := with_bs (upd (Z.to_nat side) v (x_bs x)) x) in *.
    assert (Hc0 : x_cell x0 = true) by exact Hc. assert (Hf0 : 0 <= x_flags x0 < 256) by exact Hfl.
    destruct (flag_fits (negb (v =? 0)) ATRBDR 8 x0 Hc0 eq_refl ltac:(unfold ATRBDR; lia) Hf0) as (u & Eu & Hu & Hd).
    rewrite Eu in H. cbn [x_cell x_bc] in H. rewrite Hc0 in H. cbn [andb] in H.
    subst x0. cbn [x_bc with_bs x_flags] in *. apply ok_inj in H; subst y.
    destruct (five _ L1) as (b0 & b1 & b2 & b3 & b4 & E1). destruct (five _ L2) as (c0 & c1 & c2 & c3 & c4 & E2).
    clear Eu. rewrite E1 in *. rewrite E2 in *.
    pose proof (proj1 (n16 _ _ _ _ _) Hbs) as (B0 & B1 & B2 & B3 & B4 & _).
    pose proof (proj1 (n128 _ _ _ _ _) Hbc) as (C0 & C1 & C2 & C3 & C4 & _).
    destruct (side_cases _ Es) as [->|[->|[->|[->| ->]]]]; toN; cbn;
    match goal with |- context [?c =? 0] => destruct (c =? 0) eqn:? end;
    unfold rel, xf_fits, attrs_of, spec_set, on_side; rewrite E1, E2; cbn; rewrite ?Hd;
    repeat match goal with H : (?c =? 0) = _ |- context [?c =? 0] => rewrite H end;
    (split; [auto|]; split; [auto|]; split; [auto|]; split; [|reflexivity]);
    solve_fits.
  - unfold xl_assert in H. destruct (side_ok side) eqn:Es; cbn [bind] in H; [|discriminate].
    destruct (table _ _) as [h| |] eqn:Et; cbn [bind] in H; try discriminate.
    apply table_ok in Et; destruct Et as [Hv ->].
    change (zlen COLOR_TABLE) with 59 in Hv. rewrite palette_agrees in H by auto.
    pose proof (palette_range c). apply ok_inj in H; subst y.
    set (x0 := with_bc (upd (Z.to_nat side) (palette_code c) (x_bc x)) x) in *.
    assert (Hc0 : x_cell x0 = true) by exact Hc. assert (Hf0 : 0 <= x_flags x0 < 256) by exact Hfl.
    destruct (flag_fits (negb (palette_code c =? 0)) ATRBDR 8 x0 Hc0 eq_refl ltac:(unfold ATRBDR; lia) Hf0) as (u & Eu & Hu & Hd).
    rewrite Eu. subst x0. cbn [x_bc with_bc x_flags] in *.
    destruct (five _ L1) as (b0 & b1 & b2 & b3 & b4 & E1). destruct (five _ L2) as (c0 & c1 & c2 & c3 & c4 & E2).
    clear Eu. rewrite E1 in *. rewrite E2 in *.
    pose proof (proj1 (n16 _ _ _ _ _) Hbs) as (B0 & B1 & B2 & B3 & B4 & _).
    pose proof (proj1 (n128 _ _ _ _ _) Hbc) as (C0 & C1 & C2 & C3 & C4 & _).
    destruct (side_cases _ Es) as [->|[->|[->|[->| ->]]]]; toN;
    unfold rel, xf_fits, attrs_of, spec_set, on_side; cbn [x_bs x_bc x_fmt x_font x_format x_ha x_va x_ind x_ori x_fill x_fg x_bg x_locked x_hidden x_wrap x_cell x_user x_flags x_use with_bc]; rewrite E1, E2; cbn [upd Z.to_nat Pos.to_nat Pos.iter_op Nat.add nth fst snd Z.eqb Pos.eqb length xa_font xa_numfmt xa_locked xa_hidden xa_halign xa_wrap xa_valign xa_rotation xa_indent xa_left xa_right xa_top xa_bottom xa_pattern xa_fore xa_back]; rewrite ?Hd;
    (split; [auto|]; split; [auto|]; split; [auto|]; split; [|reflexivity]);
    solve_fits.
  - unfold xl_assert in H. destruct (side_ok side) eqn:Es; cbn [bind] in H; [|discriminate].
    apply ok_inj in H; subst y.
    set (x0 := with_bc (upd (Z.to_nat side) i (x_bc x)) x) in *.
    assert (Hc0 : x_cell x0 = true) by exact Hc. assert (Hf0 : 0 <= x_flags x0 < 256) by exact Hfl.
    destruct (flag_fits (negb (i =? 0)) ATRBDR 8 x0 Hc0 eq_refl ltac:(unfold ATRBDR; lia) Hf0) as (u & Eu & Hu & Hd).
    rewrite Eu. subst x0. cbn [x_bc with_bc x_flags] in *.
    destruct (five _ L1) as (b0 & b1 & b2 & b3 & b4 & E1). destruct (five _ L2) as (c0 & c1 & c2 & c3 & c4 & E2).
    clear Eu. rewrite E1 in *. rewrite E2 in *.
    pose proof (proj1 (n16 _ _ _ _ _) Hbs) as (B0 & B1 & B2 & B3 & B4 & _).
    pose proof (proj1 (n128 _ _ _ _ _) Hbc) as (C0 & C1 & C2 & C3 & C4 & _).
    destruct (side_cases _ Es) as [->|[->|[->|[->| ->]]]]; toN;
    unfold rel, xf_fits, attrs_of, spec_set, on_side; cbn [x_bs x_bc x_fmt x_font x_format x_ha x_va x_ind x_ori x_fill x_fg x_bg x_locked x_hidden x_wrap x_cell x_user x_flags x_use with_bc]; rewrite E1, E2; cbn [upd Z.to_nat Pos.to_nat Pos.iter_op Nat.add nth fst snd Z.eqb Pos.eqb length xa_font xa_numfmt xa_locked xa_hidden xa_halign xa_wrap xa_valign xa_rotation xa_indent xa_left xa_right xa_top xa_bottom xa_pattern xa_fore xa_back]; rewrite ?Hd;
    (split; [auto|]; split; [auto|]; split; [auto|]; split; [|reflexivity]);
    solve_fits.
Qed.

Lemma rel_flag_font x a (f : option Z) : rel x a -> fits (FFont f) ->
  rel (with_font f (flag_if (match f with Some _ => true | None => false end) ATRFONT x)) (spec_set (FFont f) a).
Proof.
  intros (Hc & L1 & L2 & F & <-) Ho.
  destruct F as (Hha & Hva & Hind & Hori & Hfill & Hfg & Hbg & Hbs & Hbc & Hfl & Hfmt & Hfont).
  flag x (match f with Some _ => true | None => false end) ATRFONT 2.
  unfold rel, xf_fits, attrs_of; cbn. rewrite Hd. repeat (split; auto); destruct f; cbn in Ho; lia.
Qed.
Lemma rel_flag_fmt x a f : rel x a -> 0 <= f < 65536 ->
  rel (with_format (Some f) (with_fmt f (flag_if (negb (f =? 0)) ATRNUM x))) (spec_set (FFormat (Some f)) a).
Proof.
  intros (Hc & L1 & L2 & F & <-) Ho.
  destruct F as (Hha & Hva & Hind & Hori & Hfill & Hfg & Hbg & Hbs & Hbc & Hfl & Hfmt & Hfont).
  flag x (negb (f =? 0)) ATRNUM 1.
  unfold rel, xf_fits, attrs_of; cbn. rewrite Hd. repeat (split; auto).
Qed.
Lemma fmt_apply_rel fs x a o fs' y : rel x a -> fits o -> fmt_apply fs x o = Ok (fs', y) -> rel y (spec_set o a).
Proof.
  intros R Ho H. destruct o as [o|f|[f|]]; cbn [fmt_apply] in H.
  - destruct (xf_apply o x) as [z| |] eqn:E; cbn [bind] in H; try discriminate.
    injection H as _ <-. eapply xfop_rel; eauto.
  - destruct (font_handle fs f); [|discriminate]. injection H as _ <-. apply rel_flag_font; auto.
  - destruct (format_handle fs f); [|discriminate]. injection H as _ <-. apply rel_flag_fmt; auto.
  - injection H as _ <-. destruct a. exact R.
Qed.

(** Nothing but [xf_upd] touches the format table. *)
Definition xfs_of (fs : fstate) := (fs_dxfs fs, fs_xfs fs).
Lemma font_upd_xfs fs i f : xfs_of (font_upd fs i f) = xfs_of fs.
Proof. unfold font_upd. destruct (font_at fs i); [|reflexivity]. destruct (i <? 6); reflexivity. Qed.
Lemma fmt_upd_xfs fs i f : xfs_of (fmt_upd fs i f) = xfs_of fs.
Proof. unfold fmt_upd. destruct (nth_error _ _); reflexivity. Qed.
Lemma font_mark_xfs fs p : xfs_of (font_mark fs p) = xfs_of fs.
Proof. destruct p; [apply font_upd_xfs|reflexivity]. Qed.
Lemma font_unmark_xfs fs p : xfs_of (font_unmark fs p) = xfs_of fs.
Proof. destruct p; [apply font_upd_xfs|reflexivity]. Qed.
Lemma fmt_mark_xfs fs p : xfs_of (fmt_mark fs p) = xfs_of fs.
Proof. destruct p; [apply fmt_upd_xfs|reflexivity]. Qed.
Lemma fmt_unmark_xfs fs p : xfs_of (fmt_unmark fs p) = xfs_of fs.
Proof. destruct p; [apply fmt_upd_xfs|reflexivity]. Qed.
Lemma xf_at_xfs fs fs' i : xfs_of fs = xfs_of fs' -> xf_at fs i = xf_at fs' i.
Proof. unfold xfs_of, xf_at. intro H. injection H as H1 H2. rewrite H1, H2. reflexivity. Qed.
Lemma fmt_apply_xfs fs x o fs' y : fmt_apply fs x o = Ok (fs', y) -> xfs_of fs' = xfs_of fs.
Proof.
  destruct o as [o|f|[f|]]; cbn [fmt_apply]; intro H.
  - destruct (xf_apply o x); cbn [bind] in H; try discriminate. injection H as <- _. reflexivity.
  - destruct (font_handle fs f); [|discriminate]. unfold xf_set_font in H. injection H as <- _. rewrite font_mark_xfs, font_unmark_xfs. reflexivity.
  - destruct (format_handle fs f); [|discriminate]. unfold xf_set_format in H. injection H as <- _. rewrite ?fmt_upd_xfs, fmt_unmark_xfs. reflexivity.
  - injection H as <- _. reflexivity.
Qed.
Lemma nth_error_upd_same {A} (l : list A) n v : (n < length l)%nat -> nth_error (upd n v l) n = Some v.
Proof.
  revert l. induction n; intros [|a l] H; cbn in *; try lia; auto. apply IHn. lia.
Qed.
Lemma xf_at_upd fs p f x : xf_at fs p = Some x -> xf_at (xf_upd fs p f) p = Some (f x).
Proof.
  intro H. unfold xf_upd. rewrite H. unfold xf_at in *. destruct (p <? 0); [discriminate|]. destruct (p <? 21) eqn:E; cbn [set_xfs fs_dxfs fs_xfs];
  apply nth_error_upd_same; apply nth_error_Some; congruence.
Qed.

(** Calling the setters [ops], in order, on the format [p]. *)
Fixpoint user_sets (fs : fstate) (p : Z) (ops : list fmtop) : res fstate :=
  match ops with
  | [] => Ok fs
  | o :: t => let* fs1 := xf_user fs p o in user_sets fs1 p t
  end.
Lemma user_sets_rel ops : forall fs p fs' x a, xf_at fs p = Some x -> rel x a -> Forall fits ops ->
  user_sets fs p ops = Ok fs' -> exists y, xf_at fs' p = Some y /\ rel y (fold_left (fun a o => spec_set o a) ops a).
Proof.
  induction ops as [|o t IH]; intros fs p fs' x a Hx R F H; cbn [user_sets] in H.
  - injection H as <-. exists x. auto.
  - unfold xf_user in H. rewrite Hx in H.
    destruct (fmt_apply fs x o) as [[fs1 y]| |] eqn:E; cbn [bind] in H; try discriminate.
    inversion F as [|? ? Fo Ft]; subst. cbn [fold_left].
    eapply IH; [| |exact Ft|exact H].
    + erewrite xf_at_upd; [reflexivity|]. rewrite (xf_at_xfs fs1 fs) by (eapply fmt_apply_xfs; eauto). exact Hx.
    + eapply fmt_apply_rel; eauto.
Qed.
Definition xf_zero : xf := mkXf 0 None None 0 2 0 0 0 64 65 true false false true true [0; 0; 0; 0; 0] [0; 0; 0; 0; 0] 0 0.
Lemma xf_new_zero : xf_new true true false = Ok xf_zero.
Proof. reflexivity. Qed.
Lemma wb_xformat_plain fs : wb_xformat fs None None = Ok (add_xf fs xf_zero).
Proof. unfold wb_xformat. rewrite xf_new_zero. reflexivity. Qed.
Lemma rel_zero : rel xf_zero default_attrs.
Proof.
  unfold rel, xf_fits, xf_zero; cbn [x_cell x_bs x_bc x_ha x_va x_ind x_ori x_fill x_fg x_bg x_flags x_fmt x_font length].
  repeat match goal with |- _ /\ _ => split end; try lia; try reflexivity; try (apply n16; lia); try (apply n128; lia).
  left; reflexivity.
Qed.
Lemma nth_error_last {A} (l : list A) x : nth_error (l ++ [x]) (length l) = Some x.
Proof. rewrite nth_error_app2, Nat.sub_diag by lia. reflexivity. Qed.

(** C24, history level: take a fresh format from the workbook (in any state of the
    workbook), call any sequence of setters on it; the record saved for it decodes to the
    attributes given by the last call for each, and to the defaults elsewhere. *)
Theorem C24_setters_decode : forall fs fs1 p ops fs2,
  wb_xformat fs None None = Ok (fs1, p) ->
  user_sets fs1 p ops = Ok fs2 -> Forall fits ops ->
  exists x payload, xf_at fs2 p = Some x
    /\ build (rec_xf x) = Ok (mkBU (frame 224 payload) false)
    /\ read_xf payload = Some (fold_left (fun a o => spec_set o a) ops default_attrs).
Proof.
  intros fs fs1 p ops fs2 H1 H2 F. rewrite wb_xformat_plain in H1.
  apply ok_inj in H1. unfold add_xf in H1. apply pair_equal_spec in H1. destruct H1 as [<- <-].
  assert (Hat : xf_at (set_xfs fs (fs_dxfs fs) (fs_xfs fs ++ [xf_zero])) (21 + zlen (fs_xfs fs)) = Some xf_zero).
  { unfold xf_at; cbn [set_xfs fs_xfs fs_dxfs].
    replace (21 + zlen (fs_xfs fs) <? 0) with false by (unfold zlen; lia).
    replace (21 + zlen (fs_xfs fs) <? 21) with false by (unfold zlen; lia).
    replace (Z.to_nat (21 + zlen (fs_xfs fs) - 21)) with (length (fs_xfs fs)) by (unfold zlen; lia).
    apply nth_error_last. }
  destruct (user_sets_rel ops _ _ _ xf_zero default_attrs Hat rel_zero F H2) as (y & Hy & R).
  destruct R as (_ & _ & _ & Fy & <-).
  destruct (C24_record_fields y Fy) as (pl & Hb & _ & Hr).
  exists y, pl. auto.
Qed.
Print Assumptions C24_setters_decode.

(** The hypotheses are met and the result is not the default. *)
Example C24_nonvacuous :
  exists fs fs1 p fs2 ops, fstate_init = Ok fs /\ wb_xformat fs None None = Ok (fs1, p)
    /\ ops = [FXf (XHAlign 2); FXf (XBStyle 3 5); FXf (XFill 1); FXf (XFg 17); FXf (XWrap true);
              FXf (XLocked false); FFont (Some 1); FXf (XHAlign 3); FXf (XIndent 5); FXf (XFormatNum 23)]
    /\ user_sets fs1 p ops = Ok fs2 /\ Forall fits ops
    /\ fold_left (fun a o => spec_set o a) ops default_attrs
       = mkXA 1 37 false false 3 true 2 0 5 (0, 0) (5, 64) (0, 0) (0, 0) 1 10 65 63.
Proof.
  destruct fstate_init as [fs| |] eqn:E; try (vm_compute in E; discriminate).
  assert (E' := E). vm_compute in E'. injection E' as <-.
  do 5 eexists. split; [exact E|]. split; [vm_compute; reflexivity|]. split; [reflexivity|].
  split; [vm_compute; reflexivity|]. split; [|reflexivity].
  repeat constructor; cbn [fits]; unfold name_agrees; lia.
Qed.

(** Named colours of the second half of the palette are saved as other colours: asking for
    CLR_PLUM2 (42nd name, palette entry 26) saves palette entry 25. *)
Theorem C24_named_colours_refuted :
  exists c x y payload, 0 <= c < 59 /\ xf_new true true false = Ok x /\ xf_apply (XFg c) x = Ok y
    /\ build (rec_xf y) = Ok (mkBU (frame 224 payload) false)
    /\ option_map xa_fore (read_xf payload) = Some 25 /\ palette_code c = 26.
Proof.
  exists 42, xf_zero. eexists. eexists. split; [lia|]. split; [reflexivity|].
  split; [reflexivity|]. split; [apply build_xf|]. split; vm_compute; reflexivity.
Qed.
Print Assumptions C24_named_colours_refuted.
