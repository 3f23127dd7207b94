(** The XF record decodes to the attributes of the object. *)
From Coq Require Import ZArith List Bool Lia.
From Coq Require Import ZifyBool ZifyNat.
From Verif Require Import Bytes UnitModel UnitProofs SpecBuf BufProofs RecModel SheetModel XfModel
  RecProofs RecFrames SpecXf.
Import ListNotations.
Local Open Scope Z_scope.
Ltac Zify.zify_post_hook ::= Z.div_mod_to_equations.

(** Bit fields as shifts and masks. *)
Definition fld (lo w v : Z) : Z := Z.land (Z.shiftr v lo) (Z.ones w).
Lemma fld_bits lo w v : 0 <= lo -> 0 <= w -> bits lo w v = fld lo w v.
Proof. intros. unfold bits, fld. rewrite Z.land_ones, Z.shiftr_div_pow2 by auto. reflexivity. Qed.
Lemma fld_lor lo w a b : fld lo w (Z.lor a b) = Z.lor (fld lo w a) (fld lo w b).
Proof. unfold fld. rewrite Z.shiftr_lor, Z.land_lor_distr_l. reflexivity. Qed.
Lemma fld_land lo w a b : fld lo w (Z.land a b) = Z.land (fld lo w a) (fld lo w b).
Proof.
  unfold fld. rewrite Z.shiftr_land. apply Z.bits_inj. intro n. rewrite !Z.land_spec.
  destruct (Z.testbit (Z.shiftr a lo) n), (Z.testbit (Z.shiftr b lo) n), (Z.testbit (Z.ones w) n); reflexivity.
Qed.
Lemma fld_ldiff lo w a b : fld lo w (Z.ldiff a b) = Z.ldiff (fld lo w a) (fld lo w b).
Proof.
  unfold fld. rewrite Z.shiftr_ldiff. apply Z.bits_inj. intro n. rewrite !Z.land_spec, !Z.ldiff_spec, !Z.land_spec.
  destruct (Z.testbit (Z.shiftr a lo) n), (Z.testbit (Z.shiftr b lo) n), (Z.testbit (Z.ones w) n); reflexivity.
Qed.
Lemma fld_put lo w m v x : fld lo w (put_field m v x) = put_field (fld lo w m) (fld lo w v) (fld lo w x).
Proof. unfold put_field. rewrite fld_lor, fld_land, fld_ldiff. reflexivity. Qed.
Lemma fld_mod lo w k v : 0 <= lo -> 0 <= w -> lo + w <= k -> fld lo w (v mod 2 ^ k) = fld lo w v.
Proof.
  intros. unfold fld. rewrite <- Z.land_ones by lia. apply Z.bits_inj'. intros n Hn.
  rewrite !Z.land_spec, !Z.shiftr_spec, Z.land_spec by lia.
  destruct (Z.ltb_spec n w).
  - rewrite (Z.ones_spec_low k) by lia. rewrite andb_true_r. reflexivity.
  - rewrite (Z.ones_spec_high w) by lia. rewrite !andb_false_r. reflexivity.
Qed.
Lemma fld_mod32 lo w v : 0 <= lo -> 0 <= w -> lo + w <= 32 -> fld lo w (v mod 4294967296) = fld lo w v.
Proof. intros. change 4294967296 with (2 ^ 32). apply fld_mod; auto. Qed.
Lemma fld_mod16 lo w v : 0 <= lo -> 0 <= w -> lo + w <= 16 -> fld lo w (v mod 65536) = fld lo w v.
Proof. intros. change 65536 with (2 ^ 16). apply fld_mod; auto. Qed.
Lemma fld_shift lo w v : 0 <= lo -> 0 <= w -> 0 <= v < 2 ^ w -> fld lo w (Z.shiftl v lo) = v.
Proof.
  intros. unfold fld. rewrite Z.shiftr_shiftl_l by lia. rewrite Z.sub_diag, Z.shiftl_0_r.
  rewrite Z.land_ones by auto. apply Z.mod_small; auto.
Qed.
Lemma fld_0 w v : 0 <= w -> 0 <= v < 2 ^ w -> fld 0 w v = v.
Proof. intros. rewrite <- (Z.shiftl_0_r v) at 1. apply fld_shift; lia. Qed.
Lemma put0 v x : put_field 0 v x = x.
Proof. unfold put_field. rewrite Z.ldiff_0_r, Z.land_0_r, Z.lor_0_r. reflexivity. Qed.
Lemma fld_range lo w v : 0 <= w -> 0 <= fld lo w v < 2 ^ w.
Proof. intros. unfold fld. rewrite Z.land_ones by auto. apply Z.mod_pos_bound. apply Z.pow_pos_nonneg; lia. Qed.
Lemma ldiff_self_field w x : 0 <= w -> 0 <= x < 2 ^ w -> Z.ldiff x (Z.ones w) = 0.
Proof.
  intros Hw Hx. apply Z.bits_inj'. intros n Hn. rewrite Z.ldiff_spec, Z.bits_0.
  destruct (Z.ltb_spec n w).
  - rewrite Z.ones_spec_low by lia. apply andb_false_r.
  - rewrite <- (Z.mod_small x (2 ^ w)) by auto. rewrite Z.mod_pow2_bits_high by lia. reflexivity.
Qed.
Lemma put_ones w v lo x : 0 <= w -> 0 <= v < 2 ^ w -> put_field (Z.ones w) v (fld lo w x) = v.
Proof.
  intros. unfold put_field. rewrite ldiff_self_field by (auto; apply fld_range; auto).
  rewrite Z.lor_0_l, Z.land_ones by auto. apply Z.mod_small; auto.
Qed.

(** The payload under construction. *)
Record x7 := mkX7 { q_font : Z; q_fmt : Z; q_prot : Z; q_al : Z; q_b1 : Z; q_b2 : Z; q_col : Z }.
Definition xbytes (s : x7) : list Z :=
  le16 (q_font s) ++ le16 (q_fmt s) ++ le16 (q_prot s) ++ le32 (q_al s) ++ le32 (q_b1 s) ++ le32 (q_b2 s)
  ++ le16 (q_col s).
Definition xrun (ops : list uop) (s : x7) : Prop :=
  exists t, ops = rec_new :: t /\ hrun (0, 0, []) t = Some (RT_XF, 20, xbytes s).

Lemma hstep_set16_piece t l a old c v i : length old = 2%nat ->
  i = 4 + zlen a -> i < 4294967280 ->
  hstep (t, l, a ++ old ++ c) (OSet16 v i) = Some (t, l, a ++ le16 v ++ c).
Proof.
  intros Ho Hi Hlt. pose proof (zlen_nonneg _ a). unfold hstep. cbn [op_bytes]. unfold hset.
  destruct (Z.eqb_spec i 0); [lia|]. destruct (Z.eqb_spec i 2); [lia|].
  replace ((4 <=? i) && (i <? 4294967280))%bool with true by lia.
  rewrite aset_bytes_piece; auto using le16_ok; try lia. rewrite zlen_le16. lia.
Qed.

Lemma xrun_bytes ops s : xrun ops s -> rec_bytes ops = le16 RT_XF ++ le16 20 ++ xbytes s.
Proof.
  intros (t & -> & H). unfold rec_bytes. cbn [arun_ops rec_new arun_op bind app].
  change (map (byte_k 0) [0; 0; 0; 0]) with (hbytes (0, 0, [])).
  destruct (hrun_ok _ _ _ H) as [es E]. rewrite E. reflexivity.
Qed.
Lemma xrun_build ops s : xrun ops s -> build ops = Ok (mkBU (frame RT_XF (xbytes s)) false).
Proof. intros (t & -> & H). apply build_frame. exact H. Qed.

Lemma xrun_snoc ops s o s' : xrun ops s ->
  hstep (RT_XF, 20, xbytes s) o = Some (RT_XF, 20, xbytes s') -> xrun (ops ++ [o]) s'.
Proof.
  intros (t & -> & H) Ho. exists (t ++ [o]). split; [reflexivity|]. rewrite hrun_app, H. cbn [hrun]. rewrite Ho. reflexivity.
Qed.

Lemma get32_al s : get_at 4 (le16 RT_XF ++ le16 20 ++ xbytes s) 10 = q_al s mod 4294967296.
Proof.
  unfold get_at. erewrite (rd_at 4 _ (le16 RT_XF ++ le16 20 ++ le16 (q_font s) ++ le16 (q_fmt s) ++ le16 (q_prot s))
    (le32 (q_al s)) (le32 (q_b1 s) ++ le32 (q_b2 s) ++ le16 (q_col s))); try reflexivity. apply le32_value.
Qed.
Lemma get32_b1 s : get_at 4 (le16 RT_XF ++ le16 20 ++ xbytes s) 14 = q_b1 s mod 4294967296.
Proof.
  unfold get_at. erewrite (rd_at 4 _ (le16 RT_XF ++ le16 20 ++ le16 (q_font s) ++ le16 (q_fmt s) ++ le16 (q_prot s) ++ le32 (q_al s))
    (le32 (q_b1 s)) (le32 (q_b2 s) ++ le16 (q_col s))); try reflexivity. apply le32_value.
Qed.
Lemma get32_b2 s : get_at 4 (le16 RT_XF ++ le16 20 ++ xbytes s) 18 = q_b2 s mod 4294967296.
Proof.
  unfold get_at. erewrite (rd_at 4 _ (le16 RT_XF ++ le16 20 ++ le16 (q_font s) ++ le16 (q_fmt s) ++ le16 (q_prot s) ++ le32 (q_al s) ++ le32 (q_b1 s))
    (le32 (q_b2 s)) (le16 (q_col s))); try reflexivity. apply le32_value.
Qed.
Lemma get16_prot s : get_at 2 (le16 RT_XF ++ le16 20 ++ xbytes s) 8 = q_prot s mod 65536.
Proof.
  unfold get_at. erewrite (rd_at 2 _ (le16 RT_XF ++ le16 20 ++ le16 (q_font s) ++ le16 (q_fmt s))
    (le16 (q_prot s)) (le32 (q_al s) ++ le32 (q_b1 s) ++ le32 (q_b2 s) ++ le16 (q_col s))); try reflexivity. apply le16_value.
Qed.
Lemma get16_col s : get_at 2 (le16 RT_XF ++ le16 20 ++ xbytes s) 22 = q_col s mod 65536.
Proof.
  unfold get_at. erewrite (rd_at 2 _ (le16 RT_XF ++ le16 20 ++ le16 (q_font s) ++ le16 (q_fmt s) ++ le16 (q_prot s) ++ le32 (q_al s) ++ le32 (q_b1 s) ++ le32 (q_b2 s))
    (le16 (q_col s)) []); try reflexivity. apply le16_value.
Qed.

Definition on_al f s := mkX7 (q_font s) (q_fmt s) (q_prot s) (f (q_al s mod 4294967296)) (q_b1 s) (q_b2 s) (q_col s).
Definition on_b1 f s := mkX7 (q_font s) (q_fmt s) (q_prot s) (q_al s) (f (q_b1 s mod 4294967296)) (q_b2 s) (q_col s).
Definition on_b2 f s := mkX7 (q_font s) (q_fmt s) (q_prot s) (q_al s) (q_b1 s) (f (q_b2 s mod 4294967296)) (q_col s).
Definition on_prot f s := mkX7 (q_font s) (q_fmt s) (f (q_prot s mod 65536)) (q_al s) (q_b1 s) (q_b2 s) (q_col s).
Definition on_col f s := mkX7 (q_font s) (q_fmt s) (q_prot s) (q_al s) (q_b1 s) (q_b2 s) (f (q_col s mod 65536)).

Lemma rmw_al f ops s : xrun ops s -> xrun (rmw32 10 f ops) (on_al f s).
Proof.
  intro H. unfold rmw32. rewrite (xrun_bytes _ _ H), get32_al. eapply xrun_snoc; [exact H|].
  exact (hstep_set32_piece RT_XF 20 (le16 (q_font s) ++ le16 (q_fmt s) ++ le16 (q_prot s)) (le32 (q_al s))
    (le32 (q_b1 s) ++ le32 (q_b2 s) ++ le16 (q_col s)) _ 10 eq_refl eq_refl eq_refl).
Qed.
Lemma rmw_b1 f ops s : xrun ops s -> xrun (rmw32 14 f ops) (on_b1 f s).
Proof.
  intro H. unfold rmw32. rewrite (xrun_bytes _ _ H), get32_b1. eapply xrun_snoc; [exact H|].
  exact (hstep_set32_piece RT_XF 20 (le16 (q_font s) ++ le16 (q_fmt s) ++ le16 (q_prot s) ++ le32 (q_al s)) (le32 (q_b1 s))
    (le32 (q_b2 s) ++ le16 (q_col s)) _ 14 eq_refl eq_refl eq_refl).
Qed.
Lemma rmw_b2 f ops s : xrun ops s -> xrun (rmw32 18 f ops) (on_b2 f s).
Proof.
  intro H. unfold rmw32. rewrite (xrun_bytes _ _ H), get32_b2. eapply xrun_snoc; [exact H|].
  exact (hstep_set32_piece RT_XF 20 (le16 (q_font s) ++ le16 (q_fmt s) ++ le16 (q_prot s) ++ le32 (q_al s) ++ le32 (q_b1 s)) (le32 (q_b2 s))
    (le16 (q_col s)) _ 18 eq_refl eq_refl eq_refl).
Qed.
Lemma rmw_prot f ops s : xrun ops s -> xrun (rmw16 8 f ops) (on_prot f s).
Proof.
  intro H. unfold rmw16. rewrite (xrun_bytes _ _ H), get16_prot. eapply xrun_snoc; [exact H|].
  exact (hstep_set16_piece RT_XF 20 (le16 (q_font s) ++ le16 (q_fmt s)) (le16 (q_prot s))
    (le32 (q_al s) ++ le32 (q_b1 s) ++ le32 (q_b2 s) ++ le16 (q_col s)) _ 8 eq_refl eq_refl eq_refl).
Qed.
Lemma rmw_col f ops s : xrun ops s -> xrun (rmw16 22 f ops) (on_col f s).
Proof.
  intro H. unfold rmw16. rewrite (xrun_bytes _ _ H), get16_col. eapply xrun_snoc; [exact H|].
  exact (hstep_set16_piece RT_XF 20 (le16 (q_font s) ++ le16 (q_fmt s) ++ le16 (q_prot s) ++ le32 (q_al s) ++ le32 (q_b1 s) ++ le32 (q_b2 s))
    (le16 (q_col s)) [] _ 22 eq_refl eq_refl eq_refl).
Qed.

Definition xstate0 (x : xf) : x7 :=
  mkX7 (match x_font x with Some i => i | None => 0 end) (x_fmt x)
       (if x_cell x then 0 else 65524) (if x_cell x then 0 else 4227858464) 0 0
       (if x_cell x then 0 else 8384).
Lemma xrun0 x : xrun [rec_new; set_type RT_XF; OArray (xf_dummy (x_cell x)); set_len;
             OSet16 (match x_font x with Some i => i | None => 0 end) 4; OSet16 (x_fmt x) 6] (xstate0 x).
Proof.
  eexists. split; [reflexivity|]. unfold xstate0. cbn [hrun]. rewrite hstep_set_type.
  erewrite hstep_add by reflexivity. rewrite hstep_set_len.
  set (i := match x_font x with Some i => i | None => 0 end).
  destruct (x_cell x).
  - change (zlen ([] ++ map (byte_k 0) (xf_dummy true))) with 20.
    change ([] ++ map (byte_k 0) (xf_dummy true)) with
      ([] ++ le16 0 ++ (le16 0 ++ le16 0 ++ le32 0 ++ le32 0 ++ le32 0 ++ le16 0)).
    rewrite (hstep_set16_piece RT_XF 20 [] (le16 0) _ i 4 eq_refl eq_refl eq_refl). cbn [app].
    change (le16 i ++ le16 0 ++ le16 0 ++ le32 0 ++ le32 0 ++ le32 0 ++ le16 0) with
      (le16 i ++ le16 0 ++ (le16 0 ++ le32 0 ++ le32 0 ++ le32 0 ++ le16 0)).
    rewrite (hstep_set16_piece RT_XF 20 (le16 i) (le16 0) _ (x_fmt x) 6 eq_refl eq_refl eq_refl).
    reflexivity.
  - change (zlen ([] ++ map (byte_k 0) (xf_dummy false))) with 20.
    change ([] ++ map (byte_k 0) (xf_dummy false)) with
      ([] ++ le16 0 ++ (le16 0 ++ le16 65524 ++ le32 4227858464 ++ le32 0 ++ le32 0 ++ le16 8384)).
    rewrite (hstep_set16_piece RT_XF 20 [] (le16 0) _ i 4 eq_refl eq_refl eq_refl). cbn [app].
    change (le16 i ++ le16 0 ++ le16 65524 ++ le32 4227858464 ++ le32 0 ++ le32 0 ++ le16 8384) with
      (le16 i ++ le16 0 ++ (le16 65524 ++ le32 4227858464 ++ le32 0 ++ le32 0 ++ le16 8384)).
    rewrite (hstep_set16_piece RT_XF 20 (le16 i) (le16 0) _ (x_fmt x) 6 eq_refl eq_refl eq_refl).
    reflexivity.
Qed.

(** The state after CExtFormat. *)
Definition xstate (x : xf) : x7 :=
  let bs k := nth k (x_bs x) 0 in
  let bc k := nth k (x_bc x) 0 in
  let s := xstate0 x in
  let s := on_al (put_field 7 (x_ha x)) s in
  let s := on_al (put_field 112 (Z.shiftl (x_va x) 4)) s in
  let s := on_al (put_field (Z.shiftl (indent_mask (x_ind x)) 16) (Z.shiftl (x_ind x) 16)) s in
  let s := on_al (put_field 65280 (Z.shiftl (x_ori x) 8)) s in
  let s := on_col (put_field 127 (x_fg x)) s in
  let s := on_col (put_field 16256 (Z.shiftl (x_bg x) 7 mod 65536)) s in
  let s := on_b2 (put_field 4227858432 (w32 (Z.shiftl (x_fill x) 26))) s in
  let s := on_prot (put_bit 1 (x_locked x)) s in
  let s := on_prot (put_bit 2 (x_hidden x)) s in
  let s := on_al (put_bit 8 (x_wrap x)) s in
  let s := on_b1 (put_field 61440 (Z.shiftl (bs 0%nat) 12)) s in
  let s := on_b2 (put_field 16256 (Z.shiftl (bc 0%nat) 7)) s in
  let s := on_b1 (put_field 3840 (Z.shiftl (bs 1%nat) 8)) s in
  let s := on_b2 (put_field 127 (bc 1%nat)) s in
  let s := on_b1 (fun v => Z.lor (Z.ldiff v 8323087)
               (Z.lor (Z.land (Z.shiftl (bc 2%nat) 16) 8323072) (Z.land (bs 2%nat) 15))) s in
  let s := on_b1 (fun v => Z.lor (Z.ldiff v 1065353456)
               (Z.lor (Z.land (w32 (Z.shiftl (bc 3%nat) 23)) 1065353216)
                      (Z.land (Z.shiftl (bs 3%nat) 4) 240))) s in
  let s := on_al (put_field 4227858432 (Z.shiftl (x_flags x) 24)) s in
  if x_cell x then on_prot (put_field 65520 0) s else s.

Lemma rec_xf_run x : xrun (rec_xf x) (xstate x).
Proof.
  unfold rec_xf, xstate. cbv zeta.
  assert (G : forall a b c d, xrun a c -> xrun b d ->
     xrun (if x_cell x then a else b) (if x_cell x then c else d)) by (intros; destruct (x_cell x); auto).
  apply G; [apply rmw_prot|]; repeat first [apply rmw_al | apply rmw_b1 | apply rmw_b2 | apply rmw_prot | apply rmw_col];
  apply xrun0.
Qed.

Lemma build_xf x : build (rec_xf x) = Ok (mkBU (frame RT_XF (xbytes (xstate x))) false).
Proof. apply xrun_build, rec_xf_run. Qed.
Lemma xbytes_length s : zlen (xbytes s) = 20.
Proof. reflexivity. Qed.

(** Attributes within the width of their fields, as every setter leaves them. *)
Definition xf_fits (x : xf) : Prop :=
  0 <= x_ha x < 8 /\ 0 <= x_va x < 8 /\ In (x_ind x) INDENT_TABLE /\ 0 <= x_ori x < 256 /\
  0 <= x_fill x < 64 /\ 0 <= x_fg x < 128 /\ 0 <= x_bg x < 128 /\
  (forall k, 0 <= nth k (x_bs x) 0 < 16) /\ (forall k, 0 <= nth k (x_bc x) 0 < 128) /\
  0 <= x_flags x < 256 /\ 0 <= x_fmt x < 65536 /\ 0 <= (match x_font x with Some i => i | None => 0 end) < 65536.

Definition attrs_of (x : xf) : xfattrs :=
  let side k := (nth k (x_bs x) 0, nth k (x_bc x) 0) in
  mkXA (match x_font x with Some i => i | None => 0 end) (x_fmt x) (x_locked x) (x_hidden x)
       (x_ha x) (x_wrap x) (x_va x) (x_ori x) (x_ind x)
       (side 2%nat) (side 3%nat) (side 1%nat) (side 0%nat) (x_fill x) (x_fg x) (x_bg x) (x_flags x / 4).

Lemma fld_put_bit lo w m (b : bool) x : fld lo w (put_bit m b x) =
  if b then Z.lor (fld lo w x) (fld lo w m) else Z.ldiff (fld lo w x) (fld lo w m).
Proof. unfold put_bit. destruct b; [apply fld_lor|apply fld_ldiff]. Qed.

Ltac fconst := repeat match goal with
  |- context [fld ?a ?b ?c] =>
     let v := eval vm_compute in (fld a b c) in
     lazymatch v with Zpos _ => idtac | Z0 => idtac end;
     change (fld a b c) with v end.
Ltac fpeel := rewrite ?fld_mod32, ?fld_mod16 by lia;
  rewrite ?fld_put, ?fld_put_bit, ?fld_lor, ?fld_ldiff, ?fld_land.

Lemma bit1 lo v : 0 <= lo -> (bits lo 1 v =? 1) = Z.testbit v lo.
Proof.
  intro. unfold bits. rewrite <- Z.shiftr_div_pow2 by auto. change (2 ^ 1) with 2.
  rewrite <- Z.bit0_mod. rewrite Z.shiftr_spec by lia. rewrite Z.add_0_l.
  destruct (Z.testbit v lo); reflexivity.
Qed.

Lemma read_xbytes s :
  read_xf (xbytes s) = Some (
    mkXA (q_font s mod 65536) (q_fmt s mod 65536) (Z.testbit (q_prot s mod 65536) 0) (Z.testbit (q_prot s mod 65536) 1)
      (fld 0 3 (q_al s)) (Z.testbit (q_al s mod 4294967296) 3) (fld 4 3 (q_al s)) (fld 8 8 (q_al s)) (fld 16 8 (q_al s))
      (fld 0 4 (q_b1 s), fld 16 7 (q_b1 s)) (fld 4 4 (q_b1 s), fld 23 7 (q_b1 s))
      (fld 8 4 (q_b1 s), fld 0 7 (q_b2 s)) (fld 12 4 (q_b1 s), fld 7 7 (q_b2 s))
      (fld 26 6 (q_b2 s)) (fld 0 7 (q_col s)) (fld 7 7 (q_col s)) (fld 26 6 (q_al s))).
Proof.
  unfold read_xf. change (Nat.eqb (length (xbytes s)) 20) with true. cbv zeta iota.
  change (word 2 0 (xbytes s)) with (le_value (le16 (q_font s))).
  change (word 2 2 (xbytes s)) with (le_value (le16 (q_fmt s))).
  change (word 2 4 (xbytes s)) with (le_value (le16 (q_prot s))).
  change (word 4 6 (xbytes s)) with (le_value (le32 (q_al s))).
  change (word 4 10 (xbytes s)) with (le_value (le32 (q_b1 s))).
  change (word 4 14 (xbytes s)) with (le_value (le32 (q_b2 s))).
  change (word 2 18 (xbytes s)) with (le_value (le16 (q_col s))).
  rewrite !le16_value, !le32_value. rewrite !bit1 by lia.
  rewrite !fld_bits by lia. rewrite !fld_mod32, !fld_mod16 by lia. reflexivity.
Qed.

Lemma tb_put_bit m b x n : 0 <= n -> Z.testbit (put_bit m b x) n = if Z.testbit m n then b else Z.testbit x n.
Proof.
  intro. unfold put_bit. destruct b; rewrite ?Z.lor_spec, ?Z.ldiff_spec; destruct (Z.testbit m n), (Z.testbit x n); reflexivity.
Qed.
Lemma tb_put_field m v x n : Z.testbit (put_field m v x) n = if Z.testbit m n then Z.testbit v n else Z.testbit x n.
Proof.
  unfold put_field. rewrite Z.lor_spec, Z.ldiff_spec, Z.land_spec.
  destruct (Z.testbit m n), (Z.testbit x n), (Z.testbit v n); reflexivity.
Qed.
Lemma tb_mod32 x n : 0 <= n < 32 -> Z.testbit (x mod 4294967296) n = Z.testbit x n.
Proof. intro. change 4294967296 with (2 ^ 32). apply Z.mod_pow2_bits_low. lia. Qed.
Lemma tb_mod16 x n : 0 <= n < 16 -> Z.testbit (x mod 65536) n = Z.testbit x n.
Proof. intro. change 65536 with (2 ^ 16). apply Z.mod_pow2_bits_low. lia. Qed.

Lemma indent_facts v : In v INDENT_TABLE ->
  let m := Z.shiftl (indent_mask v) 16 in
  fld 0 3 m = 0 /\ fld 4 3 m = 0 /\ fld 8 8 m = 0 /\ Z.testbit m 3 = false /\
  put_field (fld 16 8 m) (fld 16 8 (Z.shiftl v 16)) 0 = v.
Proof.
  unfold INDENT_TABLE. cbn [In]. intro H.
  repeat (destruct H as [<-|H]; [repeat split; vm_compute; reflexivity|]). destruct H.
Qed.

Lemma ldiff_fld lo w v : 0 <= w -> Z.ldiff (fld lo w v) (Z.ones w) = 0.
Proof. intro. apply ldiff_self_field; auto. apply fld_range; auto. Qed.
Lemma land_fld lo w v : 0 <= w -> Z.land (fld lo w v) (Z.ones w) = fld lo w v.
Proof. intro. rewrite Z.land_ones by auto. apply Z.mod_small, fld_range; auto. Qed.

(** Peeling one read-modify-write. *)
Lemma pf0 lo w m v x : fld lo w m = 0 -> 0 <= lo -> 0 <= w -> lo + w <= 32 ->
  fld lo w (put_field m v (x mod 4294967296)) = fld lo w x.
Proof. intros E ? ? ?. rewrite fld_put, E, put0. apply fld_mod32; auto. Qed.
Lemma pf1 lo w m v x : fld lo w m = Z.ones w -> 0 <= w ->
  fld lo w (put_field m v x) = fld lo w v.
Proof. intros E ?. rewrite fld_put, E. apply put_ones; auto. apply fld_range; auto. Qed.
Lemma pb0 lo w m b x : fld lo w m = 0 -> 0 <= lo -> 0 <= w -> lo + w <= 32 ->
  fld lo w (put_bit m b (x mod 4294967296)) = fld lo w x.
Proof. intros E ? ? ?. rewrite fld_put_bit, E, Z.lor_0_r, Z.ldiff_0_r. destruct b; apply fld_mod32; auto. Qed.
Lemma pf0' lo w m v x : fld lo w m = 0 -> 0 <= lo -> 0 <= w -> lo + w <= 16 ->
  fld lo w (put_field m v (x mod 65536)) = fld lo w x.
Proof. intros E ? ? ?. rewrite fld_put, E, put0. apply fld_mod16; auto. Qed.
(** Two fields stored at once. *)
Definition put2 (m m1 m2 a b x : Z) : Z := Z.lor (Z.ldiff x m) (Z.lor (Z.land a m1) (Z.land b m2)).
Lemma p20 lo w m m1 m2 a b x : fld lo w m = 0 -> fld lo w m1 = 0 -> fld lo w m2 = 0 ->
  0 <= lo -> 0 <= w -> lo + w <= 32 ->
  fld lo w (put2 m m1 m2 a b (x mod 4294967296)) = fld lo w x.
Proof.
  intros E E1 E2 ? ? ?. unfold put2. rewrite !fld_lor, !fld_land, fld_ldiff, E, E1, E2.
  rewrite Z.ldiff_0_r, !Z.land_0_r, !Z.lor_0_r. apply fld_mod32; auto.
Qed.
Lemma p2a lo w m m1 m2 a b x : fld lo w m = Z.ones w -> fld lo w m1 = Z.ones w -> fld lo w m2 = 0 ->
  0 <= w -> fld lo w (put2 m m1 m2 a b x) = fld lo w a.
Proof.
  intros E E1 E2 ?. unfold put2. rewrite !fld_lor, !fld_land, fld_ldiff, E, E1, E2.
  rewrite ldiff_fld, land_fld, Z.land_0_r by auto. rewrite Z.lor_0_l, Z.lor_0_r. reflexivity.
Qed.
Lemma p2b lo w m m1 m2 a b x : fld lo w m = Z.ones w -> fld lo w m1 = 0 -> fld lo w m2 = Z.ones w ->
  0 <= w -> fld lo w (put2 m m1 m2 a b x) = fld lo w b.
Proof.
  intros E E1 E2 ?. unfold put2. rewrite !fld_lor, !fld_land, fld_ldiff, E, E1, E2.
  rewrite ldiff_fld, land_fld, Z.land_0_r by auto. rewrite Z.lor_0_l. reflexivity.
Qed.

Ltac side_c := first [reflexivity | lia].
Ltac peel := repeat first
  [ rewrite pf0 by side_c | rewrite pf0' by side_c | rewrite pb0 by side_c | rewrite p20 by side_c
  | rewrite pf1 by side_c | rewrite p2a by side_c | rewrite p2b by side_c ].

Definition al_word (flags : Z) (wrap : bool) (ori ind va ha b : Z) : Z :=
  put_field 4227858432 (Z.shiftl flags 24) (
     (put_bit 8 wrap ((put_field 65280 (Z.shiftl ori 8) (
       (put_field (Z.shiftl (indent_mask ind) 16) (Z.shiftl ind 16) (
        (put_field 112 (Z.shiftl va 4) ((put_field 7 ha
          (b mod 4294967296)) mod 4294967296))
        mod 4294967296)) mod 4294967296)) mod 4294967296)) mod 4294967296).
Lemma al_fields flags wrap ori ind va ha b : In ind INDENT_TABLE -> fld 16 8 b = 0 ->
  0 <= ha < 8 -> 0 <= va < 8 -> 0 <= ori < 256 -> 0 <= flags < 256 ->
  let a := al_word flags wrap ori ind va ha b in
  fld 0 3 a = ha /\ fld 4 3 a = va /\ fld 8 8 a = ori /\ fld 16 8 a = ind /\ fld 26 6 a = flags / 4.
Proof.
  intros Hi Hb Hha Hva Hori Hfl. destruct (indent_facts _ Hi) as (I1 & I2 & I3 & I4 & I5). cbv zeta in *.
  unfold al_word. repeat split.
  - peel. apply fld_0; cbn; lia.
  - peel. apply fld_shift; cbn; lia.
  - peel. apply fld_shift; cbn; lia.
  - peel. rewrite fld_put. rewrite fld_mod32 by lia. peel. rewrite ?fld_mod32 by lia. rewrite Hb. exact I5.
  - rewrite pf1 by side_c. rewrite <- fld_bits by lia. unfold bits. rewrite Z.shiftl_mul_pow2 by lia.
    change (2 ^ 26) with (2 ^ 24 * 4). rewrite <- Z.div_div by lia. rewrite Z.div_mul by (cbn; lia).
    apply Z.mod_small. change (2 ^ 6) with 64. split; [apply Z.div_pos; lia|apply Z.div_lt_upper_bound; lia].
Qed.
Definition col_word (bg fg b : Z) : Z :=
  put_field 16256 (Z.shiftl bg 7 mod 65536) ((put_field 127 fg (b mod 65536)) mod 65536).
Lemma col_fields bg fg b : 0 <= bg < 128 -> 0 <= fg < 128 ->
  fld 0 7 (col_word bg fg b) = fg /\ fld 7 7 (col_word bg fg b) = bg.
Proof.
  intros. unfold col_word. split.
  - peel. apply fld_0; cbn; lia.
  - peel. rewrite fld_mod16 by lia. apply fld_shift; cbn; lia.
Qed.
Definition b2_word (c1 c0 fill b : Z) : Z :=
  put_field 127 c1 ((put_field 16256 (Z.shiftl c0 7) ((put_field 4227858432 (w32 (Z.shiftl fill 26))
       (b mod 4294967296)) mod 4294967296)) mod 4294967296).
Lemma b2_fields c1 c0 fill b : 0 <= c1 < 128 -> 0 <= c0 < 128 -> 0 <= fill < 64 ->
  let a := b2_word c1 c0 fill b in
  fld 0 7 a = c1 /\ fld 7 7 a = c0 /\ fld 26 6 a = fill.
Proof.
  intros. unfold b2_word in *. subst a. repeat split.
  - peel. apply fld_0; cbn; lia.
  - peel. apply fld_shift; cbn; lia.
  - peel. unfold w32. rewrite fld_mod32 by lia. apply fld_shift; cbn; lia.
Qed.
Definition b1_word (s0 s1 s2 s3 c2 c3 b : Z) : Z :=
  put2 1065353456 1065353216 240 (w32 (Z.shiftl c3 23)) (Z.shiftl s3 4)
   ((put2 8323087 8323072 15 (Z.shiftl c2 16) s2
     ((put_field 3840 (Z.shiftl s1 8) ((put_field 61440 (Z.shiftl s0 12) (b mod 4294967296)) mod 4294967296))
       mod 4294967296)) mod 4294967296).
Lemma b1_fields s0 s1 s2 s3 c2 c3 b : 0 <= s0 < 16 -> 0 <= s1 < 16 -> 0 <= s2 < 16 -> 0 <= s3 < 16 ->
  0 <= c2 < 128 -> 0 <= c3 < 128 ->
  let a := b1_word s0 s1 s2 s3 c2 c3 b in
  fld 0 4 a = s2 /\ fld 4 4 a = s3 /\ fld 8 4 a = s1 /\ fld 12 4 a = s0 /\ fld 16 7 a = c2 /\ fld 23 7 a = c3.
Proof.
  intros. unfold b1_word in *. subst a. repeat split.
  - peel. apply fld_0; cbn; lia.
  - peel. apply fld_shift; cbn; lia.
  - peel. apply fld_shift; cbn; lia.
  - peel. apply fld_shift; cbn; lia.
  - peel. apply fld_shift; cbn; lia.
  - peel. unfold w32. rewrite fld_mod32 by lia. apply fld_shift; cbn; lia.
Qed.

Lemma read_xstate x : xf_fits x -> read_xf (xbytes (xstate x)) = Some (attrs_of x).
Proof.
  intros (Hha & Hva & Hind & Hori & Hfill & Hfg & Hbg & Hbs & Hbc & Hfl & Hfmt & Hfont).
  rewrite read_xbytes.
  assert (Eal : q_al (xstate x) = al_word (x_flags x) (x_wrap x) (x_ori x) (x_ind x) (x_va x) (x_ha x)
     (if x_cell x then 0 else 4227858464)).
  { unfold xstate, xstate0. destruct (x_cell x); reflexivity. }
  assert (Eprot : Z.testbit (q_prot (xstate x) mod 65536) 0 = x_locked x /\ Z.testbit (q_prot (xstate x) mod 65536) 1 = x_hidden x).
  { assert (Ep : q_prot (xstate x) =
      let q := put_bit 2 (x_hidden x) (put_bit 1 (x_locked x) ((if x_cell x then 0 else 65524) mod 65536) mod 65536) in
      if x_cell x then put_field 65520 0 (q mod 65536) else q).
    { unfold xstate, xstate0. destruct (x_cell x); reflexivity. }
    rewrite Ep. cbv zeta. destruct (x_cell x); rewrite ?tb_mod16, ?tb_put_field, ?tb_mod16, ?tb_put_bit, ?tb_mod16, ?tb_put_bit by lia;
    split; reflexivity. }
  destruct Eprot as [El Eh]. rewrite El, Eh.
  assert (Ew : Z.testbit (q_al (xstate x) mod 4294967296) 3 = x_wrap x).
  { rewrite Eal. unfold al_word. rewrite tb_mod32, tb_put_field, tb_mod32, tb_put_bit by lia. reflexivity. }
  rewrite Ew.
  assert (Ec : q_col (xstate x) = col_word (x_bg x) (x_fg x) (if x_cell x then 0 else 8384)).
  { unfold xstate, xstate0. destruct (x_cell x); reflexivity. }
  assert (Eb2 : q_b2 (xstate x) = b2_word (nth 1 (x_bc x) 0) (nth 0 (x_bc x) 0) (x_fill x) 0).
  { unfold xstate, xstate0. destruct (x_cell x); reflexivity. }
  assert (Eb1 : q_b1 (xstate x) = b1_word (nth 0 (x_bs x) 0) (nth 1 (x_bs x) 0) (nth 2 (x_bs x) 0)
    (nth 3 (x_bs x) 0) (nth 2 (x_bc x) 0) (nth 3 (x_bc x) 0) 0).
  { unfold xstate, xstate0. destruct (x_cell x); reflexivity. }
  assert (Ff : q_font (xstate x) = match x_font x with Some i => i | None => 0 end).
  { unfold xstate. destruct (x_cell x); reflexivity. }
  assert (Fm : q_fmt (xstate x) = x_fmt x).
  { unfold xstate. destruct (x_cell x); reflexivity. }
  rewrite Eal, Ec, Eb2, Eb1.
  destruct (al_fields (x_flags x) (x_wrap x) (x_ori x) (x_ind x) (x_va x) (x_ha x)
    (if x_cell x then 0 else 4227858464) Hind) as (A1 & A2 & A3 & A4 & A5); auto.
  { destruct (x_cell x); reflexivity. }
  destruct (col_fields (x_bg x) (x_fg x) (if x_cell x then 0 else 8384)) as (C1 & C2); auto.
  destruct (b2_fields (nth 1 (x_bc x) 0) (nth 0 (x_bc x) 0) (x_fill x) 0) as (D1 & D2 & D3); auto.
  destruct (b1_fields (nth 0 (x_bs x) 0) (nth 1 (x_bs x) 0) (nth 2 (x_bs x) 0)
    (nth 3 (x_bs x) 0) (nth 2 (x_bc x) 0) (nth 3 (x_bc x) 0) 0) as (E1 & E2 & E3 & E4 & E5 & E6); auto.
  rewrite A1, A2, A3, A4, A5, C1, C2, D1, D2, D3, E1, E2, E3, E4, E5, E6.
  rewrite Ff, Fm, (Z.mod_small (x_fmt x)), (Z.mod_small (match x_font x with Some i => i | None => 0 end)) by auto.
  reflexivity.
Qed.
