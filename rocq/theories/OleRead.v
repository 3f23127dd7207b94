(** The file image written for three root streams is read back by the independent
    reader of SpecCFB. *)
From Coq Require Import ZArith List Lia Bool Permutation.
From Coq Require Import ZifyBool ZifyNat.
From Verif Require Import Bytes UnitModel OleModel OleBat SpecCFB OleProofs.
Import ListNotations.
Local Open Scope Z_scope.
Ltac Zify.zify_post_hook ::= Z.div_mod_to_equations.

(** Specification of stream padding: zeros up to a multiple of 512, at least 4096. *)
Definition padded_size (n : Z) : Z := Z.max 4096 ((n + 511) / 512 * 512).
Definition padded (l : list Z) : list Z := l ++ repeat 0 (Z.to_nat (padded_size (zlen l) - zlen l)).

Lemma padded_size_ge n : 0 <= n -> n <= padded_size n /\ 4096 <= padded_size n /\ padded_size n mod 512 = 0.
Proof. unfold padded_size. intro. lia. Qed.
Lemma padded_zlen l : zlen (padded l) = padded_size (zlen l).
Proof.
  unfold padded. rewrite zlen_app, zlen_repeat.
  pose proof (padded_size_ge (zlen l) (zlen_nonneg _ l)). lia.
Qed.

Lemma trail_spec sz : 0 <= sz ->
  trail_and_size sz = (padded_size sz - sz, padded_size sz).
Proof.
  intro H. unfold trail_and_size, padded_size, BIG_BLOCK_SIZE, MIN_DATA_SIZE.
  destruct (Z.eqb_spec (sz mod 512) 0);
  match goal with |- context [if ?b then _ else _] => destruct b eqn:E end; f_equal; lia.
Qed.

Lemma units_size_concat us : units_size us = zlen (concat us).
Proof.
  induction us; [reflexivity|]. cbn [units_size fold_right concat].
  fold (units_size us). rewrite IHus, zlen_app. reflexivity.
Qed.

Definition pad_units (us : list (list Z)) : list (list Z) :=
  us ++ [repeat 0 (Z.to_nat (padded_size (zlen (concat us)) - zlen (concat us)))].
Lemma pad_units_concat us : concat (pad_units us) = padded (concat us).
Proof. unfold pad_units, padded. rewrite concat_app. cbn [concat]. rewrite app_nil_r. reflexivity. Qed.

(** ** The directory tree of three root streams *)
Definition prop3 (i prev next start : Z) (n : list Z) (us : list (list Z)) : oprop :=
  mkProp i n PTYPE_FILE 1 prev next (-1) start (padded_size (zlen (concat us))) (Some (pad_units us)).
Definition tree3 (n1 n2 n3 : list Z) (us1 us2 us3 : list (list Z)) : otree :=
  OT (mkProp 0 root_name PTYPE_ROOT 1 (-1) (-1) 2 (-2) 0 None)
     [OT (prop3 1 (-1) (-1) 0 n1 us1) []; OT (prop3 2 1 3 0 n2 us2) [];
      OT (prop3 3 (-1) (-1) 0 n3 us3) []].

Lemma name_eqb_refl n : name_eqb n n = true.
Proof. unfold name_eqb. destruct list_eq_dec; congruence. Qed.
Lemma name_eqb_neq a b : a <> b -> name_eqb a b = false.
Proof. unfold name_eqb. intro. destruct list_eq_dec; congruence. Qed.

Definition root3 (c : Z) : oprop := mkProp 0 root_name PTYPE_ROOT 1 (-1) (-1) c (-2) 0 None.

Ltac fs_step :=
  unfold add_file;
  match goal with H : split_path _ = [_] |- _ => rewrite H; clear H end;
  rewrite units_size_concat, trail_spec by apply zlen_nonneg;
  repeat (cbn -[name_eqb padded_size zlen concat repeat Z.to_nat];
          first [rewrite name_eqb_refl | rewrite name_eqb_neq by congruence]);
  cbn -[name_eqb padded_size zlen concat repeat Z.to_nat]; reflexivity.

Lemma add_first q n us : split_path q = [n] ->
  add_file fs_new q us = Ok (0, mkFs (OT (root3 1) [OT (prop3 1 (-1) (-1) 0 n us) []]) 1).
Proof. intro. fs_step. Qed.
Lemma add_second q n n1 us us1 : split_path q = [n] -> n1 <> n ->
  add_file (mkFs (OT (root3 1) [OT (prop3 1 (-1) (-1) 0 n1 us1) []]) 1) q us
  = Ok (0, mkFs (OT (root3 2) [OT (prop3 1 (-1) (-1) 0 n1 us1) []; OT (prop3 2 1 (-1) 0 n us) []]) 2).
Proof. intros. fs_step. Qed.
Lemma add_third q n n1 n2 us us1 us2 : split_path q = [n] -> n1 <> n -> n2 <> n ->
  add_file (mkFs (OT (root3 2) [OT (prop3 1 (-1) (-1) 0 n1 us1) []; OT (prop3 2 1 (-1) 0 n2 us2) []]) 2) q us
  = Ok (0, mkFs (tree3 n1 n2 n us1 us2 us) 3).
Proof. intros. fs_step. Qed.

Lemma add_three_tree q1 q2 q3 n1 n2 n3 us1 us2 us3 :
  split_path q1 = [n1] -> split_path q2 = [n2] -> split_path q3 = [n3] ->
  n1 <> n2 -> n1 <> n3 -> n2 <> n3 ->
  add_three_at q1 q2 q3 us1 us2 us3 = Ok (mkFs (tree3 n1 n2 n3 us1 us2 us3) 3).
Proof.
  intros S1 S2 S3 N12 N13 N23. unfold add_three_at.
  rewrite (add_first q1 n1) by auto. cbn [bind].
  rewrite (add_second q2 n2) by auto. cbn [bind].
  rewrite (add_third q3 n3) by auto. reflexivity.
Qed.

Definition nodes3 (n1 n2 n3 : list Z) (us1 us2 us3 : list (list Z)) (b1 b2 b3 : Z) : list oprop :=
  [prop3 1 (-1) (-1) b1 n1 us1; prop3 2 1 3 b2 n2 us2; prop3 3 (-1) (-1) b3 n3 us3].

Lemma all_nodes3 n1 n2 n3 us1 us2 us3 :
  get_all_nodes (mkFs (tree3 n1 n2 n3 us1 us2 us3) 3) = nodes3 n1 n2 n3 us1 us2 us3 0 0 0.
Proof. reflexivity. Qed.

Lemma prop3_size i a b c n us : op_data_size (prop3 i a b c n us) = Some (padded_size (zlen (concat us))).
Proof.
  unfold op_data_size, prop3. cbn [op_data].
  rewrite units_size_concat, pad_units_concat, padded_zlen. reflexivity.
Qed.

Lemma total3 n1 n2 n3 us1 us2 us3 b1 b2 b3 :
  total_data_size (nodes3 n1 n2 n3 us1 us2 us3 b1 b2 b3)
  = padded_size (zlen (concat us1)) + padded_size (zlen (concat us2)) + padded_size (zlen (concat us3)).
Proof.
  unfold nodes3, total_data_size. cbn [fold_right]. rewrite !prop3_size.
  unfold prop3. cbn [op_type]. change (PTYPE_FILE =? PTYPE_FILE) with true. cbn iota. lia.
Qed.

Lemma data3 n1 n2 n3 us1 us2 us3 b1 b2 b3 :
  concat (dump_data (nodes3 n1 n2 n3 us1 us2 us3 b1 b2 b3))
  = padded (concat us1) ++ padded (concat us2) ++ padded (concat us3).
Proof.
  unfold dump_data, nodes3. cbn [flat_map prop3 op_type op_data].
  change (PTYPE_FILE =? PTYPE_FILE) with true. cbn iota.
  rewrite app_nil_r, !concat_app, !pad_units_concat. reflexivity.
Qed.

(** ** FAT contents *)
Definition link (b s : Z) : list Z := zseq (b + 1) (Z.to_nat (s - 1)) ++ [-2].
Lemma link_len b s : 1 <= s -> zlen (link b s) = s.
Proof. intro. unfold link. rewrite zlen_app. unfold zlen. rewrite zseq_length. cbn [length]. lia. Qed.

Lemma chains3 n1 n2 n3 us1 us2 us3 M :
  let s1 := padded_size (zlen (concat us1)) / 512 in
  let s2 := padded_size (zlen (concat us2)) / 512 in
  let s3 := padded_size (zlen (concat us3)) / 512 in
  dump_chains (nodes3 n1 n2 n3 us1 us2 us3 0 0 0) M
  = Ok (link M s1 ++ link (M + s1) s2 ++ link (M + s1 + s2) s3,
        nodes3 n1 n2 n3 us1 us2 us3 M (M + s1) (M + s1 + s2), M + s1 + s2 + s3).
Proof.
  intros s1 s2 s3. unfold nodes3. cbn [dump_chains]. rewrite !prop3_size.
  unfold BIG_BLOCK_SIZE. fold s1. fold s2. fold s3.
  pose proof (padded_size_ge _ (zlen_nonneg _ (concat us1))).
  pose proof (padded_size_ge _ (zlen_nonneg _ (concat us2))).
  pose proof (padded_size_ge _ (zlen_nonneg _ (concat us3))).
  assert (8 <= s1) by (subst s1; lia). assert (8 <= s2) by (subst s2; lia). assert (8 <= s3) by (subst s3; lia).
  replace (s1 <? 1) with false by lia. replace (s2 <? 1) with false by lia. replace (s3 <? 1) with false by lia.
  replace (M + (s1 - 1) + 1) with (M + s1) by lia.
  replace (M + s1 + (s2 - 1) + 1) with (M + s1 + s2) by lia.
  cbn [bind]. rewrite app_nil_r.
  replace (M + s1 + s2 + (s3 - 1) + 1) with (M + s1 + s2 + s3) by lia.
  reflexivity.
Qed.

(** ** Layout of the whole file *)
Definition hdr_prefix (nb M d : Z) : list Z :=
  OLE_FILETYPE ++ le32 0 ++ le32 0 ++ le32 0 ++ le32 0 ++ le16 62 ++ le16 3 ++ le16 (-2)
  ++ le16 9 ++ le32 6 ++ le32 0 ++ le32 0 ++ le32 nb ++ le32 (M + d + nb) ++ le32 0 ++ le32 4096
  ++ le32 (-2) ++ le32 0 ++ le32 (if M =? 0 then -2 else 0) ++ le32 M.
Definition hdr_entries (nb M d : Z) : list Z :=
  zseq (M + d) (Z.to_nat (Z.min 109 nb)) ++ repeat (-1) (Z.to_nat (Z.max 0 (109 - nb))).
Definition msat_bytes (nb M d : Z) : list Z :=
  flat_map le32 (ext_words (ext_blocks (Z.to_nat M) (Z.to_nat (nb - 109)) (M + d + 109) 1)).
Definition fat_words (nb M s1 s2 s3 : Z) : list Z :=
  repeat (-4) (Z.to_nat M)
  ++ (link M s1 ++ link (M + s1) s2 ++ link (M + s1 + s2) s3)
  ++ repeat (-3) (Z.to_nat nb) ++ [-2].
Definition fat_bytes (nb M s1 s2 s3 : Z) : list Z :=
  flat_map le32 (fat_words nb M s1 s2 s3)
  ++ repeat 255 (Z.to_nat (512 * nb - 4 * (M + s1 + s2 + s3 + nb + 1))).
Definition dir_bytes (n1 n2 n3 : list Z) (us1 us2 us3 : list (list Z)) (b1 b2 b3 : Z) : list Z :=
  node_bytes (root3 2) ++ node_bytes (prop3 1 (-1) (-1) b1 n1 us1)
  ++ node_bytes (prop3 2 1 3 b2 n2 us2) ++ node_bytes (prop3 3 (-1) (-1) b3 n3 us3).

Lemma hdr_entries_len nb M d : 1 <= nb -> length (hdr_entries nb M d) = 109%nat.
Proof. intro. unfold hdr_entries. rewrite app_length, zseq_length, repeat_length. lia. Qed.
Lemma msat_bytes_len nb M d : length (msat_bytes nb M d) = (512 * Z.to_nat M)%nat.
Proof. unfold msat_bytes. rewrite len_flat_le32, ext_words_len. lia. Qed.
Lemma fat_words_len nb M s1 s2 s3 : 0 <= nb -> 0 <= M -> 1 <= s1 -> 1 <= s2 -> 1 <= s3 ->
  zlen (fat_words nb M s1 s2 s3) = M + s1 + s2 + s3 + nb + 1.
Proof.
  intros. unfold fat_words. rewrite !zlen_app, !link_len, !zlen_repeat by lia.
  change (zlen [-2]) with 1. lia.
Qed.

Lemma header_layout total :
  0 <= total -> 
  let d := total / 512 in
  exists nb, let M := msat_for nb in
    1 <= nb /\ bat_step d nb = nb
    /\ (forall y, 0 <= y -> bat_step d y <= y -> nb <= y)
    /\ exists bks, get_bat_count total = Some bks /\ bat_count bks = nb /\ msat_count bks = M
      /\ bat_entries bks = M + d + nb + 1
      /\ concat (dump_header bks total)
         = hdr_prefix nb M d ++ flat_map le32 (hdr_entries nb M d) ++ msat_bytes nb M d.
Proof.
  intros Ht d. destruct (get_bat_count_spec total Ht) as (nb & Hg & Hnb & Hfix & Hleast).
  fold d in Hg, Hfix, Hleast.
  exists nb. cbv zeta. set (M := msat_for nb). split; [auto|]. split; [auto|]. split; [auto|].
  eexists. split; [exact Hg|]. cbn [bat_count msat_count bat_entries].
  split; [reflexivity|]. split; [reflexivity|]. split; [reflexivity|].
  unfold dump_header. cbn [bat_count msat_count header_bat_count extra_bat_count header_fill extra_fill].
  unfold BIG_BLOCK_SIZE. fold d. fold M.
  autorewrite with chunks. unfold hdr_prefix, hdr_entries, BAT_NOT_USED, BAT_END_CHAIN.
  rewrite <- !app_assoc. do 20 f_equal.
  rewrite flat_map_app, <- !app_assoc. do 2 f_equal.
  unfold msat_bytes.
  destruct (Z.le_gt_cases nb 109).
  - assert (HM : M = 0) by (unfold M, msat_for; lia). rewrite HM.
    replace (Z.max 0 (nb - 109)) with 0 by lia. reflexivity.
  - assert (HM : 1 <= M) by (unfold M, msat_for; lia).
    replace (Z.min 109 nb) with 109 by lia. replace (Z.max 0 (nb - 109)) with (nb - 109) by lia.
    rewrite <- (extra_loop_blocks (Z.to_nat M) (Z.to_nat (nb - 109)) 0 (M + d + 109) 1)
      by (unfold M, msat_for; lia).
    rewrite flat_map_app. f_equal.
    + f_equal. f_equal; lia.
    + destruct (Z.eqb_spec (127 * M - (nb - 109)) 0) as [E|E].
      * replace (Nat.eqb (Z.to_nat (nb - 109) mod 127) 0) with true; [reflexivity|].
        symmetry. apply Nat.eqb_eq. unfold M, msat_for in *. lia.
      * replace (Nat.eqb (Z.to_nat (nb - 109) mod 127) 0) with false.
        2:{ symmetry. apply Nat.eqb_neq. unfold M, msat_for in *. lia. }
        autorewrite with chunks. rewrite flat_map_app.
        replace (127 * Z.to_nat M - Z.to_nat (nb - 109))%nat with (Z.to_nat (127 * M - (nb - 109))) by lia.
        cbn [flat_map]. rewrite app_nil_r. reflexivity.
Qed.

Lemma pos_mod cs : pos_of cs mod 512 = zlen (concat cs) mod 512.
Proof. unfold pos_of. change (2 ^ 32) with (512 * 8388608). rewrite Z.rem_mul_r by lia.
  generalize (zlen (concat cs)); intro. lia. Qed.

Lemma valid_root : valid_name root_name.
Proof. split; [unfold root_name; repeat constructor; unfold is_byte; lia|cbn; lia]. Qed.

Theorem ole_layout q1 q2 q3 n1 n2 n3 us1 us2 us3 :
  split_path q1 = [n1] -> split_path q2 = [n2] -> split_path q3 = [n3] ->
  n1 <> n2 -> n1 <> n3 -> n2 <> n3 ->
  valid_name n1 -> valid_name n2 -> valid_name n3 ->
  let D1 := padded (concat us1) in let D2 := padded (concat us2) in let D3 := padded (concat us3) in
  let s1 := zlen D1 / 512 in let s2 := zlen D2 / 512 in let s3 := zlen D3 / 512 in
  zlen D1 + zlen D2 + zlen D3 < 4294967296 ->
  exists nb, let M := msat_for nb in let d := s1 + s2 + s3 in
    1 <= nb /\ bat_step d nb = nb /\ (forall y, 0 <= y -> bat_step d y <= y -> nb <= y) /\
    ole_image_at q1 q2 q3 us1 us2 us3 =
      Ok ((hdr_prefix nb M d ++ flat_map le32 (hdr_entries nb M d)) ++ msat_bytes nb M d
          ++ D1 ++ D2 ++ D3 ++ fat_bytes nb M s1 s2 s3
          ++ dir_bytes n1 n2 n3 us1 us2 us3 M (M + s1) (M + s1 + s2)).
Proof.
  intros Q1 Q2 Q3 N12 N13 N23 V1 V2 V3 D1 D2 D3 s1 s2 s3 Hlim.
  unfold ole_image_at. rewrite (add_three_tree q1 q2 q3 n1 n2 n3) by auto. cbn [bind].
  unfold dump_ole, dump_ole_chunks. rewrite all_nodes3.
  rewrite total3.
  assert (L1 : zlen D1 = padded_size (zlen (concat us1))) by apply padded_zlen.
  assert (L2 : zlen D2 = padded_size (zlen (concat us2))) by apply padded_zlen.
  assert (L3 : zlen D3 = padded_size (zlen (concat us3))) by apply padded_zlen.
  rewrite <- L1, <- L2, <- L3.
  pose proof (padded_size_ge _ (zlen_nonneg _ (concat us1))) as P1. rewrite <- L1 in P1.
  pose proof (padded_size_ge _ (zlen_nonneg _ (concat us2))) as P2. rewrite <- L2 in P2.
  pose proof (padded_size_ge _ (zlen_nonneg _ (concat us3))) as P3. rewrite <- L3 in P3.
  assert (E1 : zlen D1 = 512 * s1) by (subst s1; lia).
  assert (E2 : zlen D2 = 512 * s2) by (subst s2; lia).
  assert (E3 : zlen D3 = 512 * s3) by (subst s3; lia).
  set (total := zlen D1 + zlen D2 + zlen D3) in *.
  destruct (header_layout total ltac:(lia)) as (nb & H). cbv zeta in H.
  destruct H as (Hnb & Hfix & Hleast & bks & Hg & Hbc & Hmc & Hbe & Hh).
  assert (Hd : total / 512 = s1 + s2 + s3) by (subst total; lia).
  rewrite Hd in *.
  exists nb. cbv zeta. set (M := msat_for nb) in *. set (d := s1 + s2 + s3) in *. fold d in Hfix, Hleast, Hbe, Hh. fold M in Hmc, Hbe, Hh.
  split; [auto|]. split; [auto|]. split; [auto|].
  rewrite Hg.
  assert (HM0 : 0 <= M) by apply msat_for_nonneg.
  assert (Hd8 : 24 <= d < 8388608) by (subst d; lia).
  assert (Hnb2 : nb <= d + 2).
  { apply Hleast; [lia|]. apply bat_step_top; lia. }
  assert (HMb : 100 * M <= d + 100) by (unfold M, msat_for; lia).
  unfold xl_assert, BIG_BLOCK_SIZE.
  replace (total =? total / 512 * 512) with true by (subst total; lia).
  cbn [bind].
  assert (Hl1 : zlen (concat (dump_header bks total)) = 512 + 512 * M).
  { rewrite Hh, !zlen_app. unfold zlen at 2 3. rewrite len_flat_le32, hdr_entries_len, msat_bytes_len by lia.
    change (zlen (hdr_prefix nb M d)) with 76. lia. }
  rewrite Hmc. unfold HEAD_SIZE.
  replace (pos_of (dump_header bks total) =? 512 + M * 512) with true.
  2:{ unfold pos_of. rewrite Hl1. change (2 ^ 32) with 4294967296. lia. }
  cbn [bind]. rewrite !pos_mod. rewrite Hl1.
  replace ((512 + 512 * M) mod 512 =? 0) with true by lia. cbn [bind].
  assert (Hl2 : zlen (concat (dump_header bks total ++ dump_data (nodes3 n1 n2 n3 us1 us2 us3 0 0 0)))
                = 512 + 512 * M + 512 * d).
  { rewrite concat_app, zlen_app, Hl1, data3, !zlen_app. fold D1 D2 D3. lia. }
  rewrite Hl2. replace ((512 + 512 * M + 512 * d) mod 512 =? 0) with true by lia. cbn [bind].
  unfold dump_depots. rewrite Hmc, chains3. cbv zeta. rewrite <- L1, <- L2, <- L3.
  fold s1 s2 s3. cbn [bind].
  rewrite Hbc. unfold BAT_MSAT_PLACE, BAT_SELF_PLACE, BAT_END_CHAIN.
  fold (fat_words nb M s1 s2 s3). unfold xl_assert.
  replace (bat_entries bks =? zlen (fat_words nb M s1 s2 s3)) with true
    by (rewrite fat_words_len by lia; subst d; lia).
  cbn [bind]. unfold BIG_BLOCK_SIZE.
  assert (Hfill : (512 - (4 * (M + s1 + s2 + s3 + nb + 1)) mod 512) mod 512
                  = 512 * nb - 4 * (M + s1 + s2 + s3 + nb + 1)).
  { clear - Hfix. subst M d. unfold bat_step in Hfix. lia. }
  rewrite Hfill.
  assert (Hlf : 0 <= 512 * nb - 4 * (M + s1 + s2 + s3 + nb + 1)).
  { clear - Hfix. subst M d. unfold bat_step in Hfix. lia. }
  set (dc := flat_map w32 (fat_words nb M s1 s2 s3) ++ wfix 255 (512 * nb - 4 * (M + s1 + s2 + s3 + nb + 1))).
  assert (Hdc : concat dc = fat_bytes nb M s1 s2 s3).
  { unfold dc. autorewrite with chunks. reflexivity. }
  assert (Hfl : zlen (fat_bytes nb M s1 s2 s3) = 512 * nb).
  { unfold fat_bytes. rewrite zlen_app, zlen_repeat. unfold zlen at 1. rewrite len_flat_le32.
    pose proof (fat_words_len nb M s1 s2 s3). unfold zlen in *. lia. }
  assert (Hl3 : zlen (concat ((dump_header bks total ++ dump_data (nodes3 n1 n2 n3 us1 us2 us3 0 0 0)) ++ dc))
                = 512 + 512 * M + 512 * d + 512 * nb).
  { rewrite concat_app, zlen_app, Hl2, Hdc, Hfl. lia. }
  rewrite pos_mod, Hl3. replace ((512 + 512 * M + 512 * d + 512 * nb) mod 512 =? 0) with true by lia. cbn [bind].
  cbn [fs_tree tree3 ot_prop nodes3 dump_nodes].
  change {| op_index := 0; op_name := root_name; op_type := PTYPE_ROOT; op_color := 1; op_prev := -1;
    op_next := -1; op_child := 2; op_start := -2; op_size := 0; op_data := None |} with (root3 2).
  destruct (dump_node_ok (root3 2) valid_root) as (r0 & R0 & C0).
  destruct (dump_node_ok (prop3 1 (-1) (-1) M n1 us1) V1) as (r1 & R1 & C1).
  destruct (dump_node_ok (prop3 2 1 3 (M + s1) n2 us2) V2) as (r2 & R2 & C2).
  destruct (dump_node_ok (prop3 3 (-1) (-1) (M + s1 + s2) n3 us3) V3) as (r3 & R3 & C3).
  rewrite R0, R1, R2, R3. cbn [bind].
  assert (Hdir : concat (r0 ++ r1 ++ r2 ++ r3 ++ []) = dir_bytes n1 n2 n3 us1 us2 us3 M (M + s1) (M + s1 + s2)).
  { rewrite app_nil_r, !concat_app, C0, C1, C2, C3. reflexivity. }
  assert (Hdirl : zlen (dir_bytes n1 n2 n3 us1 us2 us3 M (M + s1) (M + s1 + s2)) = 512).
  { unfold dir_bytes, zlen. rewrite !app_length, !node_bytes_length by auto using valid_root. reflexivity. }
  rewrite pos_mod.
  match goal with |- context [zlen (concat (?a ++ ?b))] =>
    replace (zlen (concat (a ++ b))) with (512 + 512 * M + 512 * d + 512 * nb + 512)
      by (rewrite (concat_app a b), zlen_app, Hl3, Hdir, Hdirl; lia) end.
  replace ((512 + 512 * M + 512 * d + 512 * nb + 512) mod 512 =? 0) with true by lia.
  cbn [bind]. f_equal.
  rewrite (concat_app _ (r0 ++ r1 ++ r2 ++ r3 ++ [])), Hdir.
  rewrite (concat_app _ dc), Hdc, concat_app, Hh, data3. fold D1 D2 D3.
  rewrite <- !app_assoc. reflexivity.
Qed.

(** ** Reading it back *)
Section ReadBack.
  Variables (n1 n2 n3 : list Z) (us1 us2 us3 : list (list Z)).
  Hypothesis V1 : valid_name n1.
  Hypothesis V2 : valid_name n2.
  Hypothesis V3 : valid_name n3.
  Let D1 := padded (concat us1).
  Let D2 := padded (concat us2).
  Let D3 := padded (concat us3).
  Let s1 := zlen D1 / 512.
  Let s2 := zlen D2 / 512.
  Let s3 := zlen D3 / 512.
  Let d := s1 + s2 + s3.
  Hypothesis Hlim : zlen D1 + zlen D2 + zlen D3 < 4294967296.
  Variable nb : Z.
  Let M := msat_for nb.
  Hypothesis Hnb : 1 <= nb.
  Hypothesis Hfix : bat_step d nb = nb.
  Let hdr := hdr_prefix nb M d ++ flat_map le32 (hdr_entries nb M d).
  Let MS := msat_bytes nb M d.
  Let FB := fat_bytes nb M s1 s2 s3.
  Let DIR := dir_bytes n1 n2 n3 us1 us2 us3 M (M + s1) (M + s1 + s2).
  Let f := hdr ++ MS ++ D1 ++ D2 ++ D3 ++ FB ++ DIR.

  Local Lemma sz_facts us : let D := padded (concat us) in
    zlen D = 512 * (zlen D / 512) /\ 4096 <= zlen D.
  Proof.
    cbv zeta. rewrite padded_zlen.
    pose proof (padded_size_ge _ (zlen_nonneg _ (concat us))). lia.
  Qed.
  Local Lemma E1 : zlen D1 = 512 * s1 /\ 8 <= s1.
  Proof. pose proof (sz_facts us1). cbv zeta in H. fold D1 in H. fold s1 in H. lia. Qed.
  Local Lemma E2 : zlen D2 = 512 * s2 /\ 8 <= s2.
  Proof. pose proof (sz_facts us2). cbv zeta in H. fold D2 in H. fold s2 in H. lia. Qed.
  Local Lemma E3 : zlen D3 = 512 * s3 /\ 8 <= s3.
  Proof. pose proof (sz_facts us3). cbv zeta in H. fold D3 in H. fold s3 in H. lia. Qed.

  Local Lemma bounds : 0 <= M /\ 24 <= d < 8388608 /\ nb <= d /\ M <= d
    /\ 0 <= 512 * nb - 4 * (M + d + nb + 1) < 512.
  Proof.
    pose proof E1. pose proof E2. pose proof E3.
    assert (24 <= d < 8388608) by (subst d; lia).
    clear - H2 Hfix Hnb. subst M. unfold bat_step, msat_for in *. lia.
  Qed.

  Local Lemma hdr_len : length hdr = 512%nat.
  Proof.
    unfold hdr. rewrite app_length, len_flat_le32, hdr_entries_len by lia. reflexivity.
  Qed.
  Local Lemma MS_len : length MS = (512 * Z.to_nat M)%nat.
  Proof. apply msat_bytes_len. Qed.
  Local Lemma FB_len : zlen FB = 512 * nb.
  Proof.
    pose proof E1. pose proof E2. pose proof E3. pose proof bounds.
    unfold FB, fat_bytes. rewrite zlen_app, zlen_repeat. unfold zlen at 1. rewrite len_flat_le32.
    pose proof (fat_words_len nb M s1 s2 s3). unfold zlen in *. subst d. lia.
  Qed.
  Local Lemma DIR_len : length DIR = 512%nat.
  Proof.
    unfold DIR, dir_bytes. rewrite !app_length, !node_bytes_length by auto using valid_root. reflexivity.
  Qed.

  Local Lemma f_prefix : exists X, f = hdr_prefix nb M d ++ X.
  Proof. eexists. unfold f, hdr. rewrite <- !app_assoc. reflexivity. Qed.

  Local Lemma get_hdr i n l : (i + n <= 76)%nat -> slice i n (hdr_prefix nb M d) = l -> slice i n f = l.
  Proof.
    intros H E. destruct f_prefix as [X ->]. rewrite slice_app_l; [exact E|exact H].
  Qed.

  Local Lemma g_nfat : get32 f 44 = nb.
  Proof.
    pose proof bounds. unfold get32. rewrite (get_hdr 44 4 (le32 nb)); [|lia|reflexivity].
    rewrite le32_value. lia.
  Qed.
  Local Lemma g_dir : get32 f 48 = M + d + nb.
  Proof.
    pose proof bounds. unfold get32. rewrite (get_hdr 48 4 (le32 (M + d + nb))); [|lia|reflexivity].
    rewrite le32_value. lia.
  Qed.
  Local Lemma g_msat0 : get32 f 68 = if M =? 0 then ENDOFCHAIN else 0.
  Proof.
    unfold get32. rewrite (get_hdr 68 4 (le32 (if M =? 0 then -2 else 0))); [|lia|reflexivity].
    rewrite le32_value. destruct (M =? 0); reflexivity.
  Qed.
  Local Lemma g_msat : get32 f 72 = M.
  Proof.
    pose proof bounds. unfold get32. rewrite (get_hdr 72 4 (le32 M)); [|lia|reflexivity].
    rewrite le32_value. lia.
  Qed.
  Local Lemma hdr_ok : header_ok f = true.
  Proof.
    unfold header_ok, get16, get32.
    rewrite (get_hdr 0 8 OLE_MAGIC) by (lia || reflexivity).
    rewrite (get_hdr 26 2 (le16 3)) by (lia || reflexivity).
    rewrite (get_hdr 28 2 (le16 (-2))) by (lia || reflexivity).
    rewrite (get_hdr 30 2 (le16 9)) by (lia || reflexivity).
    rewrite (get_hdr 32 2 (le16 6)) by (lia || reflexivity).
    rewrite (get_hdr 56 4 (le32 4096)) by (lia || reflexivity).
    replace (Nat.leb 512 (length f)) with true.
    2:{ symmetry. apply Nat.leb_le. unfold f. rewrite app_length, hdr_len. lia. }
    destruct list_eq_dec; [|congruence]. reflexivity.
  Qed.

  Local Lemma entries_read : words (slice 76 436 f)
    = zseq (M + d) (Z.to_nat (Z.min 109 nb)) ++ repeat FREESECT (Z.to_nat (Z.max 0 (109 - nb))).
  Proof.
    pose proof bounds.
    assert (E : slice 76 436 f = flat_map le32 (hdr_entries nb M d)).
    { apply (slice_at Z f (hdr_prefix nb M d) _ (MS ++ D1 ++ D2 ++ D3 ++ FB ++ DIR)).
      - unfold f, hdr. rewrite <- !app_assoc. reflexivity.
      - reflexivity.
      - rewrite len_flat_le32, hdr_entries_len by lia. reflexivity. }
    rewrite E, words_le32. unfold hdr_entries. rewrite map_app, zseq_u32, map_repeat by lia. reflexivity.
  Qed.

  Local Lemma difat_both :
    difat_chain f (Z.to_nat M) (get32 f 68)
      = Some (zseq (M + d + 109) (Z.to_nat (nb - 109)) ++ repeat FREESECT (127 * Z.to_nat M - Z.to_nat (nb - 109)))
    /\ difat_owned f (Z.to_nat M) (get32 f 68) = Some (zseq 0 (Z.to_nat M)).
  Proof.
    pose proof bounds. rewrite g_msat0.
    destruct (Z.eqb_spec M 0) as [E|E].
    - rewrite E. replace (Z.to_nat (nb - 109)) with 0%nat by (clear - E; unfold M, msat_for in E; lia).
      split; reflexivity.
    - apply (difat_read f hdr (Z.to_nat M) (Z.to_nat (nb - 109)) (M + d + 109) 1 []
               (D1 ++ D2 ++ D3 ++ FB ++ DIR)); try lia; try reflexivity.
      + apply hdr_len.
      + clear - E. unfold M, msat_for in *. lia.
  Qed.

  Local Lemma fat_sectors_read : fat_sectors f = Some (zseq (M + d) (Z.to_nat nb)).
  Proof.
    pose proof bounds. unfold fat_sectors. rewrite g_nfat, g_msat.
    destruct difat_both as [-> _]. cbn [obind]. rewrite entries_read.
    set (L := (zseq (M + d) (Z.to_nat (Z.min 109 nb)) ++ repeat FREESECT (Z.to_nat (Z.max 0 (109 - nb))))
       ++ zseq (M + d + 109) (Z.to_nat (nb - 109)) ++ repeat FREESECT (127 * Z.to_nat M - Z.to_nat (nb - 109))).
    assert (HL : exists k, L = zseq (M + d) (Z.to_nat nb) ++ repeat FREESECT k).
    { unfold L. destruct (Z.le_gt_cases nb 109).
      - replace (Z.to_nat (nb - 109)) with 0%nat by lia. cbn [zseq app].
        rewrite <- app_assoc, <- repeat_app. eexists. f_equal. f_equal. lia.
      - replace (Z.to_nat (Z.max 0 (109 - nb))) with 0%nat by lia. cbn [repeat]. rewrite app_nil_r, app_assoc.
        eexists. f_equal. replace (Z.to_nat nb) with (109 + Z.to_nat (nb - 109))%nat by lia.
        rewrite zseq_app. f_equal. f_equal. lia. }
    destruct HL as [k ->].
    rewrite skipn_app_exact, firstn_app_exact by apply zseq_length.
    rewrite app_length, zseq_length.
    replace (Nat.leb _ _) with true by (symmetry; apply Nat.leb_le; lia).
    replace (forallb (Z.eqb FREESECT) (repeat FREESECT k)) with true; [reflexivity|].
    symmetry. induction k; [reflexivity|]. cbn. exact IHk.
  Qed.

  Let ft := map u32 (fat_words nb M s1 s2 s3)
            ++ repeat FREESECT (Z.to_nat (128 * nb - (M + d + nb + 1))).

  Local Lemma fat_read : fat f = Some ft.
  Proof.
    pose proof bounds. pose proof E1. pose proof E2. pose proof E3.
    unfold fat. rewrite fat_sectors_read. cbn [obind].
    destruct (sectors_at f hdr (Z.to_nat nb) (M + d) (MS ++ D1 ++ D2 ++ D3) FB DIR) as (bs & E & Hc & HF).
    - unfold f. rewrite <- !app_assoc. reflexivity.
    - apply hdr_len.
    - rewrite !app_length, MS_len. subst d. unfold zlen in *. lia.
    - lia.
    - pose proof FB_len. unfold zlen in *. lia.
    - rewrite E. cbn [obind]. rewrite words_concat by exact HF. rewrite Hc.
      unfold FB, fat_bytes. rewrite (words_app (length (fat_words nb M s1 s2 s3))) by apply len_flat_le32.
      rewrite words_le32. unfold ft. do 2 f_equal.
      replace (Z.to_nat (512 * nb - 4 * (M + s1 + s2 + s3 + nb + 1)))
        with (4 * Z.to_nat (128 * nb - (M + d + nb + 1)))%nat by (subst d; lia).
      apply words_ff.
  Qed.

  Local Lemma ft_len : zlen ft = 128 * nb.
  Proof.
    pose proof bounds. pose proof E1. pose proof E2. pose proof E3.
    unfold ft. rewrite zlen_app, zlen_map, zlen_repeat, fat_words_len by lia. subst d. lia.
  Qed.

  Local Lemma link_u32 b s : 0 <= b -> 1 <= s -> b + s < 4294967290 ->
    map u32 (link b s) = zseq (b + 1) (Z.to_nat (s - 1)) ++ [ENDOFCHAIN].
  Proof. intros. unfold link. rewrite map_app, zseq_u32 by lia. reflexivity. Qed.

  Local Lemma stream_chain A b s B :
    ft = A ++ map u32 (link b s) ++ B -> zlen A = b -> 0 <= b -> 1 <= s -> b + s <= zlen ft ->
    chain ft (length ft) b = Some (zseq b (Z.to_nat s)).
  Proof.
    intros Hf HA Hb Hs Hl. pose proof bounds. pose proof ft_len.
    eapply (chain_at ft A B); try lia.
    - rewrite Hf. rewrite link_u32 by lia. do 3 f_equal. f_equal. lia.
    - unfold zlen in *. lia.
  Qed.

  Local Lemma ft_shape : ft = repeat DIFSECT (Z.to_nat M) ++ map u32 (link M s1)
     ++ map u32 (link (M + s1) s2) ++ map u32 (link (M + s1 + s2) s3)
     ++ repeat FATSECT (Z.to_nat nb) ++ [ENDOFCHAIN]
     ++ repeat FREESECT (Z.to_nat (128 * nb - (M + d + nb + 1))).
  Proof.
    unfold ft, fat_words. rewrite !map_app, !map_repeat, <- !app_assoc. reflexivity.
  Qed.

  Local Lemma chain1 : chain ft (length ft) M = Some (zseq M (Z.to_nat s1)).
  Proof.
    pose proof bounds. pose proof E1. pose proof E2. pose proof E3. pose proof ft_len.
    eapply stream_chain; [apply ft_shape|rewrite zlen_repeat|..]; subst d; lia.
  Qed.
  Local Lemma chain2 : chain ft (length ft) (M + s1) = Some (zseq (M + s1) (Z.to_nat s2)).
  Proof.
    pose proof bounds. pose proof E1. pose proof E2. pose proof E3. pose proof ft_len.
    eapply stream_chain; [rewrite ft_shape, app_assoc; reflexivity|..]; try (subst d; lia).
    rewrite zlen_app, zlen_repeat, zlen_map, link_len; lia.
  Qed.
  Local Lemma chain3 : chain ft (length ft) (M + s1 + s2) = Some (zseq (M + s1 + s2) (Z.to_nat s3)).
  Proof.
    pose proof bounds. pose proof E1. pose proof E2. pose proof E3. pose proof ft_len.
    eapply stream_chain; [rewrite ft_shape, app_assoc, app_assoc; reflexivity|..]; try (subst d; lia).
    rewrite !zlen_app, zlen_repeat, !zlen_map, !link_len; lia.
  Qed.
  Local Lemma chaind : chain ft (length ft) (M + d + nb) = Some [M + d + nb].
  Proof.
    pose proof bounds. pose proof E1. pose proof E2. pose proof E3. pose proof ft_len.
    change [M + d + nb] with (zseq (M + d + nb) 1).
    eapply (chain_at ft (repeat DIFSECT (Z.to_nat M) ++ map u32 (link M s1)
     ++ map u32 (link (M + s1) s2) ++ map u32 (link (M + s1 + s2) s3)
     ++ repeat FATSECT (Z.to_nat nb))); try lia.
    - rewrite ft_shape, <- !app_assoc. reflexivity.
    - rewrite !zlen_app, !zlen_repeat, !zlen_map, !link_len by lia. subst d. lia.
    - unfold zlen in *. lia.
  Qed.

  Local Lemma read_dir : read_chain f ft (M + d + nb) = Some DIR.
  Proof.
    pose proof bounds. pose proof E1. pose proof E2. pose proof E3. pose proof FB_len.
    unfold read_chain. rewrite chaind. cbn [obind omap].
    rewrite (sector_at f (M + d + nb) hdr (MS ++ D1 ++ D2 ++ D3 ++ FB) DIR []).
    - cbn [obind concat]. rewrite app_nil_r. reflexivity.
    - unfold f. rewrite app_nil_r, <- !app_assoc. reflexivity.
    - apply hdr_len.
    - rewrite !app_length, MS_len. subst d. unfold zlen in *. lia.
    - lia.
    - apply DIR_len.
  Qed.

  Definition dents : list dentry :=
    [dentry_of (root3 2); dentry_of (prop3 1 (-1) (-1) M n1 us1);
     dentry_of (prop3 2 1 3 (M + s1) n2 us2); dentry_of (prop3 3 (-1) (-1) (M + s1 + s2) n3 us3)].

  Local Lemma directory_read : directory f ft = Some dents.
  Proof.
    unfold directory. rewrite g_dir, read_dir. cbn [obind]. f_equal.
    rewrite DIR_len. unfold DIR, dir_bytes, dents.
    pose proof (node_bytes_length (root3 2) valid_root) as L0.
    pose proof (node_bytes_length (prop3 1 (-1) (-1) M n1 us1) V1) as L1.
    pose proof (node_bytes_length (prop3 2 1 3 (M + s1) n2 us2) V2) as L2.
    pose proof (node_bytes_length (prop3 3 (-1) (-1) (M + s1 + s2) n3 us3) V3) as L3.
    rewrite <- (parse_node (root3 2) valid_root).
    rewrite <- (parse_node (prop3 1 (-1) (-1) M n1 us1) V1).
    rewrite <- (parse_node (prop3 2 1 3 (M + s1) n2 us2) V2).
    rewrite <- (parse_node (prop3 3 (-1) (-1) (M + s1 + s2) n3 us3) V3).
    set (b0 := node_bytes (root3 2)) in *. set (b1 := node_bytes (prop3 1 _ _ _ _ _)) in *.
    set (b2 := node_bytes (prop3 2 _ _ _ _ _)) in *. set (b3 := node_bytes (prop3 3 _ _ _ _ _)) in *.
    clearbody b0 b1 b2 b3.
    assert (ST : forall k b r, length b = 128%nat -> dentries (S k) (b ++ r) = parse_dentry b :: dentries k r).
    { intros k b r Hb. cbn [dentries]. destruct b as [|x b']; [discriminate Hb|].
      rewrite <- Hb. rewrite firstn_app_exact, skipn_app_exact by reflexivity. reflexivity. }
    change 512%nat with (S (S (S (S 508)))).
    rewrite !ST by auto. replace b3 with (b3 ++ []) by apply app_nil_r. rewrite ST by auto.
    rewrite app_nil_r. reflexivity.
  Qed.

  Local Lemma read_stream A D B b s :
    f = hdr ++ A ++ D ++ B -> length A = (512 * Z.to_nat b)%nat -> 0 <= b -> zlen D = 512 * s -> 0 <= s ->
    chain ft (length ft) b = Some (zseq b (Z.to_nat s)) ->
    read_chain f ft b = Some D.
  Proof.
    intros Hf HA Hb HD Hs Hc. unfold read_chain. rewrite Hc. cbn [obind].
    destruct (sectors_at f hdr (Z.to_nat s) b A D B) as (bs & E & Hcc & HF); auto.
    - apply hdr_len.
    - unfold zlen in HD. lia.
    - rewrite E. cbn [obind]. rewrite Hcc. reflexivity.
  Qed.
  Local Lemma stream1 : read_chain f ft M = Some D1.
  Proof.
    pose proof bounds. pose proof E1.
    eapply (read_stream MS D1 (D2 ++ D3 ++ FB ++ DIR) M s1); try lia.
    - reflexivity. - apply MS_len. - apply chain1.
  Qed.
  Local Lemma stream2 : read_chain f ft (M + s1) = Some D2.
  Proof.
    pose proof bounds. pose proof E1. pose proof E2.
    eapply (read_stream (MS ++ D1) D2 (D3 ++ FB ++ DIR) (M + s1) s2); try lia.
    - unfold f. rewrite <- !app_assoc. reflexivity.
    - rewrite app_length, MS_len. unfold zlen in *. lia.
    - apply chain2.
  Qed.
  Local Lemma stream3 : read_chain f ft (M + s1 + s2) = Some D3.
  Proof.
    pose proof bounds. pose proof E1. pose proof E2. pose proof E3.
    eapply (read_stream (MS ++ D1 ++ D2) D3 (FB ++ DIR) (M + s1 + s2) s3); try lia.
    - unfold f. rewrite <- !app_assoc. reflexivity.
    - rewrite !app_length, MS_len. unfold zlen in *. lia.
    - apply chain3.
  Qed.

  Hypothesis O12 : name_compare n1 n2 = Lt.
  Hypothesis O23 : name_compare n2 n3 = Lt.

  Local Lemma tf_step ds fuel n name e :
    0 <= n < zlen ds -> nth_error ds (Z.to_nat n) = Some e ->
    tree_find ds (S fuel) n name =
      match name_compare name (de_name e) with
      | Eq => Some e
      | Lt => tree_find ds fuel (de_left e) name
      | Gt => tree_find ds fuel (de_right e) name
      end.
  Proof.
    intros Hn He. cbn [tree_find]. replace (n <? 0) with false by lia.
    replace (zlen ds <=? n) with false by lia. cbn [orb]. rewrite He. reflexivity.
  Qed.

  Local Lemma find1 : tree_find dents 4 2 n1 = Some (dentry_of (prop3 1 (-1) (-1) M n1 us1)).
  Proof.
    erewrite tf_step; [|change (zlen dents) with 4; lia|reflexivity].
    change (de_name _) with n2. rewrite O12. change (de_left _) with 1.
    erewrite tf_step; [|change (zlen dents) with 4; lia|reflexivity].
    change (de_name _) with n1. rewrite name_compare_refl. reflexivity.
  Qed.
  Local Lemma find2 : tree_find dents 4 2 n2 = Some (dentry_of (prop3 2 1 3 (M + s1) n2 us2)).
  Proof.
    erewrite tf_step; [|change (zlen dents) with 4; lia|reflexivity].
    change (de_name _) with n2. rewrite name_compare_refl. reflexivity.
  Qed.
  Local Lemma find3 : tree_find dents 4 2 n3 = Some (dentry_of (prop3 3 (-1) (-1) (M + s1 + s2) n3 us3)).
  Proof.
    erewrite tf_step; [|change (zlen dents) with 4; lia|reflexivity].
    change (de_name _) with n2. rewrite (name_compare_antisym n2 n3), O23. cbn [CompOpp].
    change (de_right _) with 3.
    erewrite tf_step; [|change (zlen dents) with 4; lia|reflexivity].
    change (de_name _) with n3. rewrite name_compare_refl. reflexivity.
  Qed.

  Local Lemma read_gen i a b c n us D :
    tree_find dents 4 2 n = Some (dentry_of (prop3 i a b c n us)) ->
    0 <= c < 4294967296 -> D = padded (concat us) -> 4096 <= zlen D < 4294967296 ->
    read_chain f ft c = Some D ->
    cfb_read f n = Some D.
  Proof.
    intros Hfind Hc HD Hl Hr. unfold cfb_read. rewrite hdr_ok. cbn [oguard obind].
    rewrite fat_read. cbn [obind]. rewrite directory_read. cbn [obind].
    change (nth_error dents 0) with (Some (dentry_of (root3 2))). cbn [obind].
    change (de_type (dentry_of (root3 2)) =? 5) with true. cbn [oguard obind].
    change (length dents) with 4%nat. change (de_child (dentry_of (root3 2))) with 2.
    rewrite Hfind. cbn [obind].
    assert (Ht : de_type (dentry_of (prop3 i a b c n us)) = 2) by reflexivity.
    assert (Hst : de_start (dentry_of (prop3 i a b c n us)) = c) by (cbn; apply Z.mod_small; lia).
    assert (Hsz : de_size (dentry_of (prop3 i a b c n us)) = zlen D).
    { cbn [dentry_of de_size prop3 op_type op_size]. change (PTYPE_FILE =? PTYPE_FILE) with true.
      cbn iota. rewrite <- padded_zlen, <- HD. apply Z.mod_small. lia. }
    rewrite Ht, Hst, Hsz. change (2 =? 2) with true. replace (4096 <=? zlen D) with true by lia.
    cbn [andb oguard obind]. rewrite Hr. cbn [obind].
    rewrite Z.leb_refl. cbn [oguard obind]. f_equal. unfold zlen. rewrite Nat2Z.id. apply firstn_all.
  Qed.

  Lemma read_three : cfb_read f n1 = Some D1 /\ cfb_read f n2 = Some D2 /\ cfb_read f n3 = Some D3.
  Proof.
    pose proof bounds. pose proof E1. pose proof E2. pose proof E3.
    split; [|split].
    - eapply read_gen; [apply find1|lia|reflexivity|lia|apply stream1].
    - eapply read_gen; [apply find2|lia|reflexivity|lia|apply stream2].
    - eapply read_gen; [apply find3|lia|reflexivity|lia|apply stream3].
  Qed.

  Lemma names_three : cfb_names f = Some [n1; n2; n3].
  Proof. unfold cfb_names. rewrite fat_read. cbn [obind]. rewrite directory_read. reflexivity. Qed.

  Lemma owned_three : cfb_owned f =
    Some [zseq 0 (Z.to_nat M); zseq (M + d) (Z.to_nat nb); [M + d + nb];
          zseq M (Z.to_nat s1); zseq (M + s1) (Z.to_nat s2); zseq (M + s1 + s2) (Z.to_nat s3)].
  Proof.
    pose proof bounds. pose proof E1. pose proof E2. pose proof E3.
    unfold cfb_owned. rewrite g_msat. destruct difat_both as [_ ->]. cbn [obind].
    rewrite fat_sectors_read. cbn [obind]. rewrite fat_read. cbn [obind].
    rewrite g_dir, chaind. cbn [obind]. rewrite directory_read. cbn [obind].
    change (filter (fun e : dentry => de_type e =? 2) dents)
      with [dentry_of (prop3 1 (-1) (-1) M n1 us1); dentry_of (prop3 2 1 3 (M + s1) n2 us2);
            dentry_of (prop3 3 (-1) (-1) (M + s1 + s2) n3 us3)].
    cbn [omap dentry_of de_start prop3 op_start].
    unfold u32. rewrite !Z.mod_small by (subst d; lia).
    rewrite chain1, chain2, chain3. reflexivity.
  Qed.

  Lemma fat_marks : exists ft, fat f = Some ft
    /\ (forall i, 0 <= i < M -> nth (Z.to_nat i) ft 0 = DIFSECT)
    /\ (forall i, M + d <= i < M + d + nb -> nth (Z.to_nat i) ft 0 = FATSECT)
    /\ (forall i, M + d + nb < i < zlen ft -> nth (Z.to_nat i) ft 0 = FREESECT).
  Proof.
    pose proof bounds. pose proof E1. pose proof E2. pose proof E3.
    exists ft. split; [apply fat_read|]. rewrite ft_len, ft_shape.
    assert (NR : forall (x : Z) n i, (i < n)%nat -> nth i (repeat x n) 0 = x).
    { intros x n. induction n; intros i Hi; [lia|]. destruct i; cbn; auto. apply IHn. lia. }
    assert (L1 : length (map u32 (link M s1)) = Z.to_nat s1)
      by (rewrite map_length; pose proof (link_len M s1); unfold zlen in *; lia).
    assert (L2 : length (map u32 (link (M + s1) s2)) = Z.to_nat s2)
      by (rewrite map_length; pose proof (link_len (M + s1) s2); unfold zlen in *; lia).
    assert (L3 : length (map u32 (link (M + s1 + s2) s3)) = Z.to_nat s3)
      by (rewrite map_length; pose proof (link_len (M + s1 + s2) s3); unfold zlen in *; lia).
    set (l1 := map u32 (link M s1)) in *. set (l2 := map u32 (link (M + s1) s2)) in *.
    set (l3 := map u32 (link (M + s1 + s2) s3)) in *. clearbody l1 l2 l3.
    split; [|split]; intros i Hi.
    - rewrite app_nth1 by (rewrite repeat_length; lia). apply NR. lia.
    - assert (d = s1 + s2 + s3) by reflexivity.
      rewrite app_nth2; rewrite ?repeat_length; [|lia].
      rewrite app_nth2; rewrite ?L1; [|lia].
      rewrite app_nth2; rewrite ?L2; [|lia].
      rewrite app_nth2; rewrite ?L3; [|lia].
      rewrite app_nth1 by (rewrite repeat_length; lia). apply NR. lia.
    - assert (d = s1 + s2 + s3) by reflexivity.
      rewrite app_nth2; rewrite ?repeat_length; [|lia].
      rewrite app_nth2; rewrite ?L1; [|lia].
      rewrite app_nth2; rewrite ?L2; [|lia].
      rewrite app_nth2; rewrite ?L3; [|lia].
      rewrite app_nth2; rewrite ?repeat_length; [|lia].
      rewrite app_nth2 by (cbn [length]; lia). apply NR. cbn [length]. lia.
  Qed.

  Lemma file_size : zlen f = 512 * (1 + M + d + nb + 1).
  Proof.
    pose proof bounds. pose proof E1. pose proof E2. pose proof E3. pose proof FB_len.
    pose proof hdr_len. pose proof MS_len. pose proof DIR_len.
    unfold f. rewrite !zlen_app. assert (d = s1 + s2 + s3) by reflexivity.
    unfold zlen in *. lia.
  Qed.
End ReadBack.
