(** C30, byte for byte: the whole property stream, including what [read_property_set] does
    not look at. *)
From Coq Require Import ZArith List Bool Lia ZifyBool ZifyNat.
From Verif Require Import Bytes UnitModel HpsfModel SpecHpsf PropsHpsf.
Import ListNotations.
Local Open Scope Z_scope.

(** The stream of [MS-OLEPS] 2.21 for a list of properties, written from the format: byte
    order mark, version 0, system 2, no class; one section at 48, holding its length, the
    number of properties, the identifiers with the offsets of the values, and the values one
    after the other, each filled with zeros to a multiple of four bytes; zeros to 4096. *)
Definition fill4 (b : list Z) : list Z := b ++ repeat 0 (Z.to_nat (up4 (zlen b) - zlen b)).
Definition typed_value (v : pvalue) : list Z :=
  match v with
  | PText s => le32 30 ++ le32 (zlen s + 1) ++ fill4 (s ++ [0])
  | PInt16 n => le32 2 ++ fill4 (le16 n)
  | PInt32 n => le32 3 ++ le32 n
  | PBool b => le32 11 ++ fill4 (le16 (if b then 65535 else 0))
  | PTime t => le32 64 ++ le64 t
  end.
Definition values (l : list (Z * pvalue)) : list Z := flat_map (fun x => typed_value (snd x)) l.
(** The entry of the property after [before]: its value lies behind all entries and the
    values of the properties before it. *)
Fixpoint entries (n : Z) (before l : list (Z * pvalue)) : list Z :=
  match l with
  | [] => []
  | x :: t => le32 (fst x) ++ le32 (8 + 8 * n + zlen (values before)) ++ entries n (before ++ [x]) t
  end.
Definition section (l : list (Z * pvalue)) : list Z :=
  le32 (8 + 8 * zlen l + zlen (values l)) ++ le32 (zlen l) ++ entries (zlen l) [] l ++ values l.
Definition stream (d : pset) (l : list (Z * pvalue)) : list Z :=
  let b := [254; 255; 0; 0] ++ le32 2 ++ repeat 0 16 ++ le32 1 ++ format_id d ++ le32 48 ++ section l in
  b ++ repeat 0 (Z.to_nat (4096 - zlen b)).

Lemma vbytes_typed v : vbytes (hv v) = typed_value v.
Proof.
  destruct v; unfold vbytes; cbn [hv variant_of typed_value]; try reflexivity. unfold fill4, up4. rewrite zlen_app. change (zlen [0]) with 1.
  rewrite <- !app_assoc. do 3 f_equal. cbn [app]. rewrite land3. pose proof (zlen_nonneg _ bytes) as N. change (0 :: repeat 0 ?k) with (repeat 0 (S k)). f_equal. lia.
Qed.
Lemma vals_typed l : vals (map item_of l) = values l.
Proof. induction l as [|x t IH]; [reflexivity|]. cbn [map]. unfold vals, values in *. cbn [flat_map]. rewrite IH. f_equal. apply vbytes_typed. Qed.
Lemma ents_typed n l : forall done, ents (map item_of l) (8 + 8 * n + zlen (values done)) = entries n done l.
Proof.
  induction l as [|x t IH]; intro done; [reflexivity|]. cbn [map ents entries]. do 2 f_equal. rewrite <- IH. f_equal.
  change (hi_val (item_of x)) with (hv (snd x)). rewrite <- vbytes_size, vbytes_typed. unfold values. rewrite flat_map_app, zlen_app. cbn [flat_map]. rewrite app_nil_r. lia.
Qed.

Theorem C30_exact_bytes orc now calls d : (forall k, orc k <> None) -> 0 <= now < 1099511627776 -> Forall pcall_typed calls ->
  need (expected now calls d) <= 4096 ->
  exists u, stream_unit orc d (run_props now calls) = Ok u /\ content u = Some (stream d (expected now calls d)).
Proof.
  intros Ho B T N. rewrite stream_unit_eq, (props_sets now B calls T d), canon_expected. destruct (format_words_id d) as [Lf Ef]. set (l := expected now calls d) in *.
  assert (Tv : Forall (fun x => value_typed (hi_val x)) (map item_of l)).
  { apply Forall_map. apply Forall_forall. intros x J. apply expected_in in J. destruct J as [_ J]. pose proof (value_texts now calls d (fst x) B T) as V. rewrite J in V.
    change (hi_val (item_of x)) with (hv (snd x)). destruct (snd x); cbn [hv value_typed]; auto. }
  pose proof (need_section l) as Sz. pose proof (unit_bytes orc _ _ Ho Lf Tv ltac:(lia)) as U.
  replace (zlen (section_bytes (map item_of l)) <=? 4048) with true in U by lia. destruct U as (u & U & C). exists u. split; [exact U|]. rewrite C. f_equal.
  assert (ES : section_bytes (map item_of l) = section l).
  { unfold section_bytes, section. rewrite <- vals_size, vals_typed. unfold zlen at 1 3 4. rewrite map_length. fold (zlen l). rewrite <- (ents_typed (zlen l) l []). change (zlen (values [])) with 0. rewrite (Z.mul_comm 8), Z.add_0_r. reflexivity. }
  rewrite ES. unfold stream. cbv zeta. unfold header_bytes. rewrite Ef. set (sec := section l).
  assert (L : zlen ([254; 255; 0; 0] ++ le32 2 ++ repeat 0 16 ++ le32 1 ++ format_id d ++ le32 48 ++ sec) = 48 + zlen sec) by (rewrite !zlen_app; assert (Lx : zlen (format_id d) = 16) by (destruct d; reflexivity); rewrite Lx; change (zlen [254; 255; 0; 0]) with 4; change (zlen (repeat 0 16)) with 16; rewrite ?zlen_le32; lia).
  rewrite L. replace (4096 - (48 + zlen sec)) with (4048 - zlen sec) by lia. rewrite <- !app_assoc. reflexivity.
Qed.
Print Assumptions C30_exact_bytes.

Example C30_exact_case : Forall pcall_typed some_calls /\ need (expected 1700000000 some_calls DocSummary) <= 4096
  /\ firstn 96 (stream DocSummary (expected 1700000000 some_calls DocSummary))
     = [254; 255; 0; 0; 2; 0; 0; 0] ++ repeat 0 16 ++ [1; 0; 0; 0; 2; 213; 205; 213; 156; 46; 27; 16; 147; 151; 8; 0; 43; 44; 249; 174; 48; 0; 0; 0]
       ++ [44; 0; 0; 0; 2; 0; 0; 0; 1; 0; 0; 0; 24; 0; 0; 0; 15; 0; 0; 0; 32; 0; 0; 0] ++ [2; 0; 0; 0; 176; 4; 0; 0; 30; 0; 0; 0; 1; 0; 0; 0; 0; 0; 0; 0] ++ repeat 0 4.
Proof. split; [exact some_calls_typed|]. vm_compute. split; [discriminate|reflexivity]. Qed.
