(** C07, conformance: the fields that [cfb_read] does not look at. *)
From Coq Require Import ZArith List Bool Lia ZifyBool ZifyNat.
From Verif Require Import Bytes UnitModel SpecCFB SpecCFBStrict OleModel OleBat OleProofs OleRead PropsOle.
Import ListNotations.
Local Open Scope Z_scope.

Lemma entries_four b0 b1 b2 b3 : length b0 = 128%nat -> length b1 = 128%nat -> length b2 = 128%nat -> length b3 = 128%nat ->
  entries_of (length (b0 ++ b1 ++ b2 ++ b3)) (b0 ++ b1 ++ b2 ++ b3) = [b0; b1; b2; b3].
Proof.
  intros L0 L1 L2 L3. rewrite !app_length, L0, L1, L2, L3. assert (ST : forall k b r, length b = 128%nat -> entries_of (S k) (b ++ r) = b :: entries_of k r).
  { intros k b r Hb. cbn [entries_of]. destruct b as [|x b']; [discriminate Hb|]. cbn [app]. change (x :: b' ++ r) with ((x :: b') ++ r). rewrite <- Hb. rewrite firstn_app_exact, skipn_app_exact by reflexivity. reflexivity. }
  change (128 + (128 + (128 + 128)))%nat with (S (S (S (S 508)))). rewrite !ST by auto. rewrite <- (app_nil_r b3) at 1. rewrite ST by auto. reflexivity.
Qed.
Lemma len_wide (n : list Z) : length (flat_map (fun c => [c; 0]) n) = (2 * length n)%nat.
Proof. pose proof (len_uname n) as H. rewrite app_length in H. cbn [length] in H. lia. Qed.
Lemma node_entry p : valid_name (op_name p) -> forallb (fun c => negb (existsb (Z.eqb c) [0; 47; 92; 58; 33])) (op_name p) = true ->
  In (op_type p) [1; 2; 5] -> In (op_color p) [0; 1] -> entry_strict (node_bytes p) = true.
Proof.
  intros V N T C. pose proof (node_bytes_length p V) as L. pose proof (parse_node p V) as P. assert (NM : de_name (parse_dentry (node_bytes p)) = op_name p) by (rewrite P; reflexivity).
  destruct V as [Vb Vl]. unfold entry_strict. rewrite NM, N. unfold zlen at 1. rewrite L. cbv zeta.
  unfold node_bytes. set (nm := flat_map (fun c => [c; 0]) (op_name p) ++ [0; 0]).
  assert (Ln : length nm = (2 * length (op_name p) + 2)%nat) by (unfold nm; rewrite app_length, len_wide; cbn [length]; lia).
  unfold zlen in Vl.
  set (X := nm ++ repeat 0 (64 - length nm)). assert (LX : length X = 64%nat) by (unfold X; rewrite app_length, repeat_length; lia).
  rewrite (app_assoc nm). fold X.
  set (A := le16 (zlen nm) ++ [byte_k 0 (op_type p); byte_k 0 (op_color p)] ++ le32 (op_prev p) ++ le32 (op_next p) ++ le32 (op_child p) ++ repeat 0 20 ++ repeat 0 16 ++ le32 (op_start p) ++ le32 (if op_type p =? PTYPE_FILE then op_size p else 0) ++ repeat 0 4).
  assert (SL : forall i n, slice (64 + i) n (X ++ A) = slice i n A) by (intros; rewrite <- LX; unfold slice; rewrite skipn_app, LX; replace (64 + i - 64)%nat with i by lia; rewrite skipn_all2 by lia; reflexivity).
  unfold get16, get8, get32. rewrite (SL 0%nat 2%nat : slice 64 2 (X ++ A) = slice 0 2 A), (SL 2%nat 1%nat : slice 66 1 (X ++ A) = slice 2 1 A), (SL 3%nat 1%nat : slice 67 1 (X ++ A) = slice 3 1 A),
    (SL 16%nat 36%nat : slice 80 36 (X ++ A) = slice 16 36 A), (SL 60%nat 4%nat : slice 124 4 (X ++ A) = slice 60 4 A).
  change (slice 0 2 A) with (le16 (zlen nm)). change (slice 2 1 A) with [byte_k 0 (op_type p)]. change (slice 3 1 A) with [byte_k 0 (op_color p)]. change (slice 16 36 A) with (repeat 0 36). change (slice 60 4 A) with (repeat 0 4).
  assert (Z16 : le_value (le16 (zlen nm)) = zlen nm) by (rewrite le16_value; apply Z.mod_small; unfold zlen; lia). rewrite Z16.
  assert (T1 : existsb (Z.eqb (le_value [byte_k 0 (op_type p)])) [1; 2; 5] = true) by (destruct T as [T|[T|[T|[]]]]; rewrite <- T; reflexivity).
  assert (C1 : existsb (Z.eqb (le_value [byte_k 0 (op_color p)])) [0; 1] = true) by (destruct C as [C|[C|[]]]; rewrite <- C; reflexivity).
  rewrite T1, C1. 
  assert (ZS : zeros (slice (Z.to_nat (zlen nm) - 2) (64 - (Z.to_nat (zlen nm) - 2)) (X ++ A)) = true).
  { unfold zlen. rewrite Nat2Z.id, Ln. replace (2 * length (op_name p) + 2 - 2)%nat with (length (flat_map (fun c => [c; 0]) (op_name p))) by (rewrite len_wide; lia).
    unfold X, nm. rewrite <- !app_assoc. unfold slice. rewrite skipn_app_exact by reflexivity. rewrite len_wide.
    rewrite app_assoc, firstn_app. assert (Q : length ([0; 0] ++ repeat 0 (64 - length (flat_map (fun c => [c; 0]) (op_name p) ++ [0; 0])))%list = (64 - 2 * length (op_name p))%nat).
    { rewrite app_length, repeat_length. fold nm. rewrite Ln. cbn [length]. lia. }
    change (0 :: 0 :: repeat 0 (64 - length (flat_map (fun c => [c; 0]) (op_name p) ++ [0; 0])))  with ([0; 0] ++ repeat 0 (64 - length (flat_map (fun c => [c; 0]) (op_name p) ++ [0; 0]))) in *.
    rewrite firstn_all2 by lia. rewrite Q. replace (64 - 2 * length (op_name p) - (64 - 2 * length (op_name p)))%nat with O by lia. cbn [firstn]. rewrite app_nil_r. unfold zeros. cbn [app forallb]. apply forallb_forall. intros z J. apply repeat_spec in J. subst z. reflexivity. }
  rewrite ZS. replace (2 <=? zlen nm) with true by (unfold zlen; lia). replace (zlen nm <=? 64) with true by (unfold zlen; lia). replace (zlen nm mod 2 =? 0) with true by (unfold zlen; rewrite Ln; lia). reflexivity.
Qed.

Theorem C07_file_is_strict : forall us1 us2 us3,
    zlen (concat us1) + zlen (concat us2) + zlen (concat us3) <= 4294955000 ->
    exists f, ole_image us1 us2 us3 = Ok f /\ strict f.
Proof.
  intros us1 us2 us3 Hl. destruct (real_layout us1 us2 us3 Hl) as (nb & f & H). cbv zeta in H. destruct H as (Hp & Hnb & Hfix & Hf & Himg).
  pose proof valid_workbook as V1. pose proof valid_summary as V2. pose proof valid_docsummary as V3. exists f. split; [exact Himg|].
  pose proof (OleRead.hdr_ok name_workbook name_summary name_docsummary us1 us2 us3 nb Hnb) as HO.
  pose proof (OleRead.get_hdr name_workbook name_summary name_docsummary us1 us2 us3 nb) as GH.
  pose proof (OleRead.fat_read name_workbook name_summary name_docsummary us1 us2 us3 Hp nb Hnb Hfix) as FR.
  pose proof (OleRead.read_dir name_workbook name_summary name_docsummary us1 us2 us3 V1 V2 V3 Hp nb Hnb Hfix) as RD.
  pose proof (OleRead.g_dir name_workbook name_summary name_docsummary us1 us2 us3 Hp nb Hfix) as GD.
  cbv zeta in *. rewrite <- Hf in *. split.
  - unfold header_strict. rewrite HO. unfold get16, get32.
    rewrite (GH 8%nat 16%nat (repeat 0 16)), (GH 24%nat 2%nat (le16 62)), (GH 34%nat 6%nat (repeat 0 6)), (GH 40%nat 4%nat (le32 0)), (GH 52%nat 4%nat (le32 0)),
      (GH 60%nat 4%nat (le32 (-2))), (GH 64%nat 4%nat (le32 0)) by (first [lia|reflexivity]). reflexivity.
  - rewrite <- GD in RD, FR. eexists _, _, _, _. split; [exact FR|]. split; [exact RD|]. clear.
    unfold dir_bytes. rewrite entries_four by (apply node_bytes_length; first [exact valid_workbook|exact valid_summary|exact valid_docsummary|exact valid_root]).
    pose proof valid_root as VR.
    cbn [map]. rewrite !parse_node by (first [exact valid_workbook|exact valid_summary|exact valid_docsummary|exact VR]).
    split; [repeat apply Forall_cons; try apply Forall_nil; (apply node_entry; [first [exact valid_workbook|exact valid_summary|exact valid_docsummary|exact VR]|reflexivity|cbn; auto|cbn; auto])|].
    split; [reflexivity|]. split; [repeat split|]. repeat constructor.
Qed.
Print Assumptions C07_file_is_strict.

Example C07_strict_case :
  match ole_image [[1; 2]; []; repeat 7 2000 ++ repeat 7 2000 ++ repeat 7 2000] [[3]] [[4; 5; 6]] with
  | Ok f => header_strict f = true
            /\ option_map (fun ft => option_map (fun raw => map (fun e => (entry_strict e, de_type (parse_dentry e))) (entries_of (length raw) raw)) (read_chain f ft (get32 f 48))) (fat f)
               = Some (Some [(true, 5); (true, 2); (true, 2); (true, 2)])
  | _ => False
  end.
Proof. vm_compute. split; reflexivity. Qed.
