(** The BIFF8 reader (SpecBiff) applied to the records of a saved document: cells, shared
    strings, and the small records. *)
From Coq Require Import ZArith List Bool Lia ZifyBool ZifyNat Sorting.Sorted Sorting.Permutation.
From Verif Require Import Bytes UnitModel SpecBuf BufProofs UnitProofs RecModel SheetModel XfModel WbModel
  RecProofs RecFrames XfProofs SheetProofs SheetTrace GlobTrace WbProofs SpecBiff BookRecs XfInv ApiModel ApiInv
  SpecApi ApiEff SaveOk SaveRecs.
Import ListNotations.
Local Open Scope Z_scope.

(* ------------------------------------------------------------------ *)
(** * Fields of fixed payloads *)

Lemma fldv n a v r off : length a = off -> length v = n -> fld n (a ++ v ++ r) off = Some (le_value v).
Proof.
  intros <- <-. unfold fld. rewrite !app_length. replace (Nat.leb _ _) with true by lia.
  rewrite skipn_app, skipn_all, Nat.sub_diag, skipn_O. cbn [app].
  rewrite firstn_app, firstn_all, Nat.sub_diag, firstn_O, app_nil_r. reflexivity.
Qed.
Lemma fld16 a v r off : length a = off -> fld 2 (a ++ le16 v ++ r) off = Some (v mod 65536).
Proof. intro H. rewrite fldv; auto. rewrite le16_value. reflexivity. Qed.
Lemma fld32 a v r off : length a = off -> fld 4 (a ++ le32 v ++ r) off = Some (v mod 4294967296).
Proof. intro H. rewrite fldv; auto. rewrite le32_value. reflexivity. Qed.
Lemma fld64 a v r off : length a = off -> fld 8 (a ++ le64 v ++ r) off = Some (v mod 18446744073709551616).
Proof. intro H. rewrite fldv; auto. rewrite le64_value. reflexivity. Qed.
Lemma val16 v : u16 v -> le_value [byte_k 0 v; byte_k 1 v] = v.
Proof. apply le_value2. Qed.
Lemma val16m v : le_value [byte_k 0 v; byte_k 1 v] = v mod 65536.
Proof. exact (le16_value v). Qed.
Lemma val32 v : le_value [byte_k 0 v; byte_k 1 v; byte_k 2 v; byte_k 3 v] = v mod 4294967296.
Proof. exact (le32_value v). Qed.
Lemma val64 v : le_value [byte_k 0 v; byte_k 1 v; byte_k 2 v; byte_k 3 v; byte_k 4 v; byte_k 5 v; byte_k 6 v; byte_k 7 v]
  = v mod 18446744073709551616.
Proof. exact (le64_value v). Qed.

(* ------------------------------------------------------------------ *)
(** * Cells *)

Definition shown (s : list Z) : list Z := if in_sst s then sst_str s else s.
Definition read_as (v : cval) : rval :=
  match v with
  | VBlank => RBlank
  | VBool b => RBool b
  | VErr e => RErr e
  | VInt n => RNum (NInt n)
  | VDouble bits => RNum (NDouble bits)
  | VLabel _ s => RText (shown s)
  | VFormula arr toks _ e => RFormula (mkRF (fe_enc e) (fe_flags e) arr toks (fe_str e))
  end.
Definition cell_as (c : cell) : rcell := mkRC (c_row c) (c_col c) (c_xf c mod 65536) (read_as (c_val c)).
(** A cell whose fields fit the file format; [sst] is the table the reader found. *)
Definition val_ok (ls : labels) (sst : list (list Z)) (v : cval) : Prop :=
  match v with
  | VErr e => u8 e
  | VInt n => -536870912 <= n < 536870912
  | VDouble bits => 0 <= bits < 18446744073709551616
  | VLabel id s =>
      Forall u16 s /\
      (in_sst s = true -> exists i, label_index ls id 0 = Ok (Z.of_nat i) /\ nth_error sst i = Some (sst_str s)
                                    /\ Z.of_nat i < 4294967296)
  | VFormula arr toks _ e =>
      Forall u8 toks /\ zlen toks < 65536 /\ 0 <= fe_enc e < 18446744073709551616 /\ u16 (fe_flags e)
      /\ (forall s, fe_str e = Some s -> Forall u16 s /\ zlen s < 256)
  | _ => True
  end.
Definition cell_good (ls : labels) (sst : list (list Z)) (c : cell) : Prop :=
  u16 (c_row c) /\ u16 (c_col c) /\ val_ok ls sst (c_val c).

Lemma whole_ustr s n f : Forall u16 s -> (f = LEN1 /\ n = 1%nat /\ zlen s <= 255) \/ (f = LEN2 /\ n = 2%nat /\ zlen s <= 65535) ->
  whole_string n (ustr_bytes s f) = Some s.
Proof.
  intros H K. unfold whole_string. rewrite ustr_spec by exact H. rewrite <- (app_nil_r (spec_string s f)).
  rewrite (read_spec_string s f n []) by assumption. reflexivity.
Qed.
Lemma toks_same toks : Forall u8 toks -> tok_bytes toks = toks.
Proof. apply map_byte_id. Qed.

Lemma head_fields c tail : u16 (c_row c) -> u16 (c_col c) ->
  fld 2 (cell_head c ++ tail) 0 = Some (c_row c) /\ fld 2 (cell_head c ++ tail) 2 = Some (c_col c)
  /\ fld 2 (cell_head c ++ tail) 4 = Some (c_xf c mod 65536).
Proof.
  intros A B. unfold cell_head. rewrite <- !app_assoc. split; [|split].
  - etransitivity; [apply (fld16 [] (c_row c)); reflexivity|]. rewrite Z.mod_small by exact A. reflexivity.
  - rewrite (fld16 (le16 (c_row c)) (c_col c)) by reflexivity. rewrite Z.mod_small by exact B. reflexivity.
  - rewrite app_assoc, (fld16 (le16 (c_row c) ++ le16 (c_col c)) (c_xf c)) by reflexivity.
    reflexivity.
Qed.
Lemma step_cell sst acc c t tail v : u16 (c_row c) -> u16 (c_col c) -> is_cell t = true ->
  read_cell sst (t, cell_head c ++ tail) = Some v ->
  read_step sst acc (t, cell_head c ++ tail) = Some (mkRC (c_row c) (c_col c) (c_xf c mod 65536) v :: acc).
Proof.
  intros A B T R. unfold read_step. cbn [fst snd]. rewrite T.
  destruct (head_fields c tail A B) as (-> & -> & ->). rewrite R. reflexivity.
Qed.
Lemma head6 c tail : skipn 6 (cell_head c ++ tail) = tail.
Proof. reflexivity. Qed.
Lemma zhead c tail : zlen (cell_head c ++ tail) = 6 + zlen tail.
Proof. unfold cell_head. szs. lia. Qed.

Lemma rk_int n : -536870912 <= n < 536870912 ->
  rk_num (Z.lor ((n * 4) mod 4294967296) 2 mod 4294967296) = NInt n.
Proof.
  intro H. set (m := (n * 4) mod 4294967296).
  assert (M4 : m = 4 * (n mod 1073741824)) by (unfold m; replace 4294967296 with (1073741824 * 4) by reflexivity; rewrite Z.mul_mod_distr_r by lia; lia).
  pose proof (Z.mod_pos_bound n 1073741824 ltac:(lia)) as Bd.
  assert (E : Z.lor m 2 = m + 2).
  { rewrite Z.add_nocarry_lxor.
    - rewrite <- Z.lxor_lor; [reflexivity|]. 
      rewrite M4. apply Z.bits_inj'. intros k Hk. rewrite Z.land_spec, Z.bits_0. change 4 with (2 ^ 2).
      destruct (Z.eq_dec k 1) as [->|N].
      + rewrite (Z.mul_comm (2 ^ 2)), Z.mul_pow2_bits_low by lia. reflexivity.
      + replace (Z.testbit 2 k) with false; [apply andb_false_r|]. symmetry.
        destruct (Z.eq_dec k 0) as [->|]; [reflexivity|]. apply Z.bits_above_log2; cbn; lia.
    - rewrite M4. apply Z.bits_inj'. intros k Hk. rewrite Z.land_spec, Z.bits_0. change 4 with (2 ^ 2).
      destruct (Z.eq_dec k 1) as [->|N].
      + rewrite (Z.mul_comm (2 ^ 2)), Z.mul_pow2_bits_low by lia. reflexivity.
      + replace (Z.testbit 2 k) with false; [apply andb_false_r|]. symmetry.
        destruct (Z.eq_dec k 0) as [->|]; [reflexivity|]. apply Z.bits_above_log2; cbn; lia. }
  rewrite E, Z.mod_small by lia. unfold rk_num.
  assert (T1 : Z.testbit (m + 2) 1 = true) by (rewrite Z.testbit_true by lia; change (2 ^ 1) with 2; lia).
  assert (T0 : Z.testbit (m + 2) 0 = false) by (apply Z.testbit_false; [lia|]; change (2 ^ 0) with 1; lia).
  rewrite T1, T0. f_equal. replace ((m + 2) / 4) with (n mod 1073741824) by lia.
  unfold signed. change (2 ^ (30 - 1)) with 536870912. change (2 ^ 30) with 1073741824.
  destruct (_ <? _) eqn:E2; lia.
Qed.

Lemma fml_split c e tail : fml_head (c_row c) (c_col c) (c_xf c) e ++ tail =
  cell_head c ++ le64 (fe_enc e) ++ le16 (fe_flags e) ++ le32 0 ++ tail.
Proof. unfold fml_head, cell_head. rewrite <- !app_assoc. reflexivity. Qed.
Lemma read_fml sst c e n p : 0 <= fe_enc e < 18446744073709551616 -> u16 (fe_flags e) -> u16 n -> zlen p = n ->
  read_cell sst (T_FORMULA, fml_head (c_row c) (c_col c) (c_xf c) e ++ le16 n ++ p)
  = Some (RFormula (mkRF (fe_enc e) (fe_flags e) false p None)).
Proof.
  intros A B C D. rewrite fml_split. unfold read_cell. cbn [fst snd].
  change (T_FORMULA =? T_BLANK) with false. change (T_FORMULA =? T_BOOLERR) with false. change (T_FORMULA =? T_RK) with false.
  change (T_FORMULA =? T_NUMBER) with false. change (T_FORMULA =? T_LABEL) with false. change (T_FORMULA =? T_LABELSST) with false.
  change (T_FORMULA =? T_FORMULA) with true. cbv iota.
  set (h := cell_head c). assert (Lh : length h = 6%nat) by reflexivity.
  rewrite (fld64 h) by reflexivity.
  assert (E2 : fld 2 (h ++ le64 (fe_enc e) ++ le16 (fe_flags e) ++ le32 0 ++ le16 n ++ p) 14 = Some (fe_flags e)).
  { rewrite app_assoc, (fld16 (h ++ le64 (fe_enc e))) by reflexivity. rewrite Z.mod_small by exact B. reflexivity. }
  rewrite E2.
  assert (E3 : fld 2 (h ++ le64 (fe_enc e) ++ le16 (fe_flags e) ++ le32 0 ++ le16 n ++ p) 20 = Some n).
  { replace (h ++ le64 (fe_enc e) ++ le16 (fe_flags e) ++ le32 0 ++ le16 n ++ p)
      with ((h ++ le64 (fe_enc e) ++ le16 (fe_flags e) ++ le32 0) ++ le16 n ++ p) by (rewrite <- !app_assoc; reflexivity).
    rewrite fld16 by reflexivity. rewrite Z.mod_small by exact C. reflexivity. }
  rewrite E3. change (skipn 22 (h ++ le64 (fe_enc e) ++ le16 (fe_flags e) ++ le32 0 ++ le16 n ++ p)) with p.
  unfold bytes_exactly. rewrite D, Z.eqb_refl. rewrite Z.mod_small by exact A. reflexivity.
Qed.

Lemma loop_step sst acc r rest acc1 : read_step sst acc r = Some acc1 -> read_loop sst (r :: rest) acc = read_loop sst rest acc1.
Proof. intro H. cbn [read_loop]. rewrite H. reflexivity. Qed.
Lemma step_string sst acc c f s : Forall u16 s -> zlen s < 256 ->
  read_step sst (mkRC (c_row c) (c_col c) (c_xf c mod 65536) (RFormula f) :: acc) (T_STRING, ustr_bytes s LEN2) =
  Some (mkRC (c_row c) (c_col c) (c_xf c mod 65536) (RFormula (mkRF (rf_result f) (rf_flags f) (rf_array f) (rf_toks f) (Some s))) :: acc).
Proof.
  intros H L. unfold read_step. cbn [fst snd]. change (is_cell T_STRING) with false. change (T_STRING =? T_ARRAY) with false.
  change (T_STRING =? T_STRING) with true. cbv iota. rewrite whole_ustr; [reflexivity|exact H|]. right. repeat split; lia.
Qed.
Lemma byte_low v : le_value [byte_k 0 v] = v mod 256.
Proof. cbn [le_value]. unfold byte_k. rewrite Z.shiftr_0_r. change 255 with (Z.ones 8). rewrite Z.land_ones by lia. change (2 ^ 8) with 256. lia. Qed.
Lemma refers_here r c : u16 r -> u16 c -> refers_to r c (1 :: le16 r ++ le16 c) = true.
Proof. intros A B. unfold refers_to, le16. cbn [app]. rewrite !le_value2 by assumption. lia. Qed.
Lemma step_array sst acc c f e toks : u16 (c_row c) -> u16 (c_col c) -> rf_toks f = 1 :: le16 (c_row c) ++ le16 (c_col c) -> Forall u8 toks -> zlen toks < 65536 ->
  read_step sst (mkRC (c_row c) (c_col c) (c_xf c mod 65536) (RFormula f) :: acc)
    (T_ARRAY, arr_head (c_row c) (c_col c) e ++ le16 (zlen toks) ++ tok_bytes toks) =
  Some (mkRC (c_row c) (c_col c) (c_xf c mod 65536) (RFormula (mkRF (rf_result f) (rf_flags f) true toks (rf_string f))) :: acc).
Proof.
  intros A B Et H L. rewrite toks_same by exact H. unfold read_step. cbn [fst snd]. change (is_cell T_ARRAY) with false.
  change (T_ARRAY =? T_ARRAY) with true. cbv iota.
  assert (E1 : fld 2 (arr_head (c_row c) (c_col c) e ++ le16 (zlen toks) ++ toks) 0 = Some (c_row c)).
  { unfold arr_head. rewrite <- app_assoc. etransitivity; [apply (fld16 []); reflexivity|]. rewrite Z.mod_small by exact A. reflexivity. }
  assert (E2 : fld 2 (arr_head (c_row c) (c_col c) e ++ le16 (zlen toks) ++ toks) 2 = Some (c_row c)).
  { unfold arr_head. rewrite <- !app_assoc. rewrite (fld16 (le16 (c_row c))) by reflexivity. rewrite Z.mod_small by exact A. reflexivity. }
  assert (E3 : fld 1 (arr_head (c_row c) (c_col c) e ++ le16 (zlen toks) ++ toks) 4 = Some (c_col c mod 256)) by (rewrite <- byte_low; reflexivity).
  assert (E4 : fld 1 (arr_head (c_row c) (c_col c) e ++ le16 (zlen toks) ++ toks) 5 = Some (c_col c mod 256)) by (rewrite <- byte_low; reflexivity).
  rewrite E1, E2, E3, E4. clear E1 E2 E3 E4. rewrite !Z.eqb_refl, Et, refers_here by assumption. cbn [andb negb].
  rewrite (fld16 (arr_head (c_row c) (c_col c) e)) by reflexivity.
  change (skipn 14 (arr_head (c_row c) (c_col c) e ++ le16 (zlen toks) ++ toks)) with toks.
  pose proof (zlen_nonneg _ toks). rewrite Z.mod_small by lia. unfold bytes_exactly. rewrite Z.eqb_refl. reflexivity.
Qed.

Theorem read_one ls sst c rest acc : cell_good ls sst c ->
  read_loop sst (cell_recs ls c ++ rest) acc = read_loop sst rest (cell_as c :: acc).
Proof.
  intros (A & B & V). unfold cell_as, cell_recs. unfold val_ok in V.
  destruct (c_val c) as [|bo|er|nn|bi|id s|arr toks fs est] eqn:Ev; cbn [read_as].
  - cbn [app]. apply loop_step. rewrite <- (app_nil_r (cell_head c)). apply step_cell; auto.
  - cbn [app]. apply loop_step. apply step_cell; auto. destruct bo; reflexivity.
  - cbn [app]. apply loop_step. apply step_cell; auto. unfold read_cell. cbn [fst snd]. 
    change (RT_BOOLERR =? T_BLANK) with false. change (RT_BOOLERR =? T_BOOLERR) with true. cbv iota. rewrite head6.
    rewrite byte_k_small by exact V. reflexivity.
  - cbn [app]. apply loop_step. apply step_cell; auto. unfold read_cell. cbn [fst snd].
    change (RT_RK =? T_BLANK) with false. change (RT_RK =? T_BOOLERR) with false. change (RT_RK =? T_RK) with true. cbv iota.
    rewrite zhead, zlen_le32. change (6 + 4 =? 10) with true. cbv iota.
    rewrite <- (app_nil_r (le32 _)), (fld32 (cell_head c)) by reflexivity. rewrite rk_int by exact V. reflexivity.
  - cbn [app]. apply loop_step. apply step_cell; auto. unfold read_cell. cbn [fst snd].
    change (RT_NUMBER =? T_BLANK) with false. change (RT_NUMBER =? T_BOOLERR) with false. change (RT_NUMBER =? T_RK) with false.
    change (RT_NUMBER =? T_NUMBER) with true. cbv iota. rewrite zhead, zlen_le64. change (6 + 8 =? 14) with true. cbv iota.
    rewrite <- (app_nil_r (le64 _)), (fld64 (cell_head c)) by reflexivity. rewrite Z.mod_small by exact V. reflexivity.
  - destruct V as [U K]. unfold shown. destruct (in_sst s) eqn:Es.
    + destruct (K eq_refl) as (i & Ei & En & Li). unfold sst_pos. rewrite Ei. cbn [app]. apply loop_step. apply step_cell; auto.
      unfold read_cell. cbn [fst snd].
      change (RT_LABELSST =? T_BLANK) with false. change (RT_LABELSST =? T_BOOLERR) with false. change (RT_LABELSST =? T_RK) with false.
      change (RT_LABELSST =? T_NUMBER) with false. change (RT_LABELSST =? T_LABEL) with false. change (RT_LABELSST =? T_LABELSST) with true.
      cbv iota. rewrite zhead, zlen_le32. change (6 + 4 =? 10) with true. cbv iota.
      rewrite <- (app_nil_r (le32 _)), (fld32 (cell_head c)) by reflexivity. rewrite Z.mod_small by lia. rewrite Nat2Z.id, En. reflexivity.
    + cbn [app]. apply loop_step. apply step_cell; auto. unfold read_cell. cbn [fst snd].
      change (RT_LABEL =? T_BLANK) with false. change (RT_LABEL =? T_BOOLERR) with false. change (RT_LABEL =? T_RK) with false.
      change (RT_LABEL =? T_NUMBER) with false. change (RT_LABEL =? T_LABEL) with true. cbv iota. rewrite head6.
      rewrite whole_ustr; [reflexivity|exact U|]. right. unfold in_sst in Es. repeat split; lia.
  - destruct V as (U & Lt & En & Fl & St). pose proof (zlen_nonneg _ toks). unfold fml_recs.
    assert (Tail : forall f, read_loop sst (match fe_str est with None => [] | Some s => [(RT_STRING, ustr_bytes s LEN2)] end ++ rest)
       (mkRC (c_row c) (c_col c) (c_xf c mod 65536) (RFormula (mkRF (fe_enc est) (fe_flags est) f toks None)) :: acc) =
       read_loop sst rest (mkRC (c_row c) (c_col c) (c_xf c mod 65536) (RFormula (mkRF (fe_enc est) (fe_flags est) f toks (fe_str est))) :: acc)).
    { intro f. destruct (fe_str est) as [s|]; [|reflexivity]. destruct (St s eq_refl) as [Us Ls]. cbn [app]. 
      rewrite (loop_step _ _ _ _ _ (step_string sst acc c _ s Us Ls)). reflexivity. }
    destruct arr.
    + rewrite <- app_assoc. cbn [app].
      assert (R : read_step sst acc (RT_FORMULA, fml_head (c_row c) (c_col c) (c_xf c) est ++ le16 5 ++ 1 :: le16 (c_row c) ++ le16 (c_col c)) =
        Some (mkRC (c_row c) (c_col c) (c_xf c mod 65536) (RFormula (mkRF (fe_enc est) (fe_flags est) false (1 :: le16 (c_row c) ++ le16 (c_col c)) None)) :: acc)).
      { rewrite fml_split. apply step_cell; auto. rewrite <- fml_split. apply read_fml; auto. unfold u16. lia. }
      rewrite (loop_step _ _ _ _ _ R). rewrite (loop_step _ _ _ _ _ (step_array sst acc c (mkRF (fe_enc est) (fe_flags est) false (1 :: le16 (c_row c) ++ le16 (c_col c)) None) est toks A B eq_refl U Lt)). apply Tail.
    + rewrite <- app_assoc. cbn [app].
      assert (R : read_step sst acc (RT_FORMULA, fml_head (c_row c) (c_col c) (c_xf c) est ++ le16 (zlen toks) ++ tok_bytes toks) =
        Some (mkRC (c_row c) (c_col c) (c_xf c mod 65536) (RFormula (mkRF (fe_enc est) (fe_flags est) false toks None)) :: acc)).
      { rewrite toks_same by exact U. rewrite fml_split. apply step_cell; auto. rewrite <- fml_split. apply read_fml; auto. unfold u16. lia. }
      rewrite (loop_step _ _ _ _ _ R). apply Tail.
Qed.

Definition quiet_types (t : Z) : bool := negb (is_cell t || (t =? T_ARRAY) || (t =? T_STRING)).
Lemma loop_skip sst rs : Forall (fun r : brec => quiet_types (fst r) = true) rs -> forall rest acc,
  read_loop sst (rs ++ rest) acc = read_loop sst rest acc.
Proof.
  induction 1 as [|r rs K F IH]; intros rest acc; [reflexivity|]. cbn [app]. rewrite <- (IH rest acc). apply loop_step.
  unfold read_step, quiet_types in *. destruct (is_cell (fst r)); [discriminate|]. cbn [orb] in K.
  destruct (fst r =? T_ARRAY); [discriminate|]. destruct (fst r =? T_STRING); [discriminate|]. reflexivity.
Qed.
Lemma loop_cells ls sst cs : Forall (cell_good ls sst) cs -> forall rest acc,
  read_loop sst (concat (map (cell_recs ls) cs) ++ rest) acc = read_loop sst rest (rev (map cell_as cs) ++ acc).
Proof.
  induction 1 as [|c cs K F IH]; intros rest acc; [reflexivity|]. cbn [map concat rev]. rewrite <- !app_assoc.
  rewrite read_one by exact K. rewrite IH. cbn [app]. reflexivity.
Qed.
Definition skips (rs : list brec) : Prop := Forall (fun r : brec => quiet_types (fst r) = true) rs.
Lemma skips_types ts rs : has_types ts rs -> Forall (fun t => quiet_types t = true) ts -> skips rs.
Proof. intros H K. rewrite Forall_forall in K. eapply Forall_impl; [|exact H]. intros r I. apply K. exact I. Qed.
Definition noncell_types : list Z :=
  [RT_INDEX; RT_DEFAULTROWHEIGHT; RT_COLINFO; RT_DEFCOLWIDTH; RT_DIMENSIONS; RT_ROW; RT_DBCELL; RT_MSODRAWING; RT_OBJ; RT_TXO; RT_CONTINUE; RT_NOTE;
   RT_MERGEDCELLS; RT_WINDOW2; RT_PANE; RT_HLINK; RT_DVAL; RT_DV].
Lemma noncell_skips rs : has_types noncell_types rs -> skips rs.
Proof. intro H. eapply skips_types; [exact H|]. repeat apply Forall_cons; try apply Forall_nil; reflexivity. Qed.
Lemma head_in_types pos s : Forall (has_types noncell_types) (head_in pos s).
Proof. unfold head_in. repeat (apply Forall_app; split); try hm; hgl. Qed.
Lemma tail_in_types ac s : Forall (has_types noncell_types) (tail_in ac s).
Proof.
  unfold tail_in. repeat (apply Forall_app; split); try hm; try hgl.
  - eapply Forall_impl; [|apply drawings_types]. intros rs. apply ht_weaken. intros t. cbn. tauto.
  - destruct (_ && _)%bool; hgl.
  - destruct (sh_dvs s); [constructor|]. apply Forall_cons; [hone|]. hm.
Qed.
Lemma loop_blocks ls sst bl : Forall (cell_good ls sst) (flat_map k_cells bl) -> 
  Forall (fun c => rsz (cell_recs ls c) <= 8228) (flat_map k_cells bl) -> forall rest acc,
  read_loop sst (flat_map rx (flat_map (block_recs ls) bl) ++ rest) acc = read_loop sst rest (rev (map cell_as (flat_map k_cells bl)) ++ acc).
Proof.
  induction bl as [|b bl IH]; intros F G rest acc; [reflexivity|]. cbn [flat_map] in *. apply Forall_app in F. destruct F as [F1 F2].
  apply Forall_app in G. destruct G as [G1 G2].
  rewrite flat_map_app, <- app_assoc. unfold block_recs at 1. rewrite !flat_map_app, <- !app_assoc. rewrite loop_skip.
  2:{ apply noncell_skips. apply ht_rx; [hin|]. hm. }
  rewrite (rx_all (map (cell_recs ls) (k_cells b))) by (apply Forall_map; exact G1).
  rewrite loop_cells by exact F1. rewrite loop_skip.
  2:{ apply noncell_skips. apply ht_rx; [hin|]. hgl. }
  rewrite IH by assumption. rewrite map_app, rev_app_distr, <- app_assoc. reflexivity.
Qed.
Theorem read_inner ls sst ac pos s : sheet_blocks s <> None -> Forall (cell_good ls sst) (sh_cells s) ->
  Forall (fun c => rsz (cell_recs ls c) <= 8228) (sh_cells s) ->
  read_cells sst (flat_map rx (inner ls ac pos s)) = Some (map cell_as (sh_cells s)).
Proof.
  intros Hb F G. unfold read_cells, inner, body_recs. rewrite !flat_map_app. rewrite loop_skip.
  2:{ apply noncell_skips. apply ht_rx; [hin|]. apply head_in_types. }
  unfold sheet_blocks in *. destruct (blocks_of _ _ _) as [bl|] eqn:E; [|congruence]. apply blocks_cells in E.
  rewrite loop_blocks by (rewrite E; assumption). rewrite E, app_nil_r.
  rewrite <- (app_nil_r (flat_map rx (tail_in ac s))). rewrite loop_skip.
  2:{ apply noncell_skips. apply ht_rx; [hin|]. apply tail_in_types. }
  cbn [read_loop]. rewrite rev_involutive. reflexivity.
Qed.

(* ------------------------------------------------------------------ *)
(** * Shared strings *)

Definition packed (ls : list (list Z)) : list Z := flat_map (fun s => ustr_bytes s LEN2) ls.
Lemma packed_read ls : Forall (fun s => Forall u16 s /\ zlen s <= 65535) ls -> forall f, (length (packed ls) <= f)%nat ->
  read_strings f (packed ls) = Some ls.
Proof.
  induction 1 as [|s ls (U & L) F IH]; intros f Hf; [destruct f; reflexivity|].
  unfold packed in *. cbn [flat_map] in *. rewrite app_length in Hf.
  assert (P : (0 < length (ustr_bytes s LEN2))%nat).
  { rewrite ustr_spec by exact U. unfold spec_string. rewrite app_length, digits_length. lia. }
  destruct f as [|f]; [lia|]. cbn [read_strings].
  destruct (ustr_bytes s LEN2 ++ flat_map (fun s => ustr_bytes s LEN2) ls) as [|b0 bs] eqn:E.
  { apply (f_equal (@length Z)) in E. rewrite app_length in E. cbn [length] in E. lia. }
  rewrite <- E. clear E b0 bs. rewrite ustr_spec by exact U.
  rewrite (read_spec_string s LEN2 2) by (auto; right; repeat split; lia).
  rewrite IH by (rewrite ustr_spec in P, Hf by exact U; lia). reflexivity.
Qed.
Lemma strings_packed ls : Forall (fun s => Forall u16 s /\ zlen s <= 65535) ls -> strings (packed ls) = Some ls.
Proof. intro H. apply packed_read; auto. Qed.
Lemma sst_str_good s : Forall u16 s -> Forall u16 (sst_str s) /\ zlen (sst_str s) <= 65535.
Proof.
  intro H. pose proof (sst_str_le s) as L. rewrite unicode_length_ok in L. 
  split.
  - unfold sst_str. destruct (_ <? _); [|exact H]. unfold too_long. repeat (apply Forall_cons; [unfold u16; lia|]). apply Forall_nil.
  - unfold unicode_string_length in L. pose proof (zlen_nonneg _ (sst_str s)). destruct (is_ascii (sst_str s)); lia.
Qed.
Lemma frames_read ls : Forall (Forall u16) ls -> forall t p, exists a b rest,
  sst_frames t p ls = (t, p ++ packed a) :: rest /\ continued_strings rest = Some b /\ map sst_str ls = a ++ b
  /\ Forall (fun s => Forall u16 s /\ zlen s <= 65535) a.
Proof.
  induction 1 as [|s ls U F IH]; intros t p; cbn [sst_frames map].
  - exists [], [], []. unfold packed. cbn [flat_map app]. rewrite app_nil_r. repeat split; auto.
  - cbv zeta. destruct (_ <? _).
    + destruct (IH RT_CONTINUE (ustr_bytes (sst_str s) LEN2)) as (a & b & rest & E & C & M & G).
      exists [], (sst_str s :: a ++ b), (sst_frames RT_CONTINUE (ustr_bytes (sst_str s) LEN2) ls).
      unfold packed at 1. cbn [flat_map app]. rewrite app_nil_r, M. repeat split; auto. rewrite E. cbn [continued_strings].
      change (RT_CONTINUE =? T_CONTINUE) with true. cbv iota.
      change (ustr_bytes (sst_str s) LEN2 ++ packed a) with (packed (sst_str s :: a)).
      rewrite strings_packed by (constructor; [apply sst_str_good; exact U|exact G]). rewrite C. reflexivity.
    + destruct (IH t (p ++ ustr_bytes (sst_str s) LEN2)) as (a & b & rest & E & C & M & G).
      exists (sst_str s :: a), b, rest. rewrite E, M. unfold packed. cbn [flat_map app]. rewrite <- app_assoc. repeat split; auto.
      constructor; [apply sst_str_good; exact U|exact G].
Qed.
Lemma sst_recs_read ls : Forall (Forall u16) ls -> zlen ls < 4294967296 -> read_sst (sst_recs ls) = Some (map sst_str ls).
Proof.
  intros U L. unfold sst_recs. pose proof (zlen_nonneg _ ls).
  destruct (frames_read ls U RT_SST (le32 (zlen ls) ++ le32 (zlen ls))) as (a & b & rest & -> & C & M & G).
  cbn [read_sst]. change (RT_SST =? T_SST) with true. cbv iota. rewrite <- app_assoc.
  assert (E0 : fld 4 (le32 (zlen ls) ++ le32 (zlen ls) ++ packed a) 0 = Some (zlen ls)).
  { etransitivity; [apply (fld32 [] (zlen ls)); reflexivity|]. rewrite Z.mod_small by lia. reflexivity. }
  assert (E1 : fld 4 (le32 (zlen ls) ++ le32 (zlen ls) ++ packed a) 4 = Some (zlen ls)).
  { etransitivity; [apply (fld32 (le32 (zlen ls)) (zlen ls)); reflexivity|]. rewrite Z.mod_small by lia. reflexivity. }
  rewrite E0, E1. change (skipn 8 (le32 (zlen ls) ++ le32 (zlen ls) ++ packed a)) with (packed a).
  rewrite strings_packed by exact G. rewrite C, <- M, zlen_map, Z.eqb_refl. reflexivity.
Qed.
Lemma sst_skip rs rest : Forall (fun r : brec => fst r <> T_SST) rs -> read_sst (rs ++ rest) = read_sst rest.
Proof. induction 1 as [|[t p] rs K F IH]; [reflexivity|]. cbn [app read_sst fst] in *. destruct (t =? T_SST) eqn:E; [lia|exact IH]. Qed.
Lemma sst_skip_types ts rs rest : has_types ts rs -> ~ In T_SST ts -> read_sst (rs ++ rest) = read_sst rest.
Proof. intros H N. apply sst_skip. eapply Forall_impl; [|exact H]. intros r I E. apply N. rewrite <- E. exact I. Qed.

Lemma globals_sst g ps : Forall (fun l => Forall u16 (snd l)) (g_labels g) -> zlen (g_labels g) < 4294967296 ->
  read_sst (globals_body g ps) = Some (map sst_str (map snd (g_labels g))).
Proof.
  intros U L. unfold globals_body.
  rewrite (sst_skip_types [RT_CODEPAGE; RT_WINDOW1; RT_DATEMODE; RT_FONT; RT_FORMAT; RT_XF; RT_STYLE; RT_PALETTE; RT_CONTINUE]).
  2:{ apply ht_rx; [hin|]. unfold ghead_in, ghead_recs. cbn [tl app]. repeat (apply Forall_cons; [hone|]).
      repeat (apply Forall_app; split); try hm. hgl. }
  2:{ cbn. intros K. repeat (destruct K as [K|K]; [discriminate|]). exact K. }
  rewrite (sst_skip_types [RT_BOUNDSHEET]).
  2:{ unfold bs_recs. apply Forall_map. apply Forall_forall. intros x _. hin. }
  2:{ cbn. intros [K|K]; [discriminate|exact K]. }
  unfold gtail_in. rewrite !flat_map_app.
  rewrite (sst_skip_types [RT_SUPBOOK; RT_EXTERNSHEET; RT_CONTINUE]).
  2:{ apply ht_rx; [hin|]. hgl. }
  2:{ cbn. intros K. repeat (destruct K as [K|K]; [discriminate|]). exact K. }
  rewrite (sst_skip_types [RT_MSODRAWINGGROUP; RT_CONTINUE]).
  2:{ apply ht_rx; [hin|]. destruct (noted_sheets _ _); hgl. }
  2:{ cbn. intros K. repeat (destruct K as [K|K]; [discriminate|]). exact K. }
  destruct (g_labels g) as [|x l] eqn:E; [reflexivity|]. rewrite <- E in *. cbn [flat_map]. rewrite app_nil_r.
  rewrite rx_fit by apply sst_recs_fit. apply sst_recs_read; [|rewrite zlen_map; exact L].
  apply Forall_map. exact U.
Qed.

Definition sst_types_all : list Z := [RT_SST; RT_CONTINUE].
Lemma pay_globals_cat g ps t : ~ In t sst_types_all ->
  payloads t (concat (ghead_in g) ++ bs_recs ps (names_of g) ++ concat (gtail_in g)) =
    pick RT_CODEPAGE t [le16 1200]
    ++ pick RT_WINDOW1 t [pl [OAdd16 (w1_horz (g_w1 g) * 20); OAdd16 (w1_vert (g_w1 g) * 20);
       OAdd16 (w1_width (g_w1 g) * 20); OAdd16 (w1_height (g_w1 g) * 20); OAdd16 56;
       OAdd16 (w1_active (g_w1 g)); OAdd16 (w1_first (g_w1 g)); OAdd16 1; OAdd16 (w1_tabwidth (g_w1 g))]]
    ++ pick RT_DATEMODE t [le16 0]
    ++ pick RT_FONT t (map (fun f => font_bytes (fo_val f)) (fs_dfonts (g_fs g) ++ fs_fonts (g_fs g)))
    ++ pick RT_FORMAT t (map format_bytes (indexed_formats (fs_formats (g_fs g)) 164))
    ++ pick RT_XF t (map (fun x => xbytes (xstate x)) (fs_dxfs (g_fs g) ++ fs_xfs (g_fs g)))
    ++ pick RT_STYLE t (map (fun s => le16 (Z.lor (st_xf s) 32768) ++ [byte_k 0 (st_builtin s)] ++ [byte_k 0 (st_level s)]) default_styles)
    ++ pick RT_PALETTE t [palette_bytes (g_palette g)]
    ++ pick RT_BOUNDSHEET t (map (fun pn => bs_payload (fst pn) (snd pn)) (combine ps (names_of g)))
    ++ pick RT_SUPBOOK t [le16 (zlen (g_bs g)) ++ [1; 4]]
    ++ pick RT_EXTERNSHEET t [le16 (Z.of_nat (length (g_bs g))) ++ flat_map ext_bytes (seq 0 (length (g_bs g)))]
    ++ pick RT_MSODRAWINGGROUP t (match noted_sheets (g_bs g) 0 with [] => [] | l => [group_bytes l] end).
Proof.
  intros N. unfold ghead_in, ghead_recs, gtail_in, bs_recs. cbn [tl app concat].
  rewrite !concat_app. cbn [concat app]. 
  assert (C : forall k p rs, payloads t ((k, p) :: rs) = pick k t [p] ++ payloads t rs).
  { intros. unfold payloads, pick. cbn [filter fst]. destruct (k =? t); reflexivity. }
  rewrite !C, !pay_app, !pay_map, !C, !pay_app. change (payloads t []) with (@nil (list Z)). rewrite !map_app. unfold pick. rewrite ?app_nil_r.
  rewrite <- !app_assoc.
  replace (payloads t (map (fun pn : Z * list Z => (RT_BOUNDSHEET, bs_payload (fst pn) (snd pn))) (combine ps (names_of g))))
    with (if RT_BOUNDSHEET =? t then map (fun pn => bs_payload (fst pn) (snd pn)) (combine ps (names_of g)) else []).
  2:{ induction (combine ps (names_of g)) as [|x l IH]; cbn [map]; [destruct (_ =? t); reflexivity|]. rewrite C, <- IH. unfold pick.
      destruct (RT_BOUNDSHEET =? t); reflexivity. }
  replace (payloads t (concat (match g_labels g with [] => [] | _ => [sst_recs (map snd (g_labels g))] end))) with (@nil (list Z)).
  2:{ symmetry. apply (pay_none sst_types_all); [|exact N]. apply ht_concat. destruct (g_labels g); constructor; [|constructor]. apply sst_types. hin. }
  replace (payloads t (concat (match noted_sheets (g_bs g) 0 with [] => [] | l => [[(RT_MSODRAWINGGROUP, group_bytes l)]] end)))
    with (if RT_MSODRAWINGGROUP =? t then match noted_sheets (g_bs g) 0 with [] => [] | l => [group_bytes l] end else []).
  2:{ destruct (noted_sheets (g_bs g) 0); cbn [concat app]; [destruct (_ =? t); reflexivity|]. rewrite C, app_nil_r. reflexivity. }
  rewrite ?app_nil_r. 
  destruct (RT_FONT =? t), (RT_XF =? t); cbn [app]; rewrite <- ?app_assoc; reflexivity.
Qed.
Lemma pay_globals g ps t : ~ In t sst_types_all -> flat_map rx (ghead_in g) = concat (ghead_in g) ->
  Forall (fun rs => rsz rs <= 8228 \/ rs = sst_recs (map snd (g_labels g))) (gtail_in g) ->
  payloads t (globals_body g ps) =
    pick RT_CODEPAGE t [le16 1200]
    ++ pick RT_WINDOW1 t [pl [OAdd16 (w1_horz (g_w1 g) * 20); OAdd16 (w1_vert (g_w1 g) * 20);
       OAdd16 (w1_width (g_w1 g) * 20); OAdd16 (w1_height (g_w1 g) * 20); OAdd16 56;
       OAdd16 (w1_active (g_w1 g)); OAdd16 (w1_first (g_w1 g)); OAdd16 1; OAdd16 (w1_tabwidth (g_w1 g))]]
    ++ pick RT_DATEMODE t [le16 0]
    ++ pick RT_FONT t (map (fun f => font_bytes (fo_val f)) (fs_dfonts (g_fs g) ++ fs_fonts (g_fs g)))
    ++ pick RT_FORMAT t (map format_bytes (indexed_formats (fs_formats (g_fs g)) 164))
    ++ pick RT_XF t (map (fun x => xbytes (xstate x)) (fs_dxfs (g_fs g) ++ fs_xfs (g_fs g)))
    ++ pick RT_STYLE t (map (fun s => le16 (Z.lor (st_xf s) 32768) ++ [byte_k 0 (st_builtin s)] ++ [byte_k 0 (st_level s)]) default_styles)
    ++ pick RT_PALETTE t [palette_bytes (g_palette g)]
    ++ pick RT_BOUNDSHEET t (map (fun pn => bs_payload (fst pn) (snd pn)) (combine ps (names_of g)))
    ++ pick RT_SUPBOOK t [le16 (zlen (g_bs g)) ++ [1; 4]]
    ++ pick RT_EXTERNSHEET t [le16 (Z.of_nat (length (g_bs g))) ++ flat_map ext_bytes (seq 0 (length (g_bs g)))]
    ++ pick RT_MSODRAWINGGROUP t (match noted_sheets (g_bs g) 0 with [] => [] | l => [group_bytes l] end).
Proof.
  intros N H T. unfold globals_body. rewrite H.
  assert (TT : flat_map rx (gtail_in g) = concat (gtail_in g)).
  { clear - T. induction T as [|rs rss K F IH]; [reflexivity|]. cbn [flat_map concat]. rewrite IH. f_equal.
    destruct K as [K| ->]; [apply rx_small; exact K|apply rx_fit; apply sst_recs_fit]. }
  rewrite TT. apply pay_globals_cat. exact N.
Qed.
