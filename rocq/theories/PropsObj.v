(** Hyperlinks and data validations of a saved document (C40). *)
From Coq Require Import ZArith List Bool Lia ZifyBool ZifyNat Sorted.
From Verif Require Import Bytes UnitModel SpecBuf BufProofs RecModel SheetModel XfModel WbModel XfInv ApiModel SpecBiff BookRecs ApiInv SpecApi ApiEff
  RecFrames RecProofs SheetProofs SheetTrace GlobTrace WbProofs SaveOk SaveRecs SaveRead SpecSaved SaveMeans DocLimits SavedView DemoDoc ViewPay PropsSheet RowBlocks PropsRows SpecObj.
Import ListNotations.
Local Open Scope Z_scope.

Lemma take_app a r n : length a = n -> take n (a ++ r) = Some (a, r).
Proof.
  intros <-. unfold take. rewrite app_length. replace (Nat.leb _ _) with true by lia.
  rewrite firstn_app, skipn_app, firstn_all, skipn_all, Nat.sub_diag, firstn_O, skipn_O, app_nil_r. reflexivity.
Qed.
Lemma take16 v r : u16 v -> take_num 2 (le16 v ++ r) = Some (v, r).
Proof. intro H. unfold take_num. rewrite take_app by reflexivity. rewrite le16_value, Z.mod_small by exact H. reflexivity. Qed.
Lemma take32 v r : u32 v -> take_num 4 (le32 v ++ r) = Some (v, r).
Proof. intro H. unfold take_num. rewrite take_app by reflexivity. rewrite le32_value, Z.mod_small by exact H. reflexivity. Qed.
Lemma same_refl l : same l l = true.
Proof. induction l as [|x l IH]; [reflexivity|]. cbn [same]. rewrite Z.eqb_refl. exact IH. Qed.
Lemma flat_digits s : flat_map le16 s = flat_map (digits 2) s.
Proof. apply flat_map_ext. intro. symmetry. apply digits2. Qed.
Lemma zstring s r : Forall u16 s -> take_zstring (Z.to_nat (zlen s + 1)) (flat_map le16 s ++ le16 0 ++ r) = Some (s, r).
Proof.
  intro F. unfold take_zstring. replace (flat_map le16 s ++ le16 0 ++ r) with (flat_map le16 (s ++ [0]) ++ r).
  2:{ rewrite flat_map_app, <- app_assoc. reflexivity. }
  replace (Z.to_nat (zlen s + 1)) with (length (s ++ [0])) by (rewrite app_length; unfold zlen; cbn [length]; lia).
  rewrite flat_digits, take_wide.
  - rewrite rev_app_distr. cbn [rev app]. rewrite rev_involutive. reflexivity.
  - apply Forall_app. split; [exact F|]. constructor; [lia|constructor].
Qed.

Definition link_as (h : hlink) : rlink := mkRLink (hl_row h, hl_row h, hl_col h, hl_col h) (hl_url h) (match hl_mark h with [] => None | m => Some m end).
Lemma link_read h : u16 (hl_row h) -> u16 (hl_col h) -> Forall u16 (hl_url h) -> Forall u16 (hl_mark h) -> zlen (hl_url h) + zlen (hl_mark h) <= 400000000 ->
  read_hlink (hlink_bytes h) = Some (link_as h).
Proof.
  intros Hr Hc Hu Hm Hl. pose proof (zlen_nonneg _ (hl_url h)). pose proof (zlen_nonneg _ (hl_mark h)). unfold hlink_bytes, link_as. cbv zeta.
  unfold read_hlink. rewrite 2 take16 by exact Hr. rewrite 2 take16 by exact Hc. rewrite (take_app std_link_guid) by reflexivity.
  assert (W : forall v r, 0 <= v <= 1000000000 -> take_num 4 (le32 v ++ r) = Some (v, r)) by (intros; apply take32; unfold u32; lia).
  rewrite W by lia. rewrite (W (if negb (zlen (hl_mark h) =? 0) then 11 else 3)) by (destruct (negb _); lia). rewrite (take_app url_moniker_guid) by reflexivity.
  rewrite W by lia. change (same std_link_guid GUID_HLINK) with true. change (same url_moniker_guid GUID_URL) with true. change (2 =? 2) with true.
  replace (Z.testbit (if negb (zlen (hl_mark h) =? 0) then 11 else 3) 0) with true by (destruct (negb _); reflexivity).
  replace (Z.testbit (if negb (zlen (hl_mark h) =? 0) then 11 else 3) 1) with true by (destruct (negb _); reflexivity).
  replace (Z.even ((zlen (hl_url h) + 1) * 2)) with true by (rewrite Z.even_mul; cbn; rewrite orb_true_r; reflexivity). cbn [andb negb].
  rewrite Z.div_mul by lia. rewrite zstring by exact Hu. destruct (hl_mark h) as [|m ms] eqn:Em; [reflexivity|].
  replace (zlen (m :: ms) =? 0) with false by (unfold zlen; cbn [length]; lia). cbn [negb]. change (Z.testbit 11 3) with true. cbv iota.
  rewrite W by lia. rewrite <- (app_nil_r (le16 0)). rewrite zstring by exact Hm. reflexivity.
Qed.

(** What a saved hyperlink should say for hyperLink(cell at (r, c), url, mark). *)
Definition link_says (x : Z * Z * text * text) (l : rlink) : Prop :=
  let '(r, c, url, mark) := x in
  (0 <= r < 65536 -> 0 <= c < 65536 -> rk_area l = (r, r, c, c))
  /\ (forall u, units url = Some u -> rk_url l = u)
  /\ (units mark = Some [] -> rk_mark l = None)
  /\ (forall u, units mark = Some u -> u <> [] -> rk_mark l = Some u).
(** The hyperlinks saved are those set through the interface, in order, one record each, with
    the position of the cell, the address and the text mark. *)
Theorem C40_hyperlinks R moves calls stream k body : saved_ok R moves calls stream -> sheet_in stream k body ->
  exists links, traverse read_hlink (payloads T_HLINK body) = Some links /\ Forall2 link_says (links_of k calls) links.
Proof.
  intros H Hk. destruct (saved_view _ _ _ _ H) as [w V].
  destruct (view_pay _ _ _ _ V k body T_HLINK Hk) as (s & p & Es & _ & Is & Me & Pay); [discriminate|].
  rewrite pay_inner_flat in Pay by not_in. picks Pay. cbn [app] in Pay. rewrite app_nil_r in Pay.
  pose proof (so_typed _ _ _ _ H) as Ty. pose proof (ft_calls _ _ (so_fits _ _ _ _ H)) as Fi.
  assert (L : forall r c u m, In (r, c, u, m) (links_of k calls) -> text_typed u /\ text_typed m /\ text_len u + text_len m <= 4000).
  { intros r c u m J. apply in_flat_map in J. destruct J as (q & Jq & J). rewrite Forall_forall in Ty, Fi. specialize (Ty q Jq). specialize (Fi q Jq).
    destruct q; cbn [links_step] in J; try exact (False_ind _ J). destruct (Nat.eqb k k0); [|destruct J]. destruct J as [J|[]].
    apply pair_equal_spec in J. destruct J as [J J4]. apply pair_equal_spec in J. destruct J as [J J3]. subst url mark. cbn [typed call_fits] in Ty, Fi. tauto. }
  assert (Lm : forall h, In h (sh_links s) -> u16 (hl_row h) /\ u16 (hl_col h) /\ Forall u16 (hl_url h) /\ Forall u16 (hl_mark h) /\ zlen (hl_url h) + zlen (hl_mark h) <= 4000).
  { intros h J. rewrite (me_links _ _ _ Me) in J. apply in_map_iff in J. destruct J as ([[[r c] u] m] & <- & J). destruct (L _ _ _ _ J) as (Tu & Tm & Ln).
    cbn [lnk hl_row hl_col hl_url hl_mark]. unfold u16. split; [lia|]. split; [lia|]. split; [apply to16_typed; exact Tu|]. split; [apply to16_typed; exact Tm|].
    rewrite !to16_len. exact Ln. }
  exists (map link_as (sh_links s)). rewrite Pay.
  - split.
    + apply traverse_map. intros h J. destruct (Lm h J) as (A & B & C & D & E). apply link_read; (assumption||lia).
    + rewrite (me_links _ _ _ Me), map_map. clear - L. induction (links_of k calls) as [|[[[r c] u] m] l IH]; constructor.
      * destruct (L r c u m (or_introl eq_refl)) as (Tu & Tm & _). cbn [link_says lnk link_as rk_area rk_url rk_mark hl_row hl_col hl_url hl_mark].
        split; [intros; rewrite !Z.mod_small by lia; reflexivity|]. split; [intros; apply to16_units; assumption|].
        split; [intro E; rewrite (to16_units _ _ Tm E); reflexivity|]. intros v E N. rewrite (to16_units _ _ Tm E). destruct v; [congruence|reflexivity].
      * apply IH. intros. apply (L r0 c0 u0 m0). right. assumption.
  - apply Forall_map, Forall_forall. intros h J. destruct (Lm h J) as (_ & _ & _ & _ & E). unfold hlink_bytes. cbv zeta. rewrite !zlen_app, !zlen_le16, !zlen_le32.
    rewrite (flat_len le16 2) by (intro; apply zlen_le16). pose proof (zlen_nonneg _ (hl_url h)). pose proof (zlen_nonneg _ (hl_mark h)). destruct (negb _).
    + rewrite !zlen_app, zlen_le32, zlen_le16. rewrite (flat_len le16 2) by (intro; apply zlen_le16). change (zlen std_link_guid) with 16. change (zlen url_moniker_guid) with 16. lia.
    + rewrite zlen_nil. change (zlen std_link_guid) with 16. change (zlen url_moniker_guid) with 16. lia.
Qed.
Print Assumptions C40_hyperlinks.
Example C40_links_case : links_of 0 demo = [(0, 0, TChar [104; 58], TChar [109])]
  /\ link_says (0, 0, TChar [104; 58], TChar [109]) (mkRLink (0, 0, 0, 0) [104; 58] (Some [109])).
Proof. split; [reflexivity|]. cbn. repeat split; try (intros; congruence). Qed.

(* ------------------------------------------------------------------ *)
(** * Data validations *)

(** What a saved validation should say: the flags, the four texts, the two conditions (the
    integer 0 for an absent one: token 0x1E) and the one area. *)
Definition cond_toks (c : option (list Z)) : list Z := match c with Some t => t | None => [30; 0; 0] end.
Definition dv_as (d : dvalid) : rdv :=
  mkRDV (dv_options d) (dv_ptitle d) (dv_etitle d) (dv_ptext d) (dv_etext d) (cond_toks (dv_cond1 d)) (cond_toks (dv_cond2 d))
        [(rg_fr (dv_range d), rg_lr (dv_range d), rg_fc (dv_range d), rg_lc (dv_range d))].
Lemma str2_read s r : Forall u16 s -> zlen s <= 65535 -> read_string 2 (ustr_bytes s LEN2 ++ r) = Some (s, r).
Proof. intros F L. rewrite ustr_spec by exact F. apply read_spec_string; auto. Qed.
Lemma cond_read c r : (forall t, c = Some t -> Forall u8 t) -> len_opt c <= 65535 -> take_formula (cond_bytes c ++ r) = Some (cond_toks c, r).
Proof.
  intros T L. unfold cond_bytes, pl. destruct c as [t|]; cbn [dv_cond RecProofs.appended RecProofs.op_bytes cond_toks len_opt] in *.
  - rewrite app_nil_r. unfold take_formula. pose proof (zlen_nonneg _ t). rewrite <- !app_assoc, take16 by (unfold u16; lia). rewrite take_app by reflexivity.
    rewrite map_byte_id by (apply T; reflexivity). apply take_app. unfold zlen. lia.
  - reflexivity.
Qed.
Definition dv_storable (d : dvalid) : Prop :=
  zlen (dv_ptitle d) <= 65535 /\ zlen (dv_ptext d) <= 65535 /\ zlen (dv_etitle d) <= 65535 /\ zlen (dv_etext d) <= 65535
  /\ len_opt (dv_cond1 d) <= 65535 /\ len_opt (dv_cond2 d) <= 65535.
Lemma dv_fits_storable d : dv_fits d -> dv_storable d.
Proof.
  unfold dv_fits, dv_storable. intro L.
  pose proof (zlen_nonneg _ (dv_ptitle d)). pose proof (zlen_nonneg _ (dv_ptext d)). pose proof (zlen_nonneg _ (dv_etitle d)). pose proof (zlen_nonneg _ (dv_etext d)).
  assert (P : forall c, 0 <= len_opt c) by (intros [t|]; cbn [len_opt]; [apply zlen_nonneg|lia]). pose proof (P (dv_cond1 d)). pose proof (P (dv_cond2 d)). lia.
Qed.
Lemma dv_read d : dv_typed d -> dv_storable d -> read_dv (dv_bytes d) = Some (dv_as d).
Proof.
  unfold dv_typed, dv_storable. intros (A & B & C & D & O & T1 & T2 & U1 & U2 & U3 & U4) (L1 & L2 & L3 & L4 & L5 & L6).
  unfold dv_bytes, read_dv. rewrite take32 by exact O. rewrite !str2_read by (auto; lia). rewrite !cond_read by (auto; lia). rewrite take16 by (unfold u16; lia).
  change (Z.to_nat 1) with 1%nat. unfold range_bytes. cbn [take_areas]. rewrite 3 take16 by assumption. rewrite <- (app_nil_r (le16 (rg_lc _))), take16 by assumption. reflexivity.
Qed.
(** The validations saved are those requested, in order and intact, and the header record
    announces how many there are (it is absent when there are none). *)
Theorem C40_validations R moves calls stream k body : saved_ok R moves calls stream -> sheet_in stream k body -> zlen (dvs_of k calls) < 4294967296 ->
  traverse read_dv (payloads T_DV body) = Some (map dv_as (dvs_of k calls))
  /\ traverse read_dval (payloads T_DVAL body) = Some (if zlen (dvs_of k calls) =? 0 then [] else [zlen (dvs_of k calls)]).
Proof.
  intros H Hk Hn. destruct (saved_view _ _ _ _ H) as [w V]. 
  pose proof (so_typed _ _ _ _ H) as Ty. pose proof (ft_calls _ _ (so_fits _ _ _ _ H)) as Fi.
  assert (L : forall d, In d (dvs_of k calls) -> dv_typed d /\ dv_fits d).
  { intros d J. apply in_flat_map in J. destruct J as (q & Jq & J). rewrite Forall_forall in Ty, Fi. specialize (Ty q Jq). specialize (Fi q Jq).
    destruct q; cbn [dvs_step] in J; try exact (False_ind _ J). destruct (Nat.eqb k k0); [|destruct J]. destruct J as [J|[]]. subst d0. auto. }
  split.
  - destruct (view_pay _ _ _ _ V k body T_DV Hk) as (s & p & Es & _ & Is & Me & Pay); [discriminate|].
    rewrite pay_inner_flat in Pay by not_in. picks Pay. cbn [app] in Pay. rewrite (me_dvs _ _ _ Me) in Pay. rewrite Pay.
    + apply traverse_map. intros d J. destruct (L d J). apply dv_read; [assumption|apply dv_fits_storable; assumption].
    + apply Forall_map, Forall_forall. intros d J. destruct (L d J) as [_ F]. pose proof (dv_size d) as Sz. unfold dv_fits in F. unfold dv_room in Sz. lia.
  - destruct (view_pay _ _ _ _ V k body T_DVAL Hk) as (s & p & Es & _ & Is & Me & Pay); [discriminate|].
    rewrite pay_inner_flat in Pay by not_in. picks Pay. cbn [app] in Pay. rewrite (me_dvs _ _ _ Me), app_nil_r in Pay. destruct (dvs_of k calls) as [|d l] eqn:E.
    + rewrite Pay by constructor. reflexivity.
    + rewrite Pay by (constructor; [unfold dval_bytes; rewrite !zlen_app, zlen_le16, !zlen_le32; lia|constructor]).
      replace (zlen (d :: l) =? 0) with false by (unfold zlen; cbn [length]; lia). cbn [traverse].
      replace (read_dval (dval_bytes (zlen (d :: l)))) with (Some (zlen (d :: l))); [reflexivity|]. unfold read_dval, dval_bytes.
      rewrite !zlen_app, zlen_le16, !zlen_le32. change (2 + (4 + (4 + (4 + 4))) =? 18) with true. cbv iota. symmetry.
      rewrite <- (app_nil_r (le32 (zlen (d :: l)))), !app_assoc. rewrite <- app_assoc.
      rewrite fld32 by reflexivity. rewrite Z.mod_small by (pose proof (zlen_nonneg _ (d :: l)); lia). reflexivity.
Qed.
Print Assumptions C40_validations.
Definition ruled : list call :=
  [KSheet (TChar [65]); KCell 0 0 0 (UInt 1) None;
   KValidate 0 (mkDV (mkRange 0 9 0 2) 257 (Some [30; 7; 0]) None [80] [81; 1041] [82] []);
   KValidate 0 (mkDV (mkRange 3 3 1 1) 3 None (Some [30; 1; 0]) [] [] [] [83; 84])].
Lemma ruled_typed : Forall typed ruled.
Proof.
  unfold ruled. repeat (apply Forall_cons; [cbn [typed text_typed val_typed]; unfold dv_typed, u8, u16, u32; cbn;
    repeat split; try lia; try (repeat constructor; lia); try (intros t E; try discriminate E; injection E as <-; repeat constructor; lia)|]). apply Forall_nil.
Qed.
Lemma ruled_fits : fits 40 ruled.
Proof.
  unfold ruled. small_fits. intro k. exists []. split; [cbn; lia|]. intros r H.
  match type of H with height_of k ?l r <> None => destruct (height_of k l r) as [[h p]|] eqn:E end; [|congruence]. apply heights_from in E. cbn [In] in E. each E.
Qed.
Example C40_validations_case : exists stream body, saved_ok 40 (fun _ _ => false) ruled stream /\ sheet_in stream 0 body /\ zlen (dvs_of 0 ruled) = 2.
Proof.
  destruct (stream_of 400 ruled) as [s|] eqn:E.
  2:{ assert (K : match stream_of 400 ruled with Some _ => true | None => false end = true) by (vm_compute; reflexivity). rewrite E in K. discriminate K. }
  pose proof (small_saved _ _ _ ruled_typed ruled_fits E) as H. destruct (saved_view _ _ _ _ H) as [w V].
  destruct (proj1 (view_has_sheet _ _ _ _ V 0%nat)) as [body Hb]; [cbn; lia|]. exists s, body. split; [exact H|]. split; [exact Hb|reflexivity].
Qed.
