(** The records of a saved stream, substream by substream and type by type. *)
From Coq Require Import ZArith List Bool Lia ZifyBool ZifyNat Sorting.Sorted Sorting.Permutation.
From Verif Require Import Bytes UnitModel SpecBuf BufProofs UnitProofs RecModel SheetModel XfModel WbModel
  RecProofs RecFrames XfProofs SheetProofs SheetTrace GlobTrace WbProofs SpecBiff BookRecs XfInv ApiModel ApiInv
  SpecApi ApiEff SaveOk.
Import ListNotations.
Local Open Scope Z_scope.

(* ------------------------------------------------------------------ *)
(** * BOF, body, EOF *)

Definition has_types (ts : list Z) (rs : list brec) : Prop := Forall (fun r => In (fst r) ts) rs.
Lemma ht_app ts a b : has_types ts a -> has_types ts b -> has_types ts (a ++ b).
Proof. intros. apply Forall_app. auto. Qed.
Lemma ht_concat ts l : Forall (has_types ts) l -> has_types ts (concat l).
Proof. induction 1; cbn [concat]; [constructor|]. apply ht_app; assumption. Qed.
Lemma ht_rx ts rss : In RT_CONTINUE ts -> Forall (has_types ts) rss -> has_types ts (flat_map rx rss).
Proof.
  intros C H. induction H as [|rs rss K F IH]; cbn [flat_map]; [constructor|]. apply ht_app; [|exact IH].
  unfold rx. destruct rs as [|[t p] [|? ?]]; auto. destruct (8224 <? zlen p); auto.
  constructor; [inversion K; assumption|]. unfold conts. apply Forall_map. apply Forall_forall. intros x _. exact C.
Qed.

Definition sheet_types : list Z :=
  [RT_INDEX; RT_DEFAULTROWHEIGHT; RT_COLINFO; RT_DEFCOLWIDTH; RT_DIMENSIONS; RT_ROW; RT_BLANK; RT_BOOLERR; RT_RK; RT_NUMBER;
   RT_LABEL; RT_LABELSST; RT_FORMULA; RT_ARRAY; RT_STRING; RT_DBCELL; RT_MSODRAWING; RT_OBJ; RT_TXO; RT_CONTINUE; RT_NOTE;
   RT_MERGEDCELLS; RT_WINDOW2; RT_PANE; RT_HLINK; RT_DVAL; RT_DV].
Definition globals_types : list Z :=
  [RT_CODEPAGE; RT_WINDOW1; RT_DATEMODE; RT_FONT; RT_FORMAT; RT_XF; RT_STYLE; RT_PALETTE; RT_BOUNDSHEET; RT_SUPBOOK; RT_EXTERNSHEET;
   RT_MSODRAWINGGROUP; RT_SST; RT_CONTINUE].

Definition head_in (pos : Z) (s : sheet) : list (list brec) :=
  [[(RT_INDEX, index_bytes pos s)];
   [(RT_DEFAULTROWHEIGHT, le16 (if sh_defrh s =? 15 then 0 else 1) ++ le16 (sh_defrh s * 20))]]
  ++ map (fun c => [(RT_COLINFO, colinfo_bytes c)]) (sh_cols s)
  ++ [[(RT_DEFCOLWIDTH, le16 (sh_defcw s))]; [(RT_DIMENSIONS, dim_bytes s)]].
Definition tail_in (ac : Z) (s : sheet) : list (list brec) :=
  drawings_recs (sh_notes s) (sh_index s) (zlen (sh_notes s) mod 65536) 0 (sh_spid s)
  ++ map (fun n => [(RT_NOTE, note_bytes n)]) (number_notes (sh_notes s) 0)
  ++ map (fun rs => [(RT_MERGEDCELLS, merged_bytes rs)]) (chunks (sh_merged s))
  ++ [[(RT_WINDOW2, window2_bytes (sh_index s =? ac))]]
  ++ (if ((sh_rsplit s =? 0) && (sh_csplit s =? 0))%bool then []
      else [[(RT_PANE, pane_bytes (sh_rsplit s) (sh_csplit s))]])
  ++ map (fun h => [(RT_HLINK, hlink_bytes h)]) (sh_links s)
  ++ match sh_dvs s with
     | [] => []
     | dvs => [(RT_DVAL, dval_bytes (zlen dvs))] :: map (fun v => [(RT_DV, dv_bytes v)]) dvs
     end.
(** What lies between BOF and EOF; [pos]: position of the sheet. *)
Definition inner (ls : labels) (ac pos : Z) (s : sheet) : list (list brec) :=
  head_in (pos + 20) s ++ body_recs ls s ++ tail_in ac s.
Lemma sheet_recs_inner ls ac pos s :
  sheet_recs ls ac pos s = [[(RT_BOF, bof_bytes 16)]] ++ inner ls ac pos s ++ [[(RT_EOF, [])]].
Proof.
  unfold sheet_recs, inner, head_recs, head_in, tail_recs, tail_in. rewrite <- !app_assoc. cbn [app]. reflexivity.
Qed.
Ltac hin := cbn; tauto.
Ltac hone := apply Forall_cons; [hin|apply Forall_nil].
Lemma cell_types ls c : has_types [RT_BLANK; RT_BOOLERR; RT_RK; RT_NUMBER; RT_LABEL; RT_LABELSST; RT_FORMULA; RT_ARRAY; RT_STRING] (cell_recs ls c).
Proof.
  unfold cell_recs. destruct (c_val c); try hone. { destruct (in_sst s); hone. }
  unfold fml_recs. apply ht_app; [destruct arr|destruct (fe_str est)]; repeat apply Forall_cons; try apply Forall_nil; hin.
Qed.
Lemma ht_weaken a b rs : (forall t, In t a -> In t b) -> has_types a rs -> has_types b rs.
Proof. intros H. apply Forall_impl. intros r. apply H. Qed.
Lemma drawings_types ns : forall sheet count i spid, Forall (has_types [RT_MSODRAWING; RT_OBJ; RT_TXO; RT_CONTINUE]) (drawings_recs ns sheet count i spid).
Proof.
  induction ns as [|n ns IH]; intros; cbn [drawings_recs]; constructor; auto.
  unfold drawing_recs. repeat apply Forall_cons; try apply Forall_nil; hin.
Qed.
Ltac hgl := repeat (apply Forall_cons; [hone|]); try apply Forall_nil.
Ltac hm := apply Forall_map; apply Forall_forall; intros ? _; hone.
Lemma inner_types ls ac pos s : Forall (has_types sheet_types) (inner ls ac pos s).
Proof.
  unfold inner. apply Forall_app. split; [|apply Forall_app; split].
  - unfold head_in. repeat (apply Forall_app; split); try hm; hgl.
  - unfold body_recs. destruct (sheet_blocks s) as [bl|]; [|constructor]. apply Forall_flat_map. apply Forall_forall. intros b _.
    unfold block_recs. repeat (apply Forall_app; split); try hm.
    + apply Forall_map. apply Forall_forall. intros c _. eapply ht_weaken; [|apply cell_types]. intros t H. cbn in *. tauto.
    + hgl.
  - unfold tail_in. repeat (apply Forall_app; split); try hm.
    + eapply Forall_impl; [|apply drawings_types]. intros rs. apply ht_weaken. intros t H. cbn in *. tauto.
    + hgl.
    + destruct (_ && _)%bool; hgl.
    + destruct (sh_dvs s); [constructor|]. constructor; [hone|]. hm.
Qed.

Definition ghead_in (g : globals) : list (list brec) := tl (ghead_recs g).
Definition gtail_in (g : globals) : list (list brec) :=
  [[(RT_SUPBOOK, le16 (zlen (g_bs g)) ++ [1; 4])];
   [(RT_EXTERNSHEET, le16 (Z.of_nat (length (g_bs g))) ++ flat_map ext_bytes (seq 0 (length (g_bs g))))]]
  ++ match noted_sheets (g_bs g) 0 with [] => [] | l => [[(RT_MSODRAWINGGROUP, group_bytes l)]] end
  ++ match g_labels g with [] => [] | _ => [sst_recs (map snd (g_labels g))] end.
Lemma sst_types ls : forall t p, In t [RT_SST; RT_CONTINUE] -> has_types [RT_SST; RT_CONTINUE] (sst_frames t p ls).
Proof.
  induction ls as [|s ls IH]; intros t p H; cbn [sst_frames]; [constructor; [exact H|constructor]|].
  destruct (_ <? _); [constructor; [exact H|]; apply IH; hin|apply IH; exact H].
Qed.
Lemma ghead_types g : Forall (has_types globals_types) (ghead_in g).
Proof.
  unfold ghead_in, ghead_recs. cbn [tl app]. repeat (apply Forall_cons; [hone|]).
  repeat (apply Forall_app; split); try hm. hgl.
Qed.
Lemma gtail_types g : Forall (has_types globals_types) (gtail_in g).
Proof.
  unfold gtail_in. repeat (apply Forall_app; split).
  - hgl.
  - destruct (noted_sheets _ _); hgl.
  - destruct (g_labels g); [constructor|]. apply Forall_cons; [|apply Forall_nil].
    eapply ht_weaken; [|apply sst_types; hin]. intros t H. cbn in *. tauto.
Qed.
(** The globals between BOF and EOF. *)
Definition globals_body (g : globals) (ps : list Z) : list brec :=
  flat_map rx (ghead_in g) ++ bs_recs ps (names_of g) ++ flat_map rx (gtail_in g).
Lemma globals_shape g ps : globals_recs g ps = (RT_BOF, bof_bytes 5) :: globals_body g ps ++ [(RT_EOF, [])].
Proof.
  unfold globals_recs, globals_body.
  replace (ghead_recs g) with ([(RT_BOF, bof_bytes 5)] :: ghead_in g) by reflexivity.
  replace (gtail_recs g) with (gtail_in g ++ [[(RT_EOF, [])]]) by (unfold gtail_in, gtail_recs; rewrite <- !app_assoc; reflexivity).
  rewrite flat_map_app. cbn [flat_map]. rewrite <- !app_assoc. reflexivity.
Qed.
Lemma bs_types ps names : has_types globals_types (bs_recs ps names).
Proof. unfold bs_recs. apply Forall_map. apply Forall_forall. intros x _. hin. Qed.
Lemma globals_body_types g ps : has_types globals_types (globals_body g ps).
Proof.
  unfold globals_body. apply ht_app; [|apply ht_app].
  - apply ht_rx; [hin|apply ghead_types].
  - apply bs_types.
  - apply ht_rx; [hin|apply gtail_types].
Qed.

(** The bodies of the sheets, in order. *)
Fixpoint bodies (g : globals) (ac pos : Z) (ss : list sheet) : list (list brec) :=
  match ss with
  | [] => []
  | s :: t => flat_map rx (inner (g_labels g) ac pos s)
              :: bodies g ac (pos + adv_all sadv (sheet_units (g_labels g) ac pos s)) t
  end.
Definition wrap (k : Z) (body : list brec) : list brec := (RT_BOF, bof_bytes k) :: body ++ [(RT_EOF, [])].
Lemma sheets_recs_bodies g ac : forall ss pos, sheets_recs g ac pos ss = map (wrap 16) (bodies g ac pos ss).
Proof.
  induction ss as [|s t IH]; intro pos; [reflexivity|]. cbn [sheets_recs bodies map]. cbv zeta. rewrite IH. f_equal.
  rewrite sheet_recs_inner, !flat_map_app. cbn [flat_map app]. unfold wrap. rewrite app_nil_r.
  change (rx [(RT_BOF, bof_bytes 16)]) with [(RT_BOF, bof_bytes 16)]. reflexivity.
Qed.
Lemma bodies_len g ac : forall ss pos, length (bodies g ac pos ss) = length ss.
Proof. induction ss; intros; cbn [bodies length]; auto. Qed.
Lemma bodies_types g ac : forall ss pos, Forall (has_types sheet_types) (bodies g ac pos ss).
Proof. induction ss; intros; cbn [bodies]; constructor; auto. apply ht_rx; [hin|apply inner_types]. Qed.

Lemma until_eof_ok body rest : Forall (fun r : brec => fst r <> T_EOF /\ fst r <> T_BOF) body ->
  until_eof (body ++ (T_EOF, []) :: rest) = Some (body, rest).
Proof.
  induction 1 as [|[t p] body (A & B) F IH]; cbn [until_eof app].
  - rewrite Z.eqb_refl. reflexivity.
  - cbn [fst] in A, B. destruct (t =? T_EOF) eqn:E; [lia|]. destruct (t =? T_BOF) eqn:E2; [lia|]. rewrite IH. reflexivity.
Qed.
Lemma types_inner ts body : Forall (fun t => t <> T_EOF /\ t <> T_BOF) ts -> has_types ts body -> Forall (fun r : brec => fst r <> T_EOF /\ fst r <> T_BOF) body.
Proof. intros H. apply Forall_impl. intros r I. rewrite Forall_forall in H. auto. Qed.
Lemma sheet_types_in body : has_types sheet_types body -> Forall (fun r : brec => fst r <> T_EOF /\ fst r <> T_BOF) body.
Proof. apply types_inner. repeat apply Forall_cons; try apply Forall_nil; split; discriminate. Qed.
Lemma globals_types_in body : has_types globals_types body -> Forall (fun r : brec => fst r <> T_EOF /\ fst r <> T_BOF) body.
Proof. apply types_inner. repeat apply Forall_cons; try apply Forall_nil; split; discriminate. Qed.
Lemma biff8_bof k : biff8 (bof_bytes k) = true.
Proof. reflexivity. Qed.
Lemma substreams_wrap f k body rest l : 0 <= k < 65536 ->
  Forall (fun r : brec => fst r <> T_EOF /\ fst r <> T_BOF) body ->
  substreams f rest = Some l -> substreams (S f) (wrap k body ++ rest) = Some ((k, body) :: l).
Proof.
  intros Hk F H. unfold wrap. cbn [app substreams]. change (RT_BOF =? T_BOF) with true. rewrite biff8_bof. cbn [andb].
  rewrite <- app_assoc. cbn [app]. change RT_EOF with T_EOF. rewrite until_eof_ok by exact F. rewrite H. do 3 f_equal.
  unfold bof_bytes, le16. cbn [app skipn firstn]. apply le_value2. exact Hk.
Qed.
Lemma substreams_more : forall f h rs l, substreams f rs = Some l -> (f <= h)%nat -> substreams h rs = Some l.
Proof.
  induction f; intros h rs l H L.
  - destruct rs; [|discriminate]. destruct h; exact H.
  - destruct rs as [|[t p] rest]. { destruct h; exact H. } destruct h; [lia|]. cbn [substreams] in *.
    destruct ((t =? T_BOF) && biff8 p)%bool; [|discriminate]. destruct (until_eof rest) as [[b r]|]; [|discriminate].
    destruct (substreams f r) as [q|] eqn:E; [|discriminate]. rewrite (IHf h r q E) by lia. exact H.
Qed.
Lemma substreams_all bs : Forall (has_types sheet_types) bs ->
  substreams (length (concat (map (wrap 16) bs))) (concat (map (wrap 16) bs)) = Some (map (fun b => (16, b)) bs).
Proof.
  induction 1 as [|b bs K F IH]; [reflexivity|]. cbn [map concat]. 
  eapply substreams_more; [apply substreams_wrap; [lia|apply sheet_types_in; exact K|exact IH]|].
  rewrite app_length. unfold wrap. cbn [length]. lia.
Qed.
Theorem book_substreams g ac ss :
  let rs := book_records g ac ss in
  substreams (length rs) rs =
  Some ((K_GLOBALS, globals_body g (sheet_starts g ac (g_size g) ss)) :: map (fun b => (K_SHEET, b)) (bodies g ac (g_size g) ss)).
Proof.
  cbv zeta. unfold book_records. rewrite globals_shape, sheets_recs_bodies. fold (wrap 5 (globals_body g (sheet_starts g ac (g_size g) ss))).
  eapply substreams_more.
  - apply substreams_wrap; [unfold K_GLOBALS; lia|apply globals_types_in; apply globals_body_types|apply substreams_all; apply bodies_types].
  - rewrite app_length. unfold wrap at 2. cbn [length]. lia.
Qed.

(* ------------------------------------------------------------------ *)
(** * Nothing to continue *)

Definition fit1 (rs : list brec) : Prop := Forall rec_fits rs.
Lemma rx_small rs : rsz rs <= 8228 -> rx rs = rs.
Proof.
  intro H. unfold rx. destruct rs as [|[t p] [|? ?]]; auto. rewrite rsz_one in H. destruct (8224 <? zlen p) eqn:E; [lia|reflexivity].
Qed.
Lemma rx_all rss : Forall (fun rs => rsz rs <= 8228) rss -> flat_map rx rss = concat rss.
Proof. induction 1 as [|rs rss K F IH]; cbn [flat_map concat]; [reflexivity|]. rewrite rx_small, IH by exact K. reflexivity. Qed.
Lemma rx_fit rs : Forall rec_fits rs -> rx rs = rs.
Proof.
  intro H. unfold rx. destruct rs as [|[t p] [|? ?]]; auto. inversion H; subst. destruct H2 as [_ H2]. cbn [snd] in H2.
  destruct (8224 <? zlen p) eqn:E; [lia|reflexivity].
Qed.

(* ------------------------------------------------------------------ *)
(** * Positions *)

Lemma rsz_app a b : rsz (a ++ b) = rsz a + rsz b.
Proof. unfold rsz. rewrite frame_all_app, zlen_app. reflexivity. Qed.
Lemma total_recs us rss : Forall2 uok us rss -> total us = rsz (concat rss).
Proof.
  induction 1 as [|u rs us rss K F IH]; [reflexivity|]. cbn [total fold_right concat]. fold (total us). 
  rewrite rsz_app, <- IH, (unit_size _ _ K). reflexivity.
Qed.
Lemma adv_total us : Forall (small_unit 8228) us -> adv_all sadv us = total us.
Proof.
  induction 1 as [|u us K F IH]; [reflexivity|]. unfold adv_all, total in *. cbn [fold_right]. rewrite IH. f_equal.
  unfold sadv. replace (oversized u) with false; [reflexivity|]. unfold oversized. destruct K as [K|[K _]]; [lia|rewrite K; reflexivity].
Qed.
Lemma bs_total names : forall ps, length ps = length names -> total (map (fun n => bs_unit 0 n) names) = rsz (bs_recs ps names).
Proof.
  induction names as [|n names IH]; intros [|p ps] L; try discriminate; [reflexivity|]. injection L as L.
  cbn [map total fold_right]. fold (total (map (fun n => bs_unit 0 n) names)). rewrite (IH _ L).
  unfold bs_recs. cbn [combine map fst snd]. rewrite rsz_cons.
  replace (bu_size (bs_unit 0 n)) with (4 + zlen (bs_payload p n)); [reflexivity|].
  unfold bs_unit, rec_bsheet. erewrite ubuild_eq; [|apply build_rec; unfold app_only; cbn; discriminate].
  unfold bu_size. cbn [bu_bytes]. rewrite frame_length. unfold bs_payload, pl. cbn [appended op_bytes]. szs. lia.
Qed.

Lemma some_inj {A} (a b : A) : Some a = Some b -> a = b.
Proof. intro H. exact (f_equal (fun o => match o with Some x => x | None => a end) H). Qed.
Section Small.
Variable w : wb.
Hypothesis I2 : winv2 w.
Hypothesis L : limits 8228 w.
Let g := bk_g (wb_book w).
Let ac := bactive (wb_book w).
Let ss := wb_sheets w.
Let ls := wb_labels w.
Let starts := sheet_starts g ac (g_size g) ss.

Let S5 := sheets_limits 8228 (li_B _ _ L) w I2 L.
Let Small := proj2 (proj2 (limits_ok 8228 (li_B _ _ L) w I2 L)).
Let Book := proj1 (limits_ok 8228 (li_B _ _ L) w I2 L).

Lemma starts_len : forall ss pos, length (sheet_starts g ac pos ss) = length ss.
Proof. induction ss0; intros; cbn [sheet_starts length]; auto. Qed.
Lemma tail_fits : rsz (sst_recs (map snd (wb_labels w))) < 4294967000.
Proof. pose proof (sst_total_ok 8228 w L). lia. Qed.
Lemma g_size_real : g_size g = rsz (globals_recs g starts).
Proof.
  unfold g_size, globals_recs. rewrite !rsz_app.
  rewrite (total_recs _ _ (ghead_uok g)), (total_recs _ _ (gtail_uok g tail_fits)).
  rewrite (bs_total (names_of g) starts).
  2:{ unfold starts. rewrite starts_len. unfold names_of. rewrite map_length. symmetry. apply (bo_len _ _ _ Book). }
  rewrite rx_all by (apply (ghead_sizes 8228 (li_B _ _ L)); [apply (w2_inv _ I2)|exact L]).
  replace (flat_map rx (gtail_recs g)) with (concat (gtail_recs g)); [lia|].
  pose proof (gtail_sizes 8228 (li_B _ _ L) w (w2_inv _ I2) L) as F. fold g in F.
  induction F as [|rs rss K F IH]; [reflexivity|]. cbn [concat flat_map]. rewrite IH. f_equal.
  destruct K as [K| ->]; [symmetry; apply rx_small; exact K|symmetry; apply rx_fit; apply sst_recs_fit].
Qed.
Lemma sheet_adv pos s : In s ss -> 
  pos + adv_all sadv (sheet_units ls ac pos s) = pos + rsz (concat (sheet_recs ls ac pos s)) /\
  flat_map rx (sheet_recs ls ac pos s) = concat (sheet_recs ls ac pos s).
Proof.
  intro I. pose proof S5 as F. rewrite Forall_forall in F. destruct (F s I) as (O & Fi & Iv & T & Li).
  pose proof (sheet_uok ls ac pos s O Fi) as U. pose proof (sheet_sizes 8228 (li_B _ _ L) ls ac pos s Iv T O Fi Li) as Sz.
  split; [|apply rx_all; exact Sz]. f_equal. rewrite adv_total.
  - apply total_recs. exact U.
  - eapply sizes_F2; [exact U|]. intros u rs K Q. left. rewrite (unit_size _ _ Q). rewrite Forall_forall in Sz. auto.
Qed.
Lemma starts_real : forall todo pos k p, (forall s, In s todo -> In s ss) -> nth_error (sheet_starts g ac pos todo) k = Some p ->
  exists a, sheets_recs g ac pos todo = a ++ map (wrap 16) (skipn k (bodies g ac pos todo)) /\ p = pos + rsz (concat a).
Proof.
  induction todo as [|s t IH]; intros pos k p Sub H; [destruct k; discriminate|].
  cbn [sheet_starts] in H. destruct k as [|k]; cbn [nth_error] in H.
  - exists []. injection H as <-. split; [apply sheets_recs_bodies|]. change (rsz (concat [])) with 0. lia.
  - apply IH in H; [|intros x Hx; apply Sub; right; exact Hx]. destruct H as (a & E & ->).
    cbn [sheets_recs bodies skipn]. cbv zeta. exists (flat_map rx (sheet_recs ls ac pos s) :: a).
    split; [cbn [app]; f_equal; exact E|]. cbn [concat]. rewrite rsz_app.
    destruct (sheet_adv pos s (Sub s (or_introl eq_refl))) as [A B]. change (g_labels g) with ls in *. rewrite A, B. lia.
Qed.

(** The stream from the k-th start on is the k-th sheet and those after it. *)
Theorem stream_from k p : nth_error starts k = Some p ->
  0 <= p /\ p < zlen (concat (store_of w)) /\
  skipn (Z.to_nat p) (concat (store_of w)) = frame_all (concat (map (wrap 16) (skipn k (bodies g ac (g_size g) ss)))).
Proof.
  intro H. destruct (starts_real ss (g_size g) k p (fun s Hs => Hs) H) as (a & E & ->).
  destruct (store_records 8228 w I2 L) as [-> _]. fold g ac ss. unfold book_records. fold starts. rewrite E, concat_app, !frame_all_app.
  assert (K : g_size g + rsz (concat a) = Z.of_nat (length (frame_all (globals_recs g starts) ++ frame_all (concat a)))).
  { rewrite g_size_real, app_length. unfold rsz, zlen. lia. }
  rewrite K, Nat2Z.id, app_assoc, skipn_app, skipn_all, Nat.sub_diag, skipn_O. cbn [app].
  split; [lia|]. split; [|reflexivity]. rewrite zlen_app. unfold zlen at 1.
  enough (0 < zlen (frame_all (concat (map (wrap 16) (skipn k (bodies g ac (g_size g) ss)))))) by lia.
  destruct (skipn k (bodies g ac (g_size g) ss)) as [|b l] eqn:Es.
  - exfalso. assert (Hk : (k < length ss)%nat). { rewrite <- (starts_len ss (g_size g)). apply nth_error_Some. fold starts. rewrite H. discriminate. }
    apply (f_equal (@length _)) in Es. rewrite skipn_length, bodies_len in Es. cbn in Es. lia.
  - cbn [map concat]. rewrite frame_all_app, zlen_app. unfold wrap at 1. rewrite frame_all_cons, zlen_app, frame_length. 
    pose proof (zlen_nonneg _ (snd (RT_BOF, bof_bytes 16))). 
    pose proof (zlen_nonneg _ (frame_all (b ++ [(RT_EOF, [])]))). pose proof (zlen_nonneg _ (frame_all (concat (map (wrap 16) l)))). cbn [fst snd] in *. lia.
Qed.

(** The k-th body, with nothing continued. *)
Lemma bodies_nth : forall todo pos k b, (forall s, In s todo -> In s ss) -> nth_error (bodies g ac pos todo) k = Some b ->
  exists s p, nth_error todo k = Some s /\ nth_error (sheet_starts g ac pos todo) k = Some p /\ b = concat (inner ls ac p s).
Proof.
  induction todo as [|s t IH]; intros pos k b Sub H; [destruct k; discriminate|].
  destruct k as [|k]; cbn [bodies nth_error sheet_starts] in *.
  - apply some_inj in H. rewrite <- H. exists s, pos. split; [reflexivity|]. split; [reflexivity|].
    destruct (sheet_adv pos s (Sub s (or_introl eq_refl))) as [_ B]. rewrite sheet_recs_inner, !flat_map_app, !concat_app in B.
    cbn [flat_map concat app] in B. change (rx [(RT_BOF, bof_bytes 16)]) with [(RT_BOF, bof_bytes 16)] in B. cbn [app] in B.
    apply (f_equal (@tl _)) in B. cbn [tl] in B. apply app_inv_tail in B. exact B.
  - apply IH in H; [|intros x Hx; apply Sub; right; exact Hx]. exact H.
Qed.
Lemma body_records k : forall rs, nth_error (bodies g ac (g_size g) ss) k = Some rs -> Forall rec_fits rs.
Proof.
  intros rs H. pose proof (limits_ok 8228 (li_B _ _ L) w I2 L) as LK. cbv zeta in LK. destruct LK as (Bk & Ft & _). fold g ac ss in Bk. 
  destruct (book_frames g ac ss Bk Ft) as [_ R]. unfold book_records in R. apply Forall_app in R. destruct R as [_ R].
  rewrite sheets_recs_bodies in R. apply nth_error_In in H. rewrite Forall_forall in *. intros r Hr. apply R.
  apply in_concat. exists (wrap 16 rs). split; [apply in_map; exact H|]. unfold wrap. right. apply in_or_app. left. exact Hr.
Qed.
Lemma tail_records k : Forall rec_fits (concat (map (wrap 16) (skipn k (bodies g ac (g_size g) ss)))).
Proof.
  pose proof (limits_ok 8228 (li_B _ _ L) w I2 L) as LK. cbv zeta in LK. destruct LK as (Bk & Ft & _). fold g ac ss in Bk. 
  destruct (book_frames g ac ss Bk Ft) as [_ R]. unfold book_records in R. apply Forall_app in R. destruct R as [_ R].
  rewrite sheets_recs_bodies in R. rewrite <- (firstn_skipn k (bodies g ac (g_size g) ss)), map_app, concat_app in R.
  apply Forall_app in R. apply R.
Qed.
End Small.

(* ------------------------------------------------------------------ *)
(** * Payloads by record type *)

Lemma pay_app t a b : payloads t (a ++ b) = payloads t a ++ payloads t b.
Proof. unfold payloads. rewrite filter_app, map_app. reflexivity. Qed.
Lemma pay_none ts t rs : has_types ts rs -> ~ In t ts -> payloads t rs = [].
Proof.
  intros H N. induction H as [|[k p] rs K F IH]; [reflexivity|]. unfold payloads in *. cbn [filter fst] in *.
  destruct (k =? t) eqn:E; [|exact IH]. exfalso. apply N. replace t with k by lia. exact K.
Qed.
Lemma pay_one t k p : payloads t [(k, p)] = if k =? t then [p] else [].
Proof. unfold payloads. cbn [filter fst]. destruct (k =? t); reflexivity. Qed.
Lemma pay_map {A} t k (f : A -> list Z) l : payloads t (concat (map (fun x => [(k, f x)]) l)) = if k =? t then map f l else [].
Proof.
  induction l as [|x l IH]; cbn [map concat]; [destruct (k =? t); reflexivity|]. rewrite pay_app, pay_one, IH. destruct (k =? t); reflexivity.
Qed.

Definition cell_drawing_types : list Z :=
  [RT_BLANK; RT_BOOLERR; RT_RK; RT_NUMBER; RT_LABEL; RT_LABELSST; RT_FORMULA; RT_ARRAY; RT_STRING;
   RT_MSODRAWING; RT_OBJ; RT_TXO; RT_CONTINUE].
Definition blocks_list (s : sheet) : list block := match sheet_blocks s with Some bl => bl | None => [] end.
Definition pick {A} (k t : Z) (l : list A) : list A := if k =? t then l else [].
Lemma pay_body ls s t : ~ In t cell_drawing_types -> 
  payloads t (concat (body_recs ls s)) =
  flat_map (fun b => pick RT_ROW t (map row_bytes (k_rows b)) ++ pick RT_DBCELL t [dbcell_bytes ls b]) (blocks_list s).
Proof.
  intro N. unfold body_recs, blocks_list. destruct (sheet_blocks s) as [bl|]; [|reflexivity].
  induction bl as [|b bl IH]; [reflexivity|]. cbn [flat_map]. rewrite concat_app, pay_app, IH. f_equal.
  unfold block_recs. rewrite !concat_app, !pay_app, pay_map. unfold pick. f_equal. 
  rewrite (pay_none cell_drawing_types t (concat (map (cell_recs ls) (k_cells b)))); [|apply ht_concat|exact N].
  - cbn [concat app]. rewrite pay_one. reflexivity.
  - apply Forall_map. apply Forall_forall. intros c _. eapply ht_weaken; [|apply cell_types]. intros x H. cbn in *. tauto.
Qed.
Lemma pay_inner ls ac pos s t : ~ In t cell_drawing_types ->
  payloads t (concat (inner ls ac pos s)) =
    pick RT_INDEX t [index_bytes (pos + 20) s]
    ++ pick RT_DEFAULTROWHEIGHT t [le16 (if sh_defrh s =? 15 then 0 else 1) ++ le16 (sh_defrh s * 20)]
    ++ pick RT_COLINFO t (map colinfo_bytes (sh_cols s))
    ++ pick RT_DEFCOLWIDTH t [le16 (sh_defcw s)]
    ++ pick RT_DIMENSIONS t [dim_bytes s]
    ++ flat_map (fun b => pick RT_ROW t (map row_bytes (k_rows b)) ++ pick RT_DBCELL t [dbcell_bytes ls b]) (blocks_list s)
    ++ pick RT_NOTE t (map note_bytes (number_notes (sh_notes s) 0))
    ++ pick RT_MERGEDCELLS t (map merged_bytes (chunks (sh_merged s)))
    ++ pick RT_WINDOW2 t [window2_bytes (sh_index s =? ac)]
    ++ pick RT_PANE t (if ((sh_rsplit s =? 0) && (sh_csplit s =? 0))%bool then [] else [pane_bytes (sh_rsplit s) (sh_csplit s)])
    ++ pick RT_HLINK t (map hlink_bytes (sh_links s))
    ++ pick RT_DVAL t (match sh_dvs s with [] => [] | dvs => [dval_bytes (zlen dvs)] end)
    ++ pick RT_DV t (map dv_bytes (sh_dvs s)).
Proof.
  intro N. unfold inner, head_in, tail_in. rewrite !concat_app, !pay_app, pay_body by exact N. rewrite !pay_map.
  cbn [concat app]. rewrite ?app_nil_r.
  rewrite (pay_none cell_drawing_types t (concat (drawings_recs _ _ _ _ _))); [|apply ht_concat|exact N].
  2:{ eapply Forall_impl; [|apply drawings_types]. intros rs. apply ht_weaken. intros x H. cbn in *. tauto. }
  unfold pick.
  assert (E2 : forall k1 p1 k2 p2, payloads t [(k1, p1); (k2, p2)] = (if k1 =? t then [p1] else []) ++ (if k2 =? t then [p2] else [])).
  { intros. change [(k1, p1); (k2, p2)] with ([(k1, p1)] ++ [(k2, p2)]). rewrite pay_app, !pay_one. reflexivity. }
  rewrite !E2, pay_one, <- !app_assoc. cbn [app]. do 9 f_equal.
  assert (E3 : payloads t (concat (if ((sh_rsplit s =? 0) && (sh_csplit s =? 0))%bool then []
      else [[(RT_PANE, pane_bytes (sh_rsplit s) (sh_csplit s))]])) =
     if RT_PANE =? t then (if ((sh_rsplit s =? 0) && (sh_csplit s =? 0))%bool then [] else [pane_bytes (sh_rsplit s) (sh_csplit s)]) else []).
  { destruct (_ && _)%bool; cbn [concat app]; [destruct (RT_PANE =? t); reflexivity|]. apply pay_one. }
  rewrite E3. do 2 f_equal.
  destruct (sh_dvs s) as [|d dvs]; cbn [concat map]; [destruct (RT_DVAL =? t), (RT_DV =? t); reflexivity|].
  rewrite pay_app, pay_one. f_equal. exact (pay_map t RT_DV dv_bytes (d :: dvs)).
Qed.
