(** Documents within stated limits can be saved: the hypotheses of WbProofs.book_units_ok
    and BookRecs.book_split follow from the invariants of documents (ApiInv, ApiEff) and
    from limits on sizes. *)
From Coq Require Import ZArith List Bool Lia ZifyBool ZifyNat Sorting.Sorted Sorting.Permutation.
From Verif Require Import Bytes UnitModel SpecBuf BufProofs UnitProofs RecModel SheetModel XfModel WbModel
  RecProofs RecFrames XfProofs SheetProofs SheetTrace GlobTrace WbProofs SpecBiff BookRecs XfInv ApiModel ApiInv
  SpecApi ApiEff.
Import ListNotations.
Local Open Scope Z_scope.

(* ------------------------------------------------------------------ *)
(** * Row blocks *)

Definition row_le (a b : cell) : Prop := c_row a <= c_row b.
Lemma clt_rows x l : Forall (clt x) l -> Forall (fun c => c_row x <= c_row c) l.
Proof. apply Forall_impl. intros c. unfold clt, key_lt. destruct (c_row x =? c_row c) eqn:?; lia. Qed.

(** Row heights given for rows that hold no cell. *)
Definition has_row (cells : list cell) (r : Z) : bool := existsb (fun c => c_row c =? r) cells.
Definition bare (cells : list cell) (rh : list rowheight) : list rowheight :=
  filter (fun h => negb (has_row cells (rh_row h))) rh.

Lemma span_sorted r l : csorted l -> Forall (fun c => r <= c_row c) l ->
  csorted (snd (span_row r l)) /\ Forall (fun c => r < c_row c) (snd (span_row r l)).
Proof.
  induction l as [|c t IH]; intros S F; cbn [span_row]; [split; constructor|].
  apply csorted_inv in S. destruct S as [S G]. inversion F; subst. destruct (c_row c =? r) eqn:E.
  - specialize (IH S H2). destruct (span_row r t); exact IH.
  - cbn [snd]. split; [constructor; assumption|]. constructor; [lia|]. apply clt_rows in G. eapply Forall_impl; [|exact G]. cbn. intros; lia.
Qed.
Lemma has_row_cons c t r : has_row (c :: t) r = ((c_row c =? r) || has_row t r)%bool.
Proof. reflexivity. Qed.
Lemma has_row_false cells r : Forall (fun c => r < c_row c) cells -> has_row cells r = false.
Proof. induction 1; [reflexivity|]. rewrite has_row_cons, IHForall. lia. Qed.
Lemma has_row_app a b r : has_row (a ++ b) r = (has_row a r || has_row b r)%bool.
Proof. apply existsb_app. Qed.

Definition hsorted (l : list rowheight) : Prop := StronglySorted (fun a b => rh_row a < rh_row b) l.
Lemma next_row_le c rh : next_row c rh <= c_row c.
Proof. unfold next_row. destruct rh; [lia|]. destruct (rh_row r <? c_row c) eqn:?; lia. Qed.

Lemma row_at_rest r here rh : snd (row_at r here rh) = match rh with h :: t => if rh_row h =? r then t else rh | [] => rh end.
Proof. unfold row_at. destruct (cols_of here). destruct rh; [reflexivity|]. destruct (rh_row r0 =? r); reflexivity. Qed.

(** One row more: the heights left are those of later rows. *)
Lemma row_step c t rh : csorted (c :: t) -> hsorted rh ->
  let r := next_row c rh in
  let rest := snd (span_row r (c :: t)) in
  let rh1 := snd (row_at r (fst (span_row r (c :: t))) rh) in
  csorted rest /\ hsorted rh1 /\ Forall (fun h => r < rh_row h) rh1
  /\ (length (bare rest rh1) <= length (bare (c :: t) rh))%nat
  /\ (length rest = length (c :: t) -> (S (length (bare rest rh1)) <= length (bare (c :: t) rh))%nat).
Proof.
  intros S H. cbv zeta. rewrite row_at_rest. remember (next_row c rh) as r eqn:Enr.
  assert (F : Forall (fun x => r <= c_row x) (c :: t)).
  { pose proof (next_row_le c rh) as Hn. rewrite <- Enr in Hn. apply csorted_inv in S. destruct S as [S G]. apply clt_rows in G.
    constructor; [assumption|]. eapply Forall_impl; [|exact G]. cbn. intros; lia. }
  destruct (span_sorted r _ S F) as [S1 F1]. pose proof (span_app r (c :: t)) as A. pose proof (span_row_all r (c :: t)) as Al.
  set (here := fst (span_row r (c :: t))) in *. set (rest := snd (span_row r (c :: t))) in *.
  assert (Hr : forall x, r < x -> has_row (c :: t) x = has_row rest x).
  { intros x Hx. rewrite <- A, has_row_app. replace (has_row here x) with false; [reflexivity|].
    clear - Al Hx. induction Al; [reflexivity|]. rewrite has_row_cons, <- IHAl. lia. }
  assert (Hb : forall l, Forall (fun h => r < rh_row h) l -> bare (c :: t) l = bare rest l).
  { intros l Fl. unfold bare. induction Fl as [|h l Hh Fl IH]; cbn [filter]; [reflexivity|]. rewrite Hr by assumption. rewrite IH. reflexivity. }
  assert (Hlen : length rest = length (c :: t) -> has_row (c :: t) r = false).
  { intro E. rewrite <- A in E. rewrite app_length in E. destruct here as [|x here']; [|cbn in E; lia].
    rewrite <- A. apply has_row_false. exact F1. }
  destruct rh as [|h rh'].
  - split; [exact S1|]. split; [constructor|]. split; [constructor|]. split; [cbn; lia|].
    intro E. specialize (Hlen E). cbn [next_row] in Enr. rewrite has_row_cons in Hlen. lia.
  - apply StronglySorted_inv in H. destruct H as [H Fh].
    destruct (rh_row h =? r) eqn:E.
    + assert (Fl : Forall (fun h => r < rh_row h) rh') by (eapply Forall_impl; [|exact Fh]; cbn; intros; lia).
      split; [exact S1|]. split; [exact H|]. split; [exact Fl|]. rewrite <- (Hb _ Fl).
      change (bare (c :: t) (h :: rh')) with (if negb (has_row (c :: t) (rh_row h)) then h :: bare (c :: t) rh' else bare (c :: t) rh').
      split; [destruct (negb _); cbn [length]; lia|].
      intro L. replace (rh_row h) with r by lia. rewrite (Hlen L). cbn [negb length]. lia.
    + assert (Er : r = c_row c /\ c_row c < rh_row h). { unfold next_row in Enr. destruct (rh_row h <? c_row c) eqn:?; lia. }
      assert (Fl : Forall (fun h => r < rh_row h) (h :: rh')).
      { constructor; [lia|]. eapply Forall_impl; [|exact Fh]; cbn; intros; lia. }
      split; [exact S1|]. split; [constructor; assumption|]. split; [exact Fl|].
      rewrite <- (Hb _ Fl). split; [lia|]. intro L. specialize (Hlen L). rewrite has_row_cons in Hlen. lia.
Qed.

Lemma rows_of_bare n : forall cells rh rs rest rh2, csorted cells -> hsorted rh -> rows_of n cells rh = (rs, rest, rh2) ->
  csorted rest /\ hsorted rh2 /\ (length (bare rest rh2) <= length (bare cells rh))%nat
  /\ (length rest = length cells -> cells <> [] -> (n + length (bare rest rh2) <= length (bare cells rh))%nat).
Proof.
  induction n; intros cells rh rs rest rh2 S H E; cbn [rows_of] in E.
  - injection E as <- <- <-. repeat split; auto; lia.
  - destruct cells as [|c t]. { injection E as <- <- <-. repeat split; auto; try lia. congruence. }
    pose proof (row_step c t rh S H) as R. cbv zeta in R. pose proof (span_app (next_row c rh) (c :: t)) as Sa.
    destruct (span_row (next_row c rh) (c :: t)) as [here rest1]. cbn [fst snd] in R, Sa.
    destruct (row_at _ here rh) as [r rh1]. cbn [snd] in R. destruct R as (R1 & R2 & R3 & R4 & R5).
    destruct (rows_of n rest1 rh1) as [[rs' rest'] rh'] eqn:E2. injection E as <- <- <-.
    destruct (rows_of_suffix _ _ _ _ _ _ E2) as [pre Hp].
    destruct (IHn _ _ _ _ _ R1 R2 E2) as (I1 & I2 & I3 & I4). repeat split; auto; [lia|].
    intros L _. rewrite <- Sa, app_length, Hp, app_length in L. 
    assert (L1 : length rest1 = length (c :: t)) by (rewrite <- Sa, app_length, Hp, app_length; lia).
    specialize (R5 L1). assert (L2 : length rest' = length rest1) by (rewrite Hp, app_length; lia).
    assert (N : rest1 <> []) by (intro N; rewrite N in L1; discriminate). specialize (I4 L2 N). lia.
Qed.
Lemma blocks_exist f : forall cells rh, csorted cells -> hsorted rh -> (length (bare cells rh) < 16)%nat ->
  (length cells < f)%nat -> blocks_of f cells rh <> None.
Proof.
  induction f; intros cells rh S H B L; [lia|]. cbn [blocks_of]. destruct cells as [|c t]; [discriminate|].
  destruct (rows_of 16 (c :: t) rh) as [[rs rest] rh1] eqn:E.
  destruct (rows_of_bare _ _ _ _ _ _ S H E) as (S1 & H1 & B1 & B2).
  destruct (rows_of_suffix _ _ _ _ _ _ E) as [pre Hp].
  assert (N : (length rest < length (c :: t))%nat).
  { rewrite Hp, app_length. destruct pre; [|cbn [length]; lia]. exfalso. cbn [app] in Hp. 
    assert (16 + length (bare rest rh1) <= length (bare (c :: t) rh))%nat by (apply B2; [rewrite Hp; reflexivity|discriminate]). lia. }
  destruct (Nat.eqb _ 0) eqn:E0; [apply Nat.eqb_eq in E0; lia|].
  destruct (at_last rest); [discriminate|]. 
  specialize (IHf rest rh1 S1 H1 ltac:(lia) ltac:(lia)). destruct (blocks_of f rest rh1); [discriminate|congruence].
Qed.

(** Cells per row and per block. *)
Lemma ss_app_l {A} (R : A -> A -> Prop) a b : StronglySorted R (a ++ b) -> StronglySorted R a.
Proof.
  induction a as [|x a IH]; intro S; [constructor|]. cbn [app] in S. apply StronglySorted_inv in S. destruct S as [S G].
  apply Forall_app in G. constructor; [apply IH; exact S|apply G].
Qed.
Lemma ss_app_r {A} (R : A -> A -> Prop) a b : StronglySorted R (a ++ b) -> StronglySorted R b.
Proof. induction a as [|x a IH]; intro S; [exact S|]. apply IH. cbn [app] in S. apply StronglySorted_inv in S. apply S. Qed.
Lemma row_count C r l : forall k, csorted l -> Forall (fun c => k <= c_col c < C) l -> Forall (fun c => c_row c = r) l -> k <= C ->
  zlen l <= C - k.
Proof.
  induction l as [|c t IH]; intros k S F R K; [change (zlen []) with 0; lia|].
  apply csorted_inv in S. destruct S as [S G]. inversion F; inversion R; subst. rewrite zlen_cons.
  assert (zlen t <= C - (c_col c + 1)); [|lia]. apply IH; auto; [|lia].
  apply Forall_forall. intros x I. rewrite Forall_forall in G, H6, H2. specialize (G x I). specialize (H6 x I). specialize (H2 x I).
  unfold clt, key_lt in G. rewrite H6, Z.eqb_refl in G. lia.
Qed.
Lemma span_count C r l : 0 <= C -> csorted l -> Forall (fun c => 0 <= c_col c < C) l -> zlen (fst (span_row r l)) <= C.
Proof.
  intros HC S F. pose proof (span_app r l) as A. rewrite <- (Z.sub_0_r C). apply (row_count C r).
  - rewrite <- A in S. eapply ss_app_l; exact S.
  - rewrite <- A in F. apply Forall_app in F. apply F.
  - apply span_row_all.
  - exact HC.
Qed.
Lemma rows_of_count C n : 0 <= C -> forall cells rh rs rest rh2, csorted cells -> Forall (fun c => 0 <= c_col c < C) cells ->
  rows_of n cells rh = (rs, rest, rh2) -> zlen cells - zlen rest <= Z.of_nat n * C.
Proof.
  intro HC. induction n; intros cells rh rs rest rh2 S F E; cbn [rows_of] in E.
  - injection E as <- <- <-. lia.
  - destruct cells as [|c t]. { injection E as <- <- <-. rewrite Z.sub_diag. lia. }
    pose proof (span_count C (next_row c rh) (c :: t) HC S F) as K. pose proof (span_app (next_row c rh) (c :: t)) as Sa.
    destruct (span_row (next_row c rh) (c :: t)) as [here rest1]. cbn [fst snd] in K, Sa.
    destruct (row_at _ here rh) as [r rh1]. destruct (rows_of n rest1 rh1) as [[rs' rest'] rh'] eqn:E2. injection E as <- <- <-.
    rewrite <- Sa in S, F |- *. apply ss_app_r in S. apply Forall_app in F. 
    specialize (IHn _ _ _ _ _ S (proj2 F) E2). rewrite zlen_app. lia.
Qed.
Lemma blocks_count C f : 0 <= C -> forall cells rh bl, csorted cells -> Forall (fun c => 0 <= c_col c < C) cells ->
  blocks_of f cells rh = Some bl -> Forall (fun b => zlen (k_cells b) <= 16 * C + 1 /\ (length (k_rows b) <= 16)%nat) bl.
Proof.
  intro HC. induction f; intros cells rh bl S F E; cbn [blocks_of] in E; [discriminate|].
  destruct cells as [|c t]. { injection E as <-. constructor. }
  destruct (rows_of 16 (c :: t) rh) as [[rs rest] rh1] eqn:Er.
  pose proof (rows_of_count C 16 HC _ _ _ _ _ S F Er) as K. pose proof (rows_of_len _ _ _ _ _ _ Er) as Kr.
  destruct (rows_of_suffix _ _ _ _ _ _ Er) as [pre Hp].
  assert (G : forall k, (k <= 1)%nat -> zlen (firstn (length (c :: t) - length rest + k) (c :: t)) <= 16 * C + 1 /\ (length rs <= 16)%nat).
  { intros k Hk. split; [|exact Kr]. unfold zlen in *. rewrite firstn_length. rewrite Hp, app_length in *. lia. }
  destruct (Nat.eqb _ 0); [discriminate|]. destruct (at_last rest).
  - injection E as <-. constructor; [|constructor]. cbn [k_cells k_rows]. apply G. lia.
  - destruct (blocks_of f rest rh1) as [bl'|] eqn:Eb; [|discriminate]. injection E as <-. constructor.
    + cbn [k_cells k_rows]. apply G. lia.
    + rewrite Hp in S, F. apply ss_app_r in S. apply Forall_app in F. eapply IHf; [exact S|apply F|exact Eb].
Qed.

(** Blocks of the size computation. *)
Lemma size_scan_rows cells : forall row rows n rb rest rows' n' rb', csorted cells -> Forall (fun c => row <= c_row c) cells ->
  size_scan cells row rows n rb = (rest, rows', n', rb') ->
  match rest with [] => True | x :: _ => row + (MAX_ROWBLOCK - rows) < c_row x end /\ csorted rest /\ (forall x, In x rest -> In x cells).
Proof.
  induction cells as [|c t IH]; intros row rows n rb rest rows' n' rb' S F H; cbn [size_scan] in H.
  - injection H as <- _ _ _. auto.
  - inversion F; subst. pose proof (csorted_inv _ _ S) as [S' G]. destruct (c_row c =? row) eqn:E.
    + apply IH in H; auto. destruct H as (H & K & L). split; [exact H|]. split; [exact K|]. intros x I. right. auto.
    + destruct (MAX_ROWBLOCK <=? rows) eqn:Em.
      * injection H as <- _ _ _. repeat split; auto. lia.
      * apply IH in H; auto; [|apply clt_rows; exact G]. destruct H as (H & K & L). split; [|split; [exact K|intros x I; right; auto]].
        destruct rest; [exact I|]. lia.
Qed.
Lemma size_block_rows c t rb rest : csorted (c :: t) -> size_block (c :: t) = (rb, rest) ->
  match rest with [] => True | x :: _ => c_row c + 16 <= c_row x end /\ csorted rest /\ (forall x, In x rest -> In x (c :: t)).
Proof.
  intros S. unfold size_block. destruct (size_scan (c :: t) _ _ _ _) as [[[rest' rows] n] rb1] eqn:E.
  intro H. injection H as _ <-. apply size_scan_rows in E; [|exact S|].
  - unfold MAX_ROWBLOCK in E. destruct E as (A & B & C). repeat split; auto. destruct rest'; [exact I|]. lia.
  - pose proof (csorted_inv _ _ S) as [_ G]. constructor; [lia|apply clt_rows; exact G].
Qed.
Lemma sblocks_count R : forall n c t, (length t < n)%nat -> csorted (c :: t) -> Forall (fun c => c_row c <= R) (c :: t) ->
  16 * (zlen (sblocks (c :: t)) - 1) <= R - c_row c.
Proof.
  induction n; intros c t L S F; [lia|]. rewrite sblocks_cons, zlen_cons.
  destruct (size_block (c :: t)) as [rb rest] eqn:E. cbn [fst snd].
  pose proof (size_block_rows _ _ _ _ S E) as (A & B & D). pose proof (size_block_len _ _ _ _ E) as Len.
  destruct rest as [|x rest]. 
  - change (sblocks []) with (@nil rbsize). change (zlen []) with 0. inversion F; subst. lia.
  - assert (F' : Forall (fun c => c_row c <= R) (x :: rest)).
    { rewrite Forall_forall in *. intros y I. apply F. apply D. exact I. }
    cbn [length] in Len. specialize (IHn x rest ltac:(lia) B F'). lia.
Qed.

(* ------------------------------------------------------------------ *)
(** * Limits *)

(** [B] bounds the bytes of one unit (record header included).  With [B] = 8228 nothing
    needs continuing except the shared strings. *)
Definition val_limit (B : Z) (v : cval) : Prop :=
  match v with
  | VFormula arr toks _ e =>
      26 + zlen toks <= B /\ (arr = true \/ fe_str e <> None -> zlen toks <= 3000)
      /\ (forall s, fe_str e = Some s -> zlen s < 256)
  | _ => True
  end.
Definition cell_limit (B : Z) (c : cell) : Prop :=
  24 + c_row c / 4 <= B /\ 42 + 32 * c_col c <= B /\ val_limit B (c_val c).
Record sheet_limits (B : Z) (s : sheet) : Prop := {
  sl_count : zlen (sh_cells s) < 4294967295;
  sl_cells : Forall (cell_limit B) (sh_cells s);
  sl_bare : (length (bare (sh_cells s) (sh_heights s)) < 16)%nat;
  sl_links : Forall (fun h => 80 + 2 * (zlen (hl_url h) + zlen (hl_mark h)) <= B) (sh_links s);
  sl_dvs : Forall (fun d => 4 + zlen (dv_bytes d) <= B) (sh_dvs s)
}.
Record limits (B : Z) (w : wb) : Prop := {
  li_B : 8228 <= B < 538968000;
  li_some : wb_sheets w <> [];
  li_few : zlen (wb_sheets w) <= 1000;
  li_names : Forall (fun b => zlen (bs_name b) <= 4000) (wb_bs w);
  li_fonts : Forall (fun f => zlen (fo_name (fo_val f)) <= 4000) (fs_dfonts (wb_fs w) ++ fs_fonts (wb_fs w));
  li_formats : Forall (fun f => zlen (fmo_str f) <= 4000) (fs_formats (wb_fs w));
  li_labels : zlen (wb_labels w) <= 65000;
  li_sheets : Forall (sheet_limits B) (wb_sheets w)
}.

Lemma label_index_in ls id s : forall k, NoDup (map fst ls) -> In (id, s) ls ->
  exists i, label_index ls id k = Ok (k + Z.of_nat i) /\ nth_error ls i = Some (id, s).
Proof.
  induction ls as [|[j u] t IH]; intros k N I; [destruct I|]. cbn [label_index]. cbn [map fst] in N. inversion N; subst.
  destruct (j =? id) eqn:E.
  - exists 0%nat. rewrite Z.add_0_r. destruct I as [I|I]; [injection I as -> ->; auto|].
    exfalso. apply H1. apply in_map_iff. exists (id, s). cbn. split; [lia|exact I].
  - destruct I as [I|I]; [injection I as -> ->; lia|]. destruct (IH (k + 1) H2 I) as (i & A & B).
    exists (S i). split; [rewrite A; f_equal; lia|exact B].
Qed.

Definition rsz (rs : list brec) : Z := zlen (frame_all rs).
Lemma rsz_one t p : rsz [(t, p)] = 4 + zlen p.
Proof. unfold rsz. rewrite frame_all_one. apply frame_length. Qed.
Lemma rsz_cons t p rs : rsz ((t, p) :: rs) = 4 + zlen p + rsz rs.
Proof. unfold rsz. rewrite frame_all_cons, zlen_app, frame_length. reflexivity. Qed.
Lemma ustr_le s k : zlen (ustr_bytes s k) <= 3 + 2 * zlen s.
Proof. rewrite unicode_length_ok. unfold unicode_string_length. pose proof (zlen_nonneg _ s). destruct k, (is_ascii s); lia. Qed.
Lemma flat_len {A} (f : A -> list Z) k l : (forall x, zlen (f x) = k) -> zlen (flat_map f l) = k * zlen l.
Proof. intro H. induction l; cbn [flat_map]; [unfold zlen; cbn; lia|]. rewrite zlen_app, zlen_cons, H, IHl. lia. Qed.
Lemma fr_le t p B : 4 + zlen p <= B -> rsz [(t, p)] <= B.
Proof. rewrite rsz_one. auto. Qed.
Ltac szs := repeat rewrite ?zlen_app, ?zlen_cons, ?zlen_nil, ?zlen_le16, ?zlen_le32, ?zlen_le64.

(** Cells. *)
Lemma cell_size_le B ls c : 8228 <= B -> val_limit B (c_val c) -> rsz (cell_recs ls c) <= B.
Proof.
  intros HB H. unfold val_limit in H. unfold cell_recs. destruct (c_val c) as [|bo|er|nn|bi|id s|arr toks fs est].
  1-5: (apply fr_le; unfold cell_head; szs; lia).
  - destruct (in_sst s) eqn:Es; apply fr_le; unfold cell_head; szs; [lia|]. pose proof (ustr_le s LEN2). unfold in_sst in Es. lia.
  - destruct H as (H1 & H2 & H3). unfold fml_recs.
    assert (K : zlen (tok_bytes toks) = zlen toks) by (unfold tok_bytes; apply zlen_map).
    destruct (fe_str est) as [s|] eqn:Ef.
    + pose proof (ustr_le s LEN2). specialize (H3 _ eq_refl).
      assert (zlen toks <= 3000) by (apply H2; right; discriminate).
      destruct arr; cbn [app]; rewrite !rsz_cons; change (rsz []) with 0; unfold fml_head, arr_head; szs; rewrite K; lia.
    + destruct arr; cbn [app]; rewrite !rsz_cons; change (rsz []) with 0; unfold fml_head, arr_head; szs; rewrite K; [|lia].
      assert (zlen toks <= 3000) by (apply H2; left; reflexivity). lia.
Qed.
Lemma cell_limit_fits B ls c : 8228 <= B < 538968000 -> val_limit B (c_val c) -> cell_fits ls c.
Proof.
  intros HB H. pose proof (cell_size_le 8228 ls c ltac:(lia)) as K. unfold cell_fits, val_limit in *.
  destruct (c_val c) eqn:V; auto. destruct H as (H1 & H2 & H3).
  split; [lia|]. intro Q. specialize (H2 Q). unfold rsz in K. apply K. repeat split; auto. lia.
Qed.
Lemma cell_unit_ok B ls c : 8228 <= B < 538968000 -> val_limit B (c_val c) -> NoDup (map fst ls) ->
  (forall l, In l (cell_label c) -> In l ls) -> cell_unit ls c = Ok (cu ls c).
Proof.
  intros HB H N L. unfold cu. enough (exists u, cell_unit ls c = Ok u) as [u ->] by reflexivity.
  unfold cell_unit, cell_ops, val_limit, cell_label in *. destruct (c_val c) as [|bo|er|nn|bi|id s|arr toks fs est].
  1-5: (cbn [bind]; eexists; apply build_rec; unfold app_only; cbn; discriminate).
  - destruct (in_sst s).
    + destruct (label_index_in ls id s 0 N) as (i & E & _). { apply L. left. reflexivity. }
      rewrite E. cbn [bind]. eexists; apply build_rec; unfold app_only; cbn; discriminate.
    + cbn [bind]. eexists; apply build_rec; unfold app_only; cbn; discriminate.
  - destruct H as (H1 & H2 & H3). destruct (fe_str est) as [s|] eqn:E.
    + specialize (H3 _ eq_refl). replace (zlen s <? 256) with true by lia. cbn [xl_assert bind]. eexists. apply build_formula. lia.
    + cbn [bind]. eexists. apply build_formula. lia.
Qed.

(** Sheets. *)
Section Limits.
Variable B : Z.
Hypothesis HB : 8228 <= B < 538968000.

Lemma sheet_limits_ok ls s : sheet_inv s -> NoDup (map fst ls) -> (forall l, In l (slabels s) -> In l ls) -> sheet_limits B s ->
  sheet_ok ls s /\ sheet_fits ls s.
Proof.
  intros I N L [A1 A2 A3 A4 A5]. destruct I as [I1 I2 I3 I4 I5 I6 I7].
  assert (V : forall c, In c (sh_cells s) -> val_limit B (c_val c)).
  { intros c J. rewrite Forall_forall in A2. apply A2. exact J. }
  split; [split; [|split; [|split]]|split].
  - apply blocks_exist; auto.
  - apply Forall_forall. intros c J. eapply cell_unit_ok; eauto. intros l K. apply L. unfold slabels. apply in_flat_map. eauto.
  - exact A1.
  - left. exact I2.
  - apply Forall_forall. intros c J. eapply cell_limit_fits; eauto.
  - eapply Forall_impl; [|exact I4]. intros n (K1 & K2). unfold note_fits, note_full. szs. lia.
Qed.
Lemma chunk_len f : forall l, Forall (fun rs : list range => (length rs <= 1027)%nat) (merged_chunks f l).
Proof.
  induction f; intro l; cbn [merged_chunks]; [constructor|]. destruct l; constructor; auto. rewrite firstn_length. lia.
Qed.
Lemma drawings_size ns : Forall note_fits ns -> forall sheet count i spid, Forall (fun rs => rsz rs <= B) (drawings_recs ns sheet count i spid).
Proof.
  induction 1 as [|n ns F G IH]; intros sheet count i spid; cbn [drawings_recs]; constructor; auto. clear IH.
  unfold drawing_recs. rewrite !rsz_cons. change (rsz []) with 0. rewrite draw_length. unfold draw_len.
  pose proof (ustr_le (note_full (renote n i)) NOLEN) as L. rewrite note_full_renote in L. unfold note_fits in F.
  change (zlen (obj_bytes (no_idx (renote n i)))) with 26. change (zlen (pl (draw_hdr 0 0 61453 0))) with 8.
  change (zlen (txo_bytes (zlen (note_full (renote n i))))) with 18.
  change (zlen (runs_bytes (zlen (no_author (renote n i)) + 2) (zlen (note_full (renote n i))))) with 24.
  rewrite note_full_renote. destruct (no_idx (renote n i) =? 0); lia.
Qed.
Lemma number_in ns : forall i n, In n (number_notes ns i) -> exists m j, In m ns /\ n = renote m j.
Proof.
  induction ns as [|m ns IH]; intros i n I; [destruct I|]. cbn [number_notes] in I. destruct I as [<-|I].
  - exists m, i. split; [left|]; reflexivity.
  - apply IH in I. destruct I as (m' & j & I & E). exists m', j. split; [right; exact I|exact E].
Qed.
Ltac fl := repeat apply Forall_cons; try apply Forall_nil.
Ltac fm := apply Forall_map; apply Forall_forall.
Lemma sheet_sizes ls ac pos s : sheet_inv s -> tight s -> sheet_ok ls s -> sheet_fits ls s -> sheet_limits B s ->
  Forall (fun rs => rsz rs <= B) (sheet_recs ls ac pos s).
Proof.
  intros I Ti (O & _) (_ & F) [A1 A2 A3 A4 A5]. destruct I as [I1 I2 I3 I4 I5 I6 I7]. rewrite Forall_forall in A2.
  assert (U : forall c, In c (sh_cells s) -> 0 <= c_row c /\ 0 <= c_col c).
  { intros c J. pose proof (ti_u32 _ Ti) as Tu. rewrite Forall_forall in Tu. specialize (Tu (c_row c, c_col c)).
    assert (K : In (c_row c, c_col c) (places s)). { unfold places. apply in_or_app. left. apply in_map_iff. exists c. auto. }
    specialize (Tu K). unfold u32 in Tu. cbn [fst snd] in Tu. lia. }
  unfold sheet_recs. apply Forall_app. split; [|apply Forall_app; split].
  - unfold head_recs. apply Forall_app. split; [|apply Forall_app; split].
    + fl; apply fr_le; try (unfold bof_bytes; szs; lia).
      unfold index_bytes, offs32. cbv zeta. szs. rewrite (flat_len _ 4) by reflexivity. rewrite zlen_cons.
      replace (zlen (index_offs _ _ _)) with (zlen (sblocks (sh_cells s))).
      2:{ generalize (pos + 20 + (20 + 4 * zlen (sblocks (sh_cells s))) + 8 + 16 * zlen (sh_cols s) + 6 + 18). generalize 0 at 1.
          induction (sblocks (sh_cells s)); intros; cbn [index_offs]; [reflexivity|]. rewrite !zlen_cons. f_equal. apply IHl. }
      destruct (sh_cells s) as [|c t] eqn:E; [change (sblocks []) with (@nil rbsize); rewrite zlen_nil; lia|].
      pose proof (sblocks_count (4 * (B - 24) + 3) (S (length t)) c t ltac:(lia) I1) as K.
      specialize (U c (or_introl eq_refl)).
      assert (K' : 16 * (zlen (sblocks (c :: t)) - 1) <= 4 * (B - 24) + 3 - c_row c).
      { apply K. apply Forall_forall. intros x J. destruct (A2 x J) as (Q & _). pose proof (Z.div_mod (c_row x) 4 ltac:(lia)).
        pose proof (Z.mod_pos_bound (c_row x) 4 ltac:(lia)). lia. }
      lia.
    + fm. intros c _. apply fr_le. unfold colinfo_bytes. szs. lia.
    + fl; apply fr_le; unfold dim_bytes; szs; lia.
  - unfold body_recs. unfold sheet_blocks in *. destruct (blocks_of _ _ _) as [bl|] eqn:E; [|constructor].
    pose proof (blocks_cells _ _ _ _ E) as Bc.
    assert (Bn : Forall (fun b => zlen (k_cells b) <= 16 * ((B - 42) / 32 + 1) + 1 /\ (length (k_rows b) <= 16)%nat) bl).
    { eapply blocks_count; [|exact I1| |exact E]. { pose proof (Z.div_pos (B - 42) 32). lia. }
      apply Forall_forall. intros c J. destruct (A2 c J) as (_ & Q & _). specialize (U c J). split; [lia|].
      enough (c_col c <= (B - 42) / 32) by lia. apply Z.div_le_lower_bound; lia. }
    apply Forall_flat_map. apply Forall_forall. intros b J. rewrite Forall_forall in Bn. specialize (Bn b J).
    unfold block_recs. apply Forall_app. split; [|apply Forall_app; split].
    + fm. intros r _. apply fr_le. unfold row_bytes. szs. lia.
    + fm. intros c K. apply cell_size_le; [lia|]. apply A2. rewrite <- Bc. eapply flat_map_In; eauto.
    + fl. apply fr_le. unfold dbcell_bytes, offs16. szs. rewrite (flat_len _ 2) by reflexivity. rewrite zlen_cons, zlen_map.
      assert (zlen (tl (k_cells b)) <= Z.max 0 (zlen (k_cells b) - 1)) by (destruct (k_cells b); cbn [tl]; [rewrite zlen_nil; lia|rewrite zlen_cons; lia]).
      pose proof (Z.mul_div_le (B - 42) 32 ltac:(lia)). lia.
  - unfold tail_recs. repeat (apply Forall_app; split).
    + apply drawings_size. exact F.
    + fm. intros n J. apply fr_le. unfold note_bytes. szs. apply number_in in J. destruct J as (m & j & J & ->).
      pose proof (ustr_le (no_author (renote m j)) LEN2). cbn [renote no_author] in *. rewrite Forall_forall in I4. specialize (I4 m J). lia.
    + fm. intros rs J. apply fr_le. unfold merged_bytes. szs. rewrite (flat_len _ 8) by reflexivity.
      pose proof (chunk_len (S (length (sh_merged s))) (sh_merged s)) as C. rewrite Forall_forall in C. specialize (C rs J). unfold zlen. lia.
    + fl. apply fr_le. change (zlen (window2_bytes (sh_index s =? ac))) with 18. lia.
    + destruct (_ && _)%bool; fl. apply fr_le. unfold pane_bytes. szs. lia.
    + fm. intros h J. apply fr_le. rewrite Forall_forall in A4. specialize (A4 h J). unfold hlink_bytes. cbv zeta. szs.
      change (zlen std_link_guid) with 16. change (zlen url_moniker_guid) with 16. rewrite (flat_len le16 2) by reflexivity.
      destruct (negb _); szs; rewrite ?(flat_len le16 2) by reflexivity; pose proof (zlen_nonneg _ (hl_mark h)); lia.
    + destruct (sh_dvs s) as [|d dvs] eqn:E; [constructor|]. constructor; [apply fr_le; unfold dval_bytes; szs; lia|].
      fm. intros x J. apply fr_le. rewrite Forall_forall in A5. apply A5. exact J.
    + fl. apply fr_le. rewrite zlen_nil. lia.
Qed.

(** Globals. *)
Lemma ghead_sizes w : winv w -> limits B w -> Forall (fun rs => rsz rs <= B) (ghead_recs (bk_g (wb_book w))).
Proof.
  intros I L. unfold ghead_recs. cbn [bk_g wb_book g_fs g_w1 g_palette].
  pose proof (li_fonts _ _ L) as Lf. apply Forall_app in Lf. destruct Lf as [Lf1 Lf2]. rewrite Forall_forall in Lf1, Lf2.
  assert (K : forall f, zlen (fo_name (fo_val f)) <= 4000 -> rsz [(RT_FONT, font_bytes (fo_val f))] <= B).
  { intros f Hf. apply fr_le. unfold font_bytes, pl. cbn [appended op_bytes]. pose proof (ustr_le (fo_name (fo_val f)) LEN1). szs. lia. }
  repeat (apply Forall_app; split).
  - fl; apply fr_le; try (unfold bof_bytes; szs; lia). unfold pl. cbn [appended op_bytes]. szs. lia.
  - fm. auto.
  - fm. auto.
  - fm. pose proof (li_formats _ _ L) as Lm. revert Lm. generalize 164. 
    induction (fs_formats (wb_fs w)) as [|f t IH]; intros n Lm x J; [destruct J|]. inversion Lm; subst. cbn [indexed_formats] in J.
    destruct J as [<-|J]; [|eapply IH; eauto]. apply fr_le. unfold format_bytes, pl. cbn [appended op_bytes fm_str fm_index].
    pose proof (ustr_le (fmo_str f) LEN2). szs. lia.
  - fm. intros x _. apply fr_le. unfold xbytes. szs. lia.
  - fm. intros x _. apply fr_le. unfold xbytes. szs. lia.
  - fm. intros x _. apply fr_le. szs. lia.
  - fl. apply fr_le. unfold palette_bytes, pl. cbn [appended op_bytes]. pose proof (wi_palette _ I) as P. szs. rewrite ?zlen_map.
    rewrite (flat_len _ 4) by (intros [[? ?] ?]; reflexivity). unfold zlen. rewrite P. lia.
Qed.
Lemma sst_total ls : forall t p, rsz (sst_frames t p ls) <= 4 + zlen p + 8228 * zlen ls.
Proof.
  induction ls as [|s ls IH]; intros t p; cbn [sst_frames].
  - rewrite rsz_one, zlen_nil. lia.
  - pose proof (sst_str_le s). rewrite zlen_cons. destruct (MAX_RECORD_SIZE <? _) eqn:E.
    + rewrite rsz_cons. specialize (IH RT_CONTINUE (ustr_bytes (sst_str s) LEN2)). lia.
    + specialize (IH t (p ++ ustr_bytes (sst_str s) LEN2)). rewrite zlen_app in IH. lia.
Qed.
Lemma sst_total_ok w : limits B w -> rsz (sst_recs (map snd (wb_labels w))) < 538968000.
Proof.
  intro L. pose proof (li_labels _ _ L). unfold sst_recs. pose proof (sst_total (map snd (wb_labels w)) RT_SST
    (le32 (zlen (map snd (wb_labels w))) ++ le32 (zlen (map snd (wb_labels w))))) as K. rewrite zlen_app, !zlen_le32, zlen_map in K. rewrite !zlen_map. lia.
Qed.
Lemma noted_len l : forall i, (length (noted_sheets l i) <= length l)%nat.
Proof. induction l as [|b t IH]; intro i; cbn [noted_sheets]; [auto|]. specialize (IH (i + 1)). destruct (_ =? _); cbn [length]; lia. Qed.
Lemma gtail_sizes w : winv w -> limits B w ->
  Forall (fun rs => rsz rs <= B \/ rs = sst_recs (map snd (wb_labels w))) (gtail_recs (bk_g (wb_book w))).
Proof.
  intros I L. unfold gtail_recs. cbn [bk_g wb_book g_bs g_labels].
  pose proof (li_few _ _ L) as Lf. pose proof (wi_len _ I) as Ln.
  repeat (apply Forall_app; split).
  - fl; left; apply fr_le; szs; [lia|]. rewrite (flat_len _ 6) by reflexivity. unfold zlen in *. rewrite seq_length. lia.
  - destruct (noted_sheets (wb_bs w) 0) as [|x l] eqn:E; [constructor|]. fl. left. apply fr_le.
    pose proof (noted_len (wb_bs w) 0) as K. rewrite E in K. rewrite <- E in *. unfold group_bytes. cbv zeta. szs.
    rewrite (flat_len _ 8) by (intros [? [? ?]]; reflexivity).
    rewrite E. change (zlen draw001) with 18. change (zlen draw002) with 16.
    change (zlen (pl (draw_hdr 3 3 61451 18))) with 8. change (zlen (pl (draw_hdr 0 4 61726 16))) with 8.
    match goal with |- context [pl (draw_hdr 15 0 61440 ?v)] => change (zlen (pl (draw_hdr 15 0 61440 v))) with 8 end.
    assert (zlen (combine (seq 0 (length (x :: l))) (x :: l)) <= 1000).
    { unfold zlen in *. rewrite combine_length, seq_length. rewrite E in K. lia. }
    lia.
  - destruct (wb_labels w) as [|x l] eqn:E; [constructor|]. fl. right. reflexivity.
  - fl. left. apply fr_le. rewrite zlen_nil. lia.
Qed.
Lemma unit_size u rs : uok u rs -> bu_size u = rsz rs.
Proof. intros [E _]. unfold bu_size, rsz. rewrite E. reflexivity. Qed.
Lemma sizes_F2 (P : bunit -> Prop) us rss : Forall2 uok us rss -> (forall u rs, In rs rss -> uok u rs -> P u) -> Forall P us.
Proof.
  induction 1 as [|u rs us rss K F IH]; intro H; constructor.
  - eapply H; [left; reflexivity|exact K].
  - apply IH. intros v r I. apply H. right. exact I.
Qed.

Definition small_unit (u : bunit) : Prop := bu_size u <= B \/ (bu_cont u = true /\ bu_size u < 538968000).
Lemma gtail_small w : winv w -> limits B w -> Forall small_unit (g_tail (bk_g (wb_book w))).
Proof.
  intros I L. pose proof (sst_total_ok w L) as T. pose proof (gtail_sizes w I L) as F.
  unfold g_tail. unfold gtail_recs in F. cbn [bk_g wb_book g_bs g_labels] in *.
  apply Forall_app in F. destruct F as [F1 F]. apply Forall_app in F. destruct F as [F2 F]. apply Forall_app in F. destruct F as [_ F3].
  assert (Kn : forall rs, rsz rs <= B \/ rs = sst_recs (map snd (wb_labels w)) -> (exists t p, rs = [(t, p)] /\ t <> RT_SST) -> rsz rs <= B).
  { intros rs [K|K] (t & p & E & N); [exact K|]. exfalso. rewrite E in K. unfold sst_recs in K.
    assert (Z0 : forall l q, hd_error (sst_frames RT_SST q l) <> None /\ forall r, hd_error (sst_frames RT_SST q l) = Some r -> fst r = RT_SST).
    { induction l as [|s l IH]; intro q; cbn [sst_frames]; [split; [discriminate|]; intros r Hr; injection Hr as <-; reflexivity|].
      destruct (_ <? _); [split; [discriminate|]; intros r Hr; injection Hr as <-; reflexivity|apply IH]. }
    destruct (Z0 (map snd (wb_labels w)) (le32 (zlen (map snd (wb_labels w))) ++ le32 (zlen (map snd (wb_labels w))))) as [_ Z1].
    rewrite <- K in Z1. specialize (Z1 _ eq_refl). exact (N Z1). }
  repeat (apply Forall_app; split).
  - inversion F1 as [|? ? G1 F1']; subst. inversion F1' as [|? ? G2 F1'']; subst. fl; left.
    + erewrite unit_size; [|apply uok_build; [apply build_supbook|ty]]. apply Kn; [exact G1|]. do 2 eexists. split; [reflexivity|discriminate].
    + erewrite unit_size; [|apply uok_build; [apply build_externsheet|ty]]. apply Kn; [exact G2|]. do 2 eexists. split; [reflexivity|discriminate].
  - destruct (noted_sheets (wb_bs w) 0); fl. left. inversion F2; subst.
    erewrite unit_size; [|apply uok_build; [apply build_group|ty]]. apply Kn; [assumption|]. do 2 eexists. split; [reflexivity|discriminate].
  - destruct (wb_labels w) as [|x l] eqn:El; fl. right. split; [reflexivity|]. unfold sst_unit, bu_size. cbn [bu_bytes g_labels bk_g wb_book].
    unfold rsz in T. rewrite (ubuild_eq _ _ (build_sst (map snd (x :: l)) ltac:(lia))). exact T.
  - fl. left. inversion F3; subst. erewrite unit_size; [|urec]. apply Kn; [assumption|]. do 2 eexists. split; [reflexivity|discriminate].
Qed.

Lemma sheets_limits w : winv2 w -> limits B w ->
  Forall (fun s => sheet_ok (wb_labels w) s /\ sheet_fits (wb_labels w) s /\ sheet_inv s /\ tight s /\ sheet_limits B s) (wb_sheets w).
Proof.
  intros [I T] L. apply Forall_forall. intros s J. 
  pose proof (wi_sheets _ I) as A1. rewrite Forall_forall in A1, T. pose proof (li_sheets _ _ L) as A2. rewrite Forall_forall in A2.
  assert (Sub : forall l, In l (slabels s) -> In l (wb_labels w)).
  { intros l K. eapply Permutation_in; [apply (wi_labels _ I)|]. apply in_flat_map. eauto. }
  destruct (sheet_limits_ok (wb_labels w) s (A1 s J) (wi_nodup _ I) Sub (A2 s J)) as [O F]. auto 8.
Qed.
Lemma sheets_small g ac : forall ss pos,
  Forall (fun s => sheet_ok (g_labels g) s /\ sheet_fits (g_labels g) s /\ sheet_inv s /\ tight s /\ sheet_limits B s) ss ->
  Forall (fun u => bu_size u <= B) (sheets_units g ac pos ss).
Proof.
  induction ss as [|s t IH]; intros pos F; cbn [sheets_units]; [constructor|]. inversion F as [|? ? (O & Fi & I & T & L) F']; subst. cbv zeta.
  apply Forall_app. split; [|apply IH; exact F'].
  eapply sizes_F2; [apply sheet_uok; eassumption|]. intros u rs K U. rewrite (unit_size _ _ U).
  pose proof (sheet_sizes (g_labels g) ac pos s I T O Fi L) as Z0. rewrite Forall_forall in Z0. auto.
Qed.
Theorem limits_ok w : winv2 w -> limits B w ->
  let b := wb_book w in
  book_ok (bk_g b) (bactive b) (bk_sheets b) /\ Forall (sheet_fits (wb_labels w)) (wb_sheets w)
  /\ Forall small_unit (all_units (bk_g b) (bactive b) (bk_sheets b)).
Proof.
  intros I2 L. cbv zeta. pose proof (w2_inv _ I2) as I. pose proof (sheets_limits w I2 L) as S.
  assert (Sm : Forall small_unit (all_units (bk_g (wb_book w)) (bactive (wb_book w)) (bk_sheets (wb_book w)))).
  { unfold all_units. apply Forall_app. split; [|apply Forall_app; split].
    - eapply sizes_F2; [apply ghead_uok|]. intros u rs K U. left. rewrite (unit_size _ _ U).
      pose proof (ghead_sizes w I L) as G. rewrite Forall_forall in G. auto.
    - apply gtail_small; auto.
    - eapply Forall_impl; [|apply sheets_small; exact S]. intros u K. left. exact K. }
  split; [|split; [|exact Sm]].
  - constructor.
    + split; [|split].
      * cbn. pose proof (wi_dfonts _ I) as Q. intro K. rewrite K in Q. discriminate.
      * cbn. pose proof (wi_dxfs _ I) as Q. intro K. rewrite K in Q. discriminate.
      * pose proof (sst_total_ok w L). cbn [bk_g wb_book g_labels]. unfold rsz in *. lia.
    + eapply Forall_impl; [|apply (li_names _ _ L)]. cbn. intros; lia.
    + apply (wi_len _ I).
    + apply (li_some _ _ L).
    + pose proof (li_few _ _ L). cbn [bk_sheets wb_book]. lia.
    + eapply Forall_impl; [|exact S]. intros s K. apply K.
    + eapply Forall_impl; [|exact Sm]. intros u [K|[_ K]]; lia.
  - eapply Forall_impl; [|exact S]. intros s K. apply K.
Qed.
End Limits.

(* ------------------------------------------------------------------ *)
(** * Saving *)

(** workbook.cpp 260-314: saving terminates, and leaves [stream] as the content of the
    Workbook stream and [after] as the sheets. *)
Definition saves (moves : Z -> nat -> bool) (w : wb) (stream : list Z) (after : list sheet) : Prop :=
  exists fuel units, book_units fuel moves (wb_book w) = Some (Ok (units, after)) /\ stream = concat units.

Lemma w_run_more g ac moves : forall f h d r, w_run f moves g ac d = Some r -> (f <= h)%nat -> w_run h moves g ac d = Some r.
Proof.
  induction f; intros h d r H L; [discriminate|]. destruct h; [lia|]. cbn [w_run] in *.
  destruct (w_step moves g ac d) as [[[|[l|]] d1]| |]; auto; (eapply IHf; [exact H|lia]).
Qed.
Lemma book_units_more moves b : forall f h r, book_units f moves b = Some r -> (f <= h)%nat -> book_units h moves b = Some r.
Proof.
  intros f h r H L. unfold book_units in *. destruct (sheets_estimate (bk_sheets b)) as [[n ss]| |]; auto. cbv zeta in *.
  destruct (w_run f _ _ _ _) as [q|] eqn:E; [|discriminate]. rewrite (w_run_more _ _ _ _ _ _ _ E L). exact H.
Qed.
Lemma stable_small moves N us : Forall (small_unit 8228) us -> stable moves N us.
Proof.
  intros F (u & I & O). exfalso. rewrite Forall_forall in F. specialize (F u I). unfold oversized in O.
  destruct F as [F|[F _]]; [lia|]. rewrite F in O. discriminate.
Qed.

(** The store of a saved document. *)
Definition store_of (w : wb) : list (list Z) := book_store (bk_g (wb_book w)) (bactive (wb_book w)) (wb_sheets w).
Definition stable_for (moves : Z -> nat -> bool) (w : wb) : Prop :=
  stable (moves (book_est (wb_book w))) (length (store_of w)) (all_units (bk_g (wb_book w)) (bactive (wb_book w)) (wb_sheets w)).
Theorem saves_iff B moves w stream after : winv2 w -> limits B w -> stable_for moves w ->
  (saves moves w stream after <-> stream = concat (store_of w) /\ after = map sheet_after (wb_sheets w)).
Proof.
  intros I L S. destruct (limits_ok B (li_B _ _ L) w I L) as (Bk & _ & _). cbv zeta in Bk.
  destruct (book_units_ok moves (wb_book w) Bk S) as (f0 & E). split.
  - intros (f & us & H & ->). specialize (E (Nat.max f0 f) ltac:(lia)).
    rewrite (book_units_more _ _ f (Nat.max f0 f) _ H ltac:(lia)) in E.
    assert (K : (us, after) = (book_store (bk_g (wb_book w)) (bactive (wb_book w)) (bk_sheets (wb_book w)), map sheet_after (bk_sheets (wb_book w)))).
    { apply ApiInv.ok_inj. revert E. generalize (Ok (us, after)). intros r Hr.
      exact (f_equal (fun o => match o with Some x => x | None => r end) Hr). }
    split; [exact (f_equal (fun q => concat (fst q)) K)|exact (f_equal snd K)].
  - intros [-> ->]. exists f0, (store_of w). split; [apply E; lia|reflexivity].
Qed.
Theorem saves_small moves w stream after : winv2 w -> limits 8228 w ->
  (saves moves w stream after <-> stream = concat (store_of w) /\ after = map sheet_after (wb_sheets w)).
Proof.
  intros I L. apply (saves_iff 8228); auto. apply stable_small. destruct (limits_ok 8228 (li_B _ _ L) w I L) as (_ & _ & S). exact S.
Qed.
Theorem store_records B w : winv2 w -> limits B w ->
  concat (store_of w) = frame_all (book_records (bk_g (wb_book w)) (bactive (wb_book w)) (wb_sheets w)) /\
  records (concat (store_of w)) = Some (book_records (bk_g (wb_book w)) (bactive (wb_book w)) (wb_sheets w)).
Proof.
  intros I L. destruct (limits_ok B (li_B _ _ L) w I L) as (Bk & F & _). cbv zeta in Bk. split.
  - apply (book_frames _ _ _ Bk F).
  - apply (book_split _ _ _ Bk F).
Qed.
