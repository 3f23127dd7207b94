(** Payloads of the individual records, and the records with more than one frame. *)
From Coq Require Import ZArith List Bool Lia.
From Coq Require Import ZifyBool ZifyNat.
From Verif Require Import Bytes UnitModel UnitProofs SpecBuf BufProofs RecModel SheetModel XfModel
  RecProofs.
Import ListNotations.
Local Open Scope Z_scope.
Ltac Zify.zify_post_hook ::= Z.div_mod_to_equations.

Lemma hstep_add t l p o b : op_bytes o = Some b -> hstep (t, l, p) o = Some (t, l, p ++ b).
Proof. intro H. unfold hstep. rewrite H. reflexivity. Qed.
Lemma hstep_set_l t l p v : hstep (t, l, p) (OSet16 v 2) = Some (t, v, p).
Proof. reflexivity. Qed.
Ltac hs := repeat (cbn [hrun];
  first [rewrite hstep_set_l | rewrite hstep_set_type | rewrite hstep_set_len | erewrite hstep_add by reflexivity]).

(** Payload of an append-only body. *)
Definition pl (body : list uop) : list Z := match appended body with Some p => p | None => [] end.
Definition app_only (body : list uop) : Prop := appended body <> None.
Lemma app_only_pl body : app_only body -> appended body = Some (pl body).
Proof. unfold app_only, pl. destruct (appended body); congruence. Qed.
Lemma app_only_app a b : app_only a -> app_only b -> app_only (a ++ b).
Proof.
  intros Ha Hb. unfold app_only. rewrite (appended_app _ _ _ _ (app_only_pl _ Ha) (app_only_pl _ Hb)). discriminate.
Qed.
Lemma pl_app a b : app_only a -> app_only b -> pl (a ++ b) = pl a ++ pl b.
Proof.
  intros Ha Hb. unfold pl at 1. rewrite (appended_app _ _ _ _ (app_only_pl _ Ha) (app_only_pl _ Hb)). reflexivity.
Qed.
Lemma app_only_map {A} (f : A -> uop) l : (forall x, op_bytes (f x) <> None) -> app_only (map f l).
Proof.
  intro H. induction l as [|x t IH]; [discriminate|]. unfold app_only in *. cbn [map appended].
  destruct (op_bytes (f x)) eqn:E; [|elim (H x); auto]. destruct (appended (map f t)); congruence.
Qed.
Lemma app_only_flat {A} (f : A -> list uop) l : (forall x, app_only (f x)) -> app_only (flat_map f l).
Proof. intro H. induction l as [|x t IH]; [discriminate|]. cbn [flat_map]. apply app_only_app; auto. Qed.
Lemma app_only_nil : app_only [].
Proof. discriminate. Qed.

Lemma build_rec t body : app_only body -> build (record t body) = Ok (mkBU (frame t (pl body)) false).
Proof. intro H. apply build_record, app_only_pl, H. Qed.

Lemma hrun_pl body t l p : app_only body -> hrun (t, l, p) body = Some (t, l, p ++ pl body).
Proof. intro H. apply hrun_appended, app_only_pl, H. Qed.

(** appends that repeatedly refresh the length. *)
Lemma hrun_relen {A} (f : A -> list uop) xs : (forall x, app_only (f x)) -> forall t p,
  hrun (t, zlen p, p) (flat_map (fun x => f x ++ [set_len]) xs) =
  Some (t, zlen (p ++ pl (flat_map f xs)), p ++ pl (flat_map f xs)).
Proof.
  intro H. induction xs as [|x xs IH]; intros t p; cbn [flat_map].
  - cbn [hrun]. change (pl []) with (@nil Z). rewrite app_nil_r. reflexivity.
  - rewrite !hrun_app, hrun_pl by auto. cbn [hrun]. rewrite hstep_set_len, IH.
    rewrite pl_app by (auto using app_only_flat). rewrite <- !app_assoc. reflexivity.
Qed.

Definition offs32 (l : list Z) : list Z := flat_map le32 l.
Definition offs16 (l : list Z) : list Z := flat_map le16 l.
Lemma pl_flat_one {A} (o : A -> uop) (g : A -> list Z) l :
  (forall x, op_bytes (o x) = Some (g x)) -> pl (flat_map (fun x => [o x]) l) = flat_map g l.
Proof.
  intro H. unfold pl. rewrite (appended_flat _ g).
  - reflexivity.
  - intro x. cbn [appended]. rewrite H. rewrite app_nil_r. reflexivity.
Qed.

Lemma build_index fr lr offs :
  build (rec_index fr lr offs) =
  Ok (mkBU (frame RT_INDEX (le32 0 ++ le32 fr ++ le32 (lr + 1) ++ offs32 offs)) false).
Proof.
  unfold rec_index, record. cbn [app].
  apply build_frame. hs.
  change (flat_map (fun o => [OAdd32 o; set_len]) offs)
    with (flat_map (fun o => [OAdd32 o] ++ [set_len]) offs).
  rewrite hrun_relen by (intro; discriminate). rewrite (pl_flat_one _ le32) by reflexivity.
  unfold offs32. rewrite <- !app_assoc. reflexivity.
Qed.

Lemma build_dbcell st offs :
  build (rec_dbcell st offs) = Ok (mkBU (frame RT_DBCELL (le32 st ++ offs16 offs)) false).
Proof.
  unfold rec_dbcell, record. cbn [app]. apply build_frame. hs.
  change (flat_map (fun o => [OAdd16 o; set_len]) offs)
    with (flat_map (fun o => [OAdd16 o] ++ [set_len]) offs).
  rewrite hrun_relen by (intro; discriminate). rewrite (pl_flat_one _ le16) by reflexivity.
  reflexivity.
Qed.

Definition range_bytes (r : range) : list Z :=
  le16 (rg_fr r) ++ le16 (rg_lr r) ++ le16 (rg_fc r) ++ le16 (rg_lc r).
Lemma build_merged rs :
  build (rec_merged rs) = Ok (mkBU (frame RT_MERGEDCELLS (le16 (zlen rs) ++ flat_map range_bytes rs)) false).
Proof.
  unfold rec_merged, record. cbn [app]. apply build_frame. hs. cbn [hstep op_bytes Z.eqb].
  unfold hset. cbn [andb Z.leb Z.ltb Z.compare Pos.compare Pos.compare_cont].
  change (4 - 4) with 0. cbn [app].
  replace (snd (aset_bytes NO_ERRORS (le16 (zlen rs)) 0 (le16 0))) with (le16 (zlen rs)).
  2:{ pose proof (aset16_0 (zlen rs) 0 [] []) as H. rewrite !app_nil_r in H. rewrite H. reflexivity. }
  change (zlen (le16 0)) with (zlen (le16 (zlen rs))).
  set (f := fun r => [OAdd16 (rg_fr r); OAdd16 (rg_lr r); OAdd16 (rg_fc r); OAdd16 (rg_lc r)]).
  change (flat_map (fun r => [OAdd16 (rg_fr r); OAdd16 (rg_lr r); OAdd16 (rg_fc r); OAdd16 (rg_lc r); set_len]) rs)
    with (flat_map (fun r => f r ++ [set_len]) rs).
  cbn [Pos.eqb]. cbv beta iota.
  rewrite hrun_relen by (intro; discriminate).
  replace (pl (flat_map f rs)) with (flat_map range_bytes rs); [reflexivity|].
  unfold pl. rewrite (appended_flat f range_bytes) by reflexivity. reflexivity.
Qed.

Lemma build_supbook n :
  build (rec_supbook n) = Ok (mkBU (frame RT_SUPBOOK (le16 n ++ [1; 4])) false).
Proof. reflexivity. Qed.

Definition ext_bytes (i : nat) : list Z := le16 0 ++ le16 (Z.of_nat i) ++ le16 (Z.of_nat i).
Lemma flat_map_const_len {A B} (f : A -> list B) k l : (forall x, zlen (f x) = k) -> zlen (flat_map f l) = zlen l * k.
Proof.
  intro H. induction l as [|x t IH]; cbn [flat_map]; [reflexivity|]. rewrite zlen_app, H, IH, zlen_cons. lia.
Qed.
Lemma build_externsheet n :
  build (rec_externsheet n) =
  Ok (mkBU (frame RT_EXTERNSHEET (le16 (Z.of_nat n) ++ flat_map ext_bytes (seq 0 n))) false).
Proof.
  unfold rec_externsheet. cbn [app]. apply build_frame. cbn [hrun].
  unfold hstep at 1. cbn [op_bytes]. rewrite zlen_nil.
  replace ((0 <? 4 + 2 + Z.of_nat n * 6) && (4 + 0 <=? 4 + 2 + Z.of_nat n * 6))%bool with true by lia.
  hs. cbn [app].
  rewrite hrun_pl by (apply app_only_flat; intro; discriminate).
  set (f := fun i : nat => [OAdd16 0; OAdd16 (Z.of_nat i); OAdd16 (Z.of_nat i)]).
  replace (pl (flat_map f (seq 0 n))) with (flat_map ext_bytes (seq 0 n)).
  - f_equal. f_equal. f_equal. rewrite zlen_app, zlen_le16.
    rewrite (flat_map_const_len _ 6) by reflexivity. unfold zlen. rewrite seq_length. lia.
  - unfold pl. rewrite (appended_flat f ext_bytes) by reflexivity. reflexivity.
Qed.

Lemma build_defrowheight h :
  build (rec_defrowheight h) =
  Ok (mkBU (frame RT_DEFAULTROWHEIGHT (le16 (if h =? 15 then 0 else 1) ++ le16 (h * 20))) false).
Proof. reflexivity. Qed.
Lemma build_defcolwidth w :
  build (rec_defcolwidth w) = Ok (mkBU (frame RT_DEFCOLWIDTH (le16 w)) false).
Proof. reflexivity. Qed.
Lemma build_pane r c :
  build (rec_pane r c) =
  Ok (mkBU (frame RT_PANE (le16 c ++ le16 r ++ le16 r ++ le16 c ++
                           le16 (if r =? 0 then 1 else if c =? 0 then 2 else 0))) false).
Proof. reflexivity. Qed.

Lemma build_dval n :
  build (rec_dval n) =
  Ok (mkBU (frame RT_DVAL (le16 0 ++ le32 0 ++ le32 0 ++ le32 4294967295 ++ le32 n)) false).
Proof. reflexivity. Qed.

Definition cond_bytes (c : option (list Z)) : list Z := pl (dv_cond c).
Definition dv_bytes (d : dvalid) : list Z :=
  le32 (dv_options d) ++ ustr_bytes (dv_ptitle d) LEN2 ++ ustr_bytes (dv_etitle d) LEN2 ++
  ustr_bytes (dv_ptext d) LEN2 ++ ustr_bytes (dv_etext d) LEN2 ++ cond_bytes (dv_cond1 d) ++
  cond_bytes (dv_cond2 d) ++ le16 1 ++ range_bytes (dv_range d).
Lemma dv_cond_app c : app_only (dv_cond c).
Proof. destruct c; discriminate. Qed.
Lemma build_dv d : build (rec_dv d) = Ok (mkBU (frame RT_DV (dv_bytes d)) false).
Proof.
  unfold rec_dv. cbn [app]. apply build_frame. cbn [hrun].
  change (hstep (0, 0, []) (OInflate 32)) with (Some (0, 0, @nil Z)). cbv beta iota.
  hs. rewrite !hrun_app, hrun_pl by apply dv_cond_app.
  rewrite hrun_app, hrun_pl by apply dv_cond_app. hs.
  unfold dv_bytes, range_bytes, cond_bytes. rewrite <- !app_assoc. reflexivity.
Qed.

Definition hlink_bytes (h : hlink) : list Z :=
  let hasmark := negb (zlen (hl_mark h) =? 0) in
  le16 (hl_row h) ++ le16 (hl_row h) ++ le16 (hl_col h) ++ le16 (hl_col h) ++ std_link_guid
  ++ le32 2 ++ le32 (if hasmark then 11 else 3) ++ url_moniker_guid
  ++ le32 ((zlen (hl_url h) + 1) * 2) ++ flat_map le16 (hl_url h) ++ le16 0
  ++ (if hasmark then le32 (zlen (hl_mark h) + 1) ++ flat_map le16 (hl_mark h) ++ le16 0 else []).
Lemma build_hlink h : build (rec_hlink h) = Ok (mkBU (frame RT_HLINK (hlink_bytes h)) false).
Proof.
  unfold rec_hlink. cbv zeta. cbn [app]. apply build_frame. cbn [hrun].
  unfold hstep at 1. cbn [op_bytes]. rewrite zlen_nil.
  pose proof (zlen_nonneg _ (hl_url h)). pose proof (zlen_nonneg _ (hl_mark h)).
  match goal with |- context [(?x && ?y)%bool] => replace (x && y)%bool with true end.
  2:{ destruct (negb (zlen (hl_mark h) =? 0)); lia. }
  hs.
  change (map (byte_k 0) std_link_guid) with std_link_guid.
  change (map (byte_k 0) url_moniker_guid) with url_moniker_guid.
  rewrite !hrun_app, hrun_pl by (apply app_only_map; discriminate).
  replace (pl (map OAdd16 (hl_url h))) with (flat_map le16 (hl_url h)).
  2:{ unfold pl. rewrite (appended_map _ le16) by reflexivity. reflexivity. }
  hs.
  rewrite hrun_app.
  unfold hlink_bytes. destruct (negb (zlen (hl_mark h) =? 0)) eqn:E.
  - cbn [app]. hs. rewrite hrun_app.
    rewrite hrun_pl by (apply app_only_map; discriminate).
    replace (pl (map OAdd16 (hl_mark h))) with (flat_map le16 (hl_mark h)).
    2:{ unfold pl. rewrite (appended_map _ le16) by reflexivity. reflexivity. }
    hs.
    replace ((zlen (hl_mark h) + 1) * 2 / 2) with (zlen (hl_mark h) + 1) by lia.
    rewrite <- !app_assoc. reflexivity.
  - hs. rewrite <- !app_assoc. rewrite app_nil_r. reflexivity.
Qed.

Definition note_bytes (n : note) : list Z :=
  le16 (no_row n) ++ le16 (no_col n) ++ le16 0 ++ le16 (no_idx n + 1) ++
  ustr_bytes (no_author n) LEN2 ++ [0].
Lemma build_note n : build (rec_note n) = Ok (mkBU (frame RT_NOTE (note_bytes n)) false).
Proof.
  unfold rec_note. apply build_frame. cbn [hrun]. unfold hstep at 1. cbn [op_bytes]. rewrite zlen_nil.
  pose proof (zlen_nonneg _ (no_author n)).
  match goal with |- context [(?x && ?y)%bool] => replace (x && y)%bool with true end.
  2:{ destruct (is_ascii (no_author n)); lia. }
  hs.
  unfold note_bytes. rewrite <- !app_assoc. reflexivity.
Qed.

(** SST: a first record and CONTINUEs; strings never straddle a boundary. *)
Definition str_len (s : list Z) : Z := unicode_string_length s LEN2.
Lemma str_len_bytes s : zlen (ustr_bytes s LEN2) = str_len s.
Proof. apply unicode_length_ok. Qed.

(** [sst_frames labels p]: frames when the payload so far of the current frame (of type
    [t]) is [p]. *)
Fixpoint sst_frames (t : Z) (p : list Z) (ls : list (list Z)) : list (Z * list Z) :=
  match ls with
  | [] => [(t, p)]
  | s :: rest =>
      let b := ustr_bytes (sst_str s) LEN2 in
      if MAX_RECORD_SIZE <? zlen p + zlen b then (t, p) :: sst_frames RT_CONTINUE b rest
      else sst_frames t (p ++ b) rest
  end.

Lemma frame_all_one t p : frame_all [(t, p)] = frame t p.
Proof. unfold frame_all. cbn [flat_map fst snd]. apply app_nil_r. Qed.
Lemma zlen_frame_all_app a b : zlen (frame_all (a ++ b)) = zlen (frame_all a) + zlen (frame_all b).
Proof. rewrite frame_all_app, zlen_app. reflexivity. Qed.

Lemma sst_loop_ok ls : forall t p done_,
  zlen (frame_all done_) + zlen (frame_all (sst_frames t p ls)) < 4294967000 ->
  exists es, arun_ops (Some (frame_all done_ ++ le16 t ++ le16 0 ++ p))
               (sst_loop ls (zlen (frame_all done_) + 4 + zlen p) (zlen (frame_all done_))) =
             Ok (es, Some (frame_all done_ ++ frame_all (sst_frames t p ls))).
Proof.
  assert (K : forall t p done_ v, zlen (frame_all done_) < 4294967000 -> v = zlen p ->
     snd (aset_bytes NO_ERRORS (le16 v) (zlen (frame_all done_) + 2) (frame_all done_ ++ le16 t ++ le16 0 ++ p))
       = frame_all done_ ++ frame t p).
  { intros t p done_ v Hlt ->. rewrite aset_bytes_app_r by (rewrite ?zlen_le16; lia). cbn [snd].
    f_equal. replace (zlen (frame_all done_) + 2 - zlen (frame_all done_)) with 2 by lia.
    rewrite aset16_2. reflexivity. }
  assert (Kd : forall rs, 0 <= zlen (frame_all rs)) by (intro; apply zlen_nonneg).
  induction ls as [|s rest IH]; intros t p done_ Hsz; cbn [sst_loop sst_frames] in *.
  - cbn [arun_ops arun_op amap].
    specialize (K t p done_ (zlen (frame_all done_) + 4 + zlen p - zlen (frame_all done_) - RECORD_HEADER_SIZE)).
    rewrite frame_all_cons in Hsz. cbn [fst snd frame_all flat_map] in Hsz. rewrite app_nil_r, frame_length in Hsz.
    pose proof (zlen_nonneg _ p).
    destruct (aset_bytes _ _ _ _) as [e l'] eqn:E in |- *. cbn [snd] in K.
    assert (l' = frame_all done_ ++ frame t p).
    { change l' with (snd (e, l')). rewrite <- E. apply K; [lia|unfold RECORD_HEADER_SIZE; lia]. }
    subst l'. cbn [bind]. exists [e]. rewrite frame_all_one. reflexivity.
  - pose proof (zlen_nonneg _ p).
    change (unicode_string_length (sst_str s) LEN2) with (str_len (sst_str s)). rewrite <- str_len_bytes.
    set (b := ustr_bytes (sst_str s) LEN2) in *. pose proof (zlen_nonneg _ b).
    replace (MAX_RECORD_SIZE + 4 <? zlen (frame_all done_) + 4 + zlen p - zlen (frame_all done_) + zlen b)
      with (MAX_RECORD_SIZE <? zlen p + zlen b) by lia.
    destruct (MAX_RECORD_SIZE <? zlen p + zlen b) eqn:Eb.
    + rewrite frame_all_cons in Hsz. cbn [fst snd] in Hsz. rewrite zlen_app, frame_length in Hsz.
      cbn [app arun_ops arun_op amap].
      specialize (K t p done_ (zlen (frame_all done_) + 4 + zlen p - zlen (frame_all done_) - RECORD_HEADER_SIZE)).
      pose proof (Kd (sst_frames RT_CONTINUE b rest)).
      destruct (aset_bytes NO_ERRORS
                  (le16 (zlen (frame_all done_) + 4 + zlen p - zlen (frame_all done_) - RECORD_HEADER_SIZE))
                  (zlen (frame_all done_) + 2) (frame_all done_ ++ le16 t ++ le16 0 ++ p)) as [e l'] eqn:E.
      cbn [snd] in K.
      assert (l' = frame_all done_ ++ frame t p).
      { apply K; [lia|unfold RECORD_HEADER_SIZE; lia]. }
      subst l'. cbn [bind].
      specialize (IH RT_CONTINUE b (done_ ++ [(t, p)])).
      assert (Ed : frame_all (done_ ++ [(t, p)]) = frame_all done_ ++ frame t p).
      { rewrite frame_all_app, frame_all_one. reflexivity. }
      rewrite Ed in IH. rewrite zlen_app, frame_length in IH.
      destruct IH as [es Es]; [lia|].
      change (repeat (byte_k 0 0) (Z.to_nat 4)) with (le16 0 ++ le16 0 ++ []).
      cbn [amap]. rewrite aset_bytes_app_r.
      2:{ rewrite zlen_app, frame_length. lia. }
      2:{ rewrite zlen_le16. lia. }
      cbn [bind]. rewrite zlen_app, frame_length.
      replace (zlen (frame_all done_) + 4 + zlen p - (zlen (frame_all done_) + (4 + zlen p))) with 0 by lia.
      rewrite aset16_0. cbn [fst snd bind amap]. fold b.
      replace (((frame_all done_ ++ frame t p) ++ le16 RT_CONTINUE ++ le16 0 ++ []) ++ b)
        with ((frame_all done_ ++ frame t p) ++ le16 RT_CONTINUE ++ le16 0 ++ b)
        by (rewrite app_nil_r, <- !app_assoc; reflexivity).
      replace (zlen (frame_all done_) + 4 + zlen p + 4 + zlen b)
        with (zlen (frame_all done_) + (4 + zlen p) + 4 + zlen b) by lia.
      replace (zlen (frame_all done_) + 4 + zlen p) with (zlen (frame_all done_) + (4 + zlen p)) by lia.
      rewrite Es. cbn [bind]. eexists. rewrite frame_all_cons. cbn [fst snd].
      rewrite <- !app_assoc. reflexivity.
    + cbn [arun_ops arun_op amap bind]. destruct (IH t (p ++ b) done_) as [es Es]; [auto|].
      fold b. replace ((frame_all done_ ++ le16 t ++ le16 0 ++ p) ++ b)
        with (frame_all done_ ++ le16 t ++ le16 0 ++ p ++ b) by (rewrite <- !app_assoc; reflexivity).
      replace (zlen (frame_all done_) + 4 + zlen p + zlen b) with (zlen (frame_all done_) + 4 + zlen (p ++ b))
        by (rewrite zlen_app; lia).
      rewrite Es. cbn [bind]. eauto.
Qed.

Definition sst_recs (ls : list (list Z)) : list (Z * list Z) :=
  sst_frames RT_SST (le32 (zlen ls) ++ le32 (zlen ls)) ls.
Lemma build_sst ls : zlen (frame_all (sst_recs ls)) < 4294967000 ->
  build (rec_sst ls) = Ok (mkBU (frame_all (sst_recs ls)) false).
Proof.
  intro H. unfold rec_sst. unfold build. cbn [app arun_ops rec_new arun_op amap bind].
  change (map (byte_k 0) [0; 0; 0; 0]) with (le16 0 ++ le16 0 ++ []). cbn [amap]. rewrite aset16_0. cbn [bind amap].
  destruct (sst_loop_ok ls RT_SST (le32 (zlen ls) ++ le32 (zlen ls)) []) as [es Es]; [exact H|].
  cbn [frame_all flat_map app] in Es. change (zlen (@nil Z)) with 0 in Es.
  change (0 + 4 + zlen (le32 (zlen ls) ++ le32 (zlen ls))) with 12 in Es.
  replace (((le16 RT_SST ++ le16 0 ++ []) ++ le32 (zlen ls)) ++ le32 (zlen ls))
    with (le16 RT_SST ++ le16 0 ++ le32 (zlen ls) ++ le32 (zlen ls)) by reflexivity.
  rewrite Es. reflexivity.
Qed.

(** Patching a two-byte piece of the payload. *)
Lemma hstep_sz_piece t l p a old c i base : p = a ++ old ++ c -> length old = 2%nat ->
  i = 4 + zlen a -> i < 4294967280 ->
  hstep (t, l, p) (OSetSz16 i base) = Some (t, l, a ++ le16 (4 + zlen p - base) ++ c).
Proof.
  intros Hp Ho Hi Hlt. pose proof (zlen_nonneg _ a). unfold hstep. cbn [op_bytes].
  destruct (Z.eqb_spec i 2); [lia|]. unfold hset.
  replace ((4 <=? i) && (i <? 4294967280))%bool with true by lia.
  rewrite Hp. rewrite aset_bytes_piece; auto using le16_ok; try lia. rewrite zlen_le16. lia.
Qed.
Lemma hstep_set32_piece t l a old c v i : length old = 4%nat ->
  i = 4 + zlen a -> i < 4294967280 ->
  hstep (t, l, a ++ old ++ c) (OSet32 v i) = Some (t, l, a ++ le32 v ++ c).
Proof.
  intros Ho Hi Hlt. pose proof (zlen_nonneg _ a). unfold hstep. cbn [op_bytes]. unfold hset.
  replace ((4 <=? i) && (i <? 4294967280))%bool with true by lia.
  rewrite aset_bytes_piece; auto using le32_ok; try lia. rewrite zlen_le32. lia.
Qed.

Definition fml_head (row col xf : Z) (e : estimate) : list Z :=
  le16 row ++ le16 col ++ le16 xf ++ le64 (fe_enc e) ++ le16 (fe_flags e) ++ le32 0.
Definition arr_head (row col : Z) (e : estimate) : list Z :=
  le16 row ++ le16 row ++ [byte_k 0 col] ++ [byte_k 0 col] ++ le16 (fe_flags e) ++ le32 0.
Definition tok_bytes (toks : list Z) : list Z := map (byte_k 0) toks.
Definition fml_recs (row col xf : Z) (arr : bool) (toks : list Z) (e : estimate) : list (Z * list Z) :=
  (if arr then
     [(RT_FORMULA, fml_head row col xf e ++ le16 5 ++ [1] ++ le16 row ++ le16 col);
      (RT_ARRAY, arr_head row col e ++ le16 (zlen toks) ++ tok_bytes toks)]
   else [(RT_FORMULA, fml_head row col xf e ++ le16 (zlen toks) ++ tok_bytes toks)])
  ++ match fe_str e with None => [] | Some s => [(RT_STRING, ustr_bytes s LEN2)] end.

Lemma build_formula row col xf arr toks e : zlen toks < 4294900000 ->
  build (rec_formula row col xf arr toks e) = Ok (mkBU (frame_all (fml_recs row col xf arr toks e)) false).
Proof.
  intro Ht. pose proof (zlen_nonneg _ toks).
  assert (Zt : zlen (tok_bytes toks) = zlen toks) by apply zlen_map.
  unfold rec_formula, fml_recs. cbv zeta. cbn [app].
  destruct arr.
  - cbn [app].
    set (A := fml_head row col xf e).
    assert (ZA : zlen A = 20) by reflexivity.
    set (B := le16 5 ++ [1] ++ le16 row ++ le16 col).
    assert (ZB : zlen B = 7) by reflexivity.
    set (C := arr_head row col e). assert (ZC : zlen C = 12) by reflexivity.
    set (tail := match fe_str e with None => _ | Some _ => _ end).
    assert (G : hrun (0, 0, []) 
      (set_type RT_FORMULA :: OAdd16 row :: OAdd16 col :: OAdd16 xf :: OAdd64 (fe_enc e) :: OAdd16 (fe_flags e)
       :: OAdd32 0 :: OAdd16 5 :: OAdd8 1 :: OAdd16 row :: OAdd16 col :: set_len :: OAdd16 RT_ARRAY :: OAdd16 0
       :: OAdd16 row :: OAdd16 row :: OAdd8 col :: OAdd8 col :: OAdd16 (fe_flags e) :: OAdd32 0 :: OAdd16 0
       :: OAppend toks :: OSetSz16 47 (47 + 2) :: OSetSz16 (31 + 2) (31 + 4) :: tail)
      = hrun (RT_FORMULA, 27, A ++ B ++ frame RT_ARRAY (C ++ le16 (zlen toks) ++ tok_bytes toks)) tail).
    { hs.
      match goal with |- context [hstep (?t, ?l, ?p) (OSetSz16 47 _)] =>
        rewrite (hstep_sz_piece t l p (A ++ B ++ le16 RT_ARRAY ++ le16 0 ++ C) (le16 0) (tok_bytes toks)) end.
      2: { unfold A, B, C, fml_head, arr_head. rewrite <- !app_assoc. reflexivity. }
      2: reflexivity. 2: reflexivity. 2: lia.
      cbv beta iota. 
      match goal with |- context [hstep (?t, ?l, ?p) (OSetSz16 (31 + 2) _)] =>
        rewrite (hstep_sz_piece t l p (A ++ B ++ le16 RT_ARRAY) (le16 0)
           (C ++ le16 (zlen toks) ++ tok_bytes toks)) end.
      2: { rewrite <- !app_assoc. repeat (apply f_equal2; [reflexivity|]). apply f_equal2; [|reflexivity].
           apply f_equal. rewrite !zlen_app, !zlen_le16, !zlen_le64, !zlen_le32.
           fold (tok_bytes toks). rewrite Zt. rewrite !zlen_cons, !zlen_nil. lia. }
      2: reflexivity. 2: reflexivity. 2: lia.
      match goal with |- context [le16 (4 + zlen ?p - (31 + 4))] =>
        replace (4 + zlen p - (31 + 4)) with (zlen (C ++ le16 (zlen toks) ++ tok_bytes toks)) end.
      - unfold frame. rewrite <- !app_assoc. reflexivity.
      - rewrite !zlen_app, !zlen_le16, ZA, ZB, ZC, Zt. lia. }
    assert (FAB : frame RT_FORMULA (A ++ B) = le16 RT_FORMULA ++ le16 27 ++ A ++ B) by reflexivity.
    assert (ZF : zlen (frame RT_ARRAY (C ++ le16 (zlen toks) ++ tok_bytes toks)) = 4 + 14 + zlen toks).
    { rewrite frame_length, !zlen_app, zlen_le16, ZC, Zt. lia. }
    destruct (fe_str e) as [s|] eqn:Es; unfold tail in *; clear tail.
    + erewrite (build_hrun _ RT_FORMULA 27
         (A ++ B ++ frame RT_ARRAY (C ++ le16 (zlen toks) ++ tok_bytes toks) ++ frame RT_STRING (ustr_bytes s LEN2))).
      * unfold frame_all. cbn [flat_map app fst snd]. rewrite app_nil_r.
        change (frame RT_FORMULA (A ++ le16 5 ++ 1 :: le16 row ++ le16 col)) with (frame RT_FORMULA (A ++ B)).
        rewrite FAB, <- !app_assoc. reflexivity.
      * rewrite G. clear G. hs.
        match goal with |- context [hstep (?t, ?l, ?p) (OSetSz16 ?i ?b)] =>
          rewrite (hstep_sz_piece t l p (A ++ B ++ frame RT_ARRAY (C ++ le16 (zlen toks) ++ tok_bytes toks) ++ le16 RT_STRING)
                     (le16 0) (ustr_bytes s LEN2)) end.
        -- cbv beta iota.
           match goal with |- context [le16 (4 + zlen ?p - ?b)] =>
             replace (4 + zlen p - b) with (zlen (ustr_bytes s LEN2)) end.
           ++ change (frame RT_STRING (ustr_bytes s LEN2)) with
                (le16 RT_STRING ++ le16 (zlen (ustr_bytes s LEN2)) ++ ustr_bytes s LEN2).
              rewrite <- !app_assoc. reflexivity.
           ++ rewrite !zlen_app, !zlen_le16, ZA, ZB, ZF. lia.
        -- rewrite <- !app_assoc. reflexivity.
        -- reflexivity.
        -- rewrite !zlen_app, !zlen_le16, ZA, ZB, ZF. lia.
        -- lia.
    + erewrite build_hrun by (rewrite G; reflexivity).
      unfold frame_all. cbn [flat_map app fst snd]. rewrite app_nil_r.
        change (frame RT_FORMULA (A ++ le16 5 ++ 1 :: le16 row ++ le16 col)) with (frame RT_FORMULA (A ++ B)).
        rewrite FAB, <- !app_assoc. reflexivity.
  - cbn [app].
    set (A := fml_head row col xf e).
    assert (ZA : zlen A = 20) by reflexivity.
    set (tail := match fe_str e with None => _ | Some _ => _ end).
    assert (G : hrun (0, 0, []) 
      (set_type RT_FORMULA :: OAdd16 row :: OAdd16 col :: OAdd16 xf :: OAdd64 (fe_enc e) :: OAdd16 (fe_flags e)
       :: OAdd32 0 :: OAdd16 0 :: OAppend toks :: OSetSz16 24 (24 + 2) :: OSetSz16 (0 + 2) (0 + 4) :: tail)
      = hrun (RT_FORMULA, 22 + zlen toks, A ++ le16 (zlen toks) ++ tok_bytes toks) tail).
    { hs.
      match goal with |- context [hstep (?t, ?l, ?p) (OSetSz16 24 _)] =>
        rewrite (hstep_sz_piece t l p A (le16 0) (tok_bytes toks)) end.
      2: { unfold A, fml_head. rewrite <- !app_assoc. reflexivity. }
      2: reflexivity. 2: reflexivity. 2: lia.
      cbv beta iota. change (OSetSz16 (0 + 2) (0 + 4)) with set_len. rewrite hstep_set_len.
      f_equal. f_equal; [f_equal|f_equal; f_equal; f_equal].
      - rewrite !zlen_app, zlen_le16, ZA, Zt. lia.
      - rewrite !zlen_app, !zlen_le16, !zlen_le64, !zlen_le32. fold (tok_bytes toks). rewrite Zt, zlen_nil. lia. }
    assert (ZL : zlen (A ++ le16 (zlen toks) ++ tok_bytes toks) = 22 + zlen toks).
    { rewrite !zlen_app, zlen_le16, ZA, Zt. lia. }
    destruct (fe_str e) as [s|] eqn:Es; unfold tail in *; clear tail.
    + erewrite (build_hrun _ RT_FORMULA (22 + zlen toks)
         (A ++ le16 (zlen toks) ++ tok_bytes toks ++ frame RT_STRING (ustr_bytes s LEN2))).
      * unfold frame_all. cbn [flat_map app fst snd]. rewrite app_nil_r. unfold frame at 2. rewrite ZL.
        rewrite <- !app_assoc. reflexivity.
      * rewrite G. clear G. hs.
        match goal with |- context [hstep (?t, ?l, ?p) (OSetSz16 ?i ?b)] =>
          rewrite (hstep_sz_piece t l p (A ++ le16 (zlen toks) ++ tok_bytes toks ++ le16 RT_STRING)
                     (le16 0) (ustr_bytes s LEN2)) end.
        -- cbv beta iota.
           match goal with |- context [le16 (4 + zlen ?p - ?b)] =>
             replace (4 + zlen p - b) with (zlen (ustr_bytes s LEN2)) end.
           ++ unfold frame. rewrite <- !app_assoc. reflexivity.
           ++ rewrite !zlen_app, !zlen_le16, ZA, Zt. lia.
        -- rewrite <- !app_assoc. reflexivity.
        -- reflexivity.
        -- rewrite !zlen_app, !zlen_le16, ZA, Zt. lia.
        -- lia.
    + erewrite build_hrun by (rewrite G; reflexivity).
      unfold frame_all. cbn [flat_map app fst snd]. rewrite app_nil_r. unfold frame. rewrite ZL. reflexivity.
Qed.

(** Notes: the drawing unit is five records. *)
Definition draw_first (n : note) (sheet spid count : Z) : list uop :=
  if no_idx n =? 0 then draw_container sheet spid count else [].
Definition draw_spid (n : note) (spid : Z) : Z := if no_idx n =? 0 then spid + 1 else spid.
Definition draw_ops (n : note) (sheet spid count : Z) : list uop :=
  draw_first n sheet spid count ++ draw_text n sheet (draw_spid n spid).
Lemma draw_app n sheet spid count : app_only (draw_ops n sheet spid count).
Proof.
  unfold draw_ops, draw_first. apply app_only_app; [|discriminate]. destruct (no_idx n =? 0); discriminate.
Qed.
Definition draw_len (n : note) : Z := (if no_idx n =? 0 then 80 else 0) + 128.
Lemma draw_length n sheet spid count : zlen (pl (draw_ops n sheet spid count)) = draw_len n.
Proof. unfold draw_ops, draw_first, draw_len. destruct (no_idx n =? 0); reflexivity. Qed.
Definition obj_bytes (idx : Z) : list Z :=
  le16 21 ++ le16 18 ++ le16 25 ++ le16 (idx + 1) ++ le16 24593 ++ le32 0 ++ le32 0 ++ le32 0 ++ le32 0.
Definition txo_bytes (total : Z) : list Z :=
  le16 530 ++ le16 0 ++ [0; 0; 0; 0; 0; 0] ++ le16 total ++ le16 24 ++ [0; 0; 0; 0].
Definition runs_bytes (author total : Z) : list Z :=
  le16 0 ++ le16 1 ++ le32 0 ++ le16 author ++ le16 0 ++ le32 0 ++ le16 total ++ le16 0 ++ le32 0.
Definition drawing_recs (n : note) (sheet spid count : Z) : list (Z * list Z) :=
  [(RT_MSODRAWING, pl (draw_ops n sheet spid count));
   (RT_OBJ, obj_bytes (no_idx n));
   (RT_MSODRAWING, pl (draw_hdr 0 0 61453 0));
   (RT_TXO, txo_bytes (zlen (note_full n)));
   (RT_CONTINUE, ustr_bytes (note_full n) NOLEN);
   (RT_CONTINUE, runs_bytes (zlen (no_author n) + 2) (zlen (note_full n)))].

Lemma build_drawing n sheet spid count :
  build (rec_drawing n sheet spid count) = Ok (mkBU (frame_all (drawing_recs n sheet spid count)) false).
Proof.
  unfold rec_drawing. cbv zeta.
  set (D := pl (draw_ops n sheet spid count)).
  assert (ZD : zlen D = draw_len n) by apply draw_length.
  assert (HD : 128 <= draw_len n <= 208) by (unfold draw_len; destruct (no_idx n =? 0); lia).
  cbn [app].
  set (S := ustr_bytes (note_full n) NOLEN). pose proof (zlen_nonneg _ S).
  set (O := frame RT_OBJ (obj_bytes (no_idx n))). assert (ZO : zlen O = 30) by reflexivity.
  set (M := frame RT_MSODRAWING (pl (draw_hdr 0 0 61453 0))). assert (ZM : zlen M = 12) by reflexivity.
  set (T := frame RT_TXO (txo_bytes (zlen (note_full n)))). assert (ZT : zlen T = 22) by reflexivity.
  set (R := frame RT_CONTINUE (runs_bytes (zlen (no_author n) + 2) (zlen (note_full n)))).
  erewrite (build_hrun _ RT_MSODRAWING (draw_len n) (D ++ O ++ M ++ T ++ frame RT_CONTINUE S ++ R)).
  - unfold frame_all, drawing_recs. cbn [flat_map fst snd]. fold D O M T S R. rewrite app_nil_r.
    unfold frame at 2. rewrite ZD, <- !app_assoc. reflexivity.
  - cbn [hrun]. unfold hstep at 1. cbn [op_bytes]. rewrite zlen_nil.
    match goal with |- context [(?x && ?y)%bool] => replace (x && y)%bool with true end.
    2:{ pose proof (zlen_nonneg _ (note_full n)). destruct (is_ascii (note_full n)), (no_idx n =? 0); unfold drawing_size; lia. }
    hs. fold (draw_first n sheet spid count) (draw_spid n spid).
    rewrite app_assoc. fold (draw_ops n sheet spid count).
    rewrite hrun_app, hrun_pl by apply draw_app. fold D. cbn [app]. hs. unfold draw_hdr at 1. cbn [app]. hs.
    match goal with |- context [hstep (?t, ?l, ?p) (OSetSz16 ?i ?b)] =>
      rewrite (hstep_sz_piece t l p (D ++ O ++ M ++ T ++ le16 RT_CONTINUE) (le16 0) S) end.
    + cbv beta iota. hs.
      match goal with |- context [le16 (4 + zlen ?p - ?b)] =>
         replace (4 + zlen p - b) with (zlen S) end.
      * f_equal. f_equal; [f_equal; lia|]. 
        change (frame RT_CONTINUE S) with (le16 RT_CONTINUE ++ le16 (zlen S) ++ S).
        unfold R, frame, runs_bytes. rewrite <- !app_assoc. reflexivity.
      * fold S. unfold O, M, T, frame, obj_bytes, txo_bytes in *. 
        rewrite !zlen_app, !zlen_le16, !zlen_le32. change (zlen (repeat (byte_k 0 0) (Z.to_nat 6))) with 6.
        change (zlen (repeat (byte_k 0 0) (Z.to_nat 4))) with 4. rewrite ZD.
        unfold draw_len. destruct (no_idx n =? 0); lia.
    + unfold O, M, T, S, frame, obj_bytes, txo_bytes, draw_hdr. rewrite <- !app_assoc. reflexivity.
    + reflexivity.
    + rewrite !zlen_app, zlen_le16, ZD, ZO, ZM, ZT. unfold draw_len. destruct (no_idx n =? 0); lia.
    + destruct (no_idx n =? 0); lia.
Qed.

(** Drawing group. *)
Definition group_bytes (notes : list (Z * Z)) : list Z :=
  let count := zlen notes in
  let total := fold_left Z.add (map snd notes) 0 in
  pl (draw_hdr 15 0 61440 (36 + 8 * count + 26 + 24 - 8 - 4))
  ++ le16 0 ++ le16 61446 ++ le32 (36 + 8 * count - 12 - 8)
  ++ le32 (make_spid (fst (last_pair notes)) (snd (last_pair notes)))
  ++ le32 (count + 1) ++ le32 (count + total) ++ le32 count
  ++ flat_map (fun p : nat * (Z * Z) => le32 (Z.of_nat (fst p) + 1) ++ le32 (1 + snd (snd p)))
              (combine (seq 0 (length notes)) notes)
  ++ pl (draw_hdr 3 3 61451 18) ++ draw001 ++ pl (draw_hdr 0 4 61726 16) ++ draw002.
Lemma build_group notes : build (rec_drawing_group notes) =
  Ok (mkBU (frame RT_MSODRAWINGGROUP (group_bytes notes)) false).
Proof.
  unfold rec_drawing_group. cbv zeta. cbn [app]. apply build_frame.
  pose proof (zlen_nonneg _ notes).
  cbn [hrun]. unfold hstep at 1. cbn [op_bytes]. rewrite zlen_nil.
  match goal with |- context [(?x && ?y)%bool] => replace (x && y)%bool with true by lia end.
  unfold draw_hdr at 1. cbn [app]. hs. unfold draw_hdr at 1. cbn [app]. hs.
  set (f := fun p : nat * (Z * Z) => [OAdd32 (Z.of_nat (fst p) + 1); OAdd32 (1 + snd (snd p))]).
  rewrite hrun_app, hrun_pl by (apply app_only_flat; intro; discriminate).
  set (F := pl (flat_map f (combine (seq 0 (length notes)) notes))).
  set (Hd := le16 (Z.lor (Z.land 15 15) (0 * 16)) ++ le16 61440).
  set (H6 := le16 (Z.lor (Z.land 0 15) (0 * 16)) ++ le16 61446).
  set (total := fold_left Z.add (map snd notes) 0).
  set (sp := le32 (make_spid (fst (last_pair notes)) (snd (last_pair notes)))).
  cbn [hrun].
  match goal with |- context [hstep (?t, ?l, ?p) (OSet32 ?v 28)] =>
    replace (hstep (t, l, p) (OSet32 v 28)) with
     (Some (t, l, (Hd ++ le32 0 ++ H6 ++ le32 0 ++ sp ++ le32 (zlen notes + 1)) ++ le32 v ++ (le32 (zlen notes) ++ F))) end.
  2:{ symmetry. etransitivity; [|apply hstep_set32_piece with (old := le32 0); try reflexivity; lia].
      apply (f_equal (fun x => hstep x _)). apply f_equal. unfold Hd, H6, sp. rewrite <- !app_assoc. reflexivity. }
  match goal with |- context [hstep (?t, ?l, ?p) (OSet32 ?v (12 + 4))] =>
    replace (hstep (t, l, p) (OSet32 v (12 + 4))) with
     (Some (t, l, (Hd ++ le32 0 ++ H6) ++ le32 v ++
       (sp ++ le32 (zlen notes + 1) ++ le32 (zlen notes + total) ++ le32 (zlen notes) ++ F))) end.
  2:{ symmetry. etransitivity; [|apply hstep_set32_piece with (old := le32 0); try reflexivity; lia].
      apply (f_equal (fun x => hstep x _)). apply f_equal. rewrite <- !app_assoc. reflexivity. }
  unfold draw_hdr at 1. cbn [app]. hs. unfold draw_hdr at 1. cbn [app]. hs.
  match goal with |- context [hstep (?t, ?l, ?p) (OSet32 ?v 8)] =>
    replace (hstep (t, l, p) (OSet32 v 8)) with
     (Some (t, l, Hd ++ le32 v ++ (H6 ++ le32 (36 + 8 * zlen notes - 12 - 8) ++ sp ++ le32 (zlen notes + 1) ++
         le32 (zlen notes + total) ++ le32 (zlen notes) ++ F ++ pl (draw_hdr 3 3 61451 18) ++ draw001 ++
         pl (draw_hdr 0 4 61726 16) ++ draw002))) end.
  2:{ symmetry. etransitivity; [|apply hstep_set32_piece with (old := le32 0); try reflexivity; lia].
      apply (f_equal (fun x => hstep x _)). apply f_equal. rewrite <- !app_assoc. reflexivity. }
  hs.
  assert (E : Hd ++ le32 (36 + 8 * zlen notes + 26 + 24 - 8 - RECORD_HEADER_SIZE) ++
     (H6 ++ le32 (36 + 8 * zlen notes - 12 - 8) ++ sp ++ le32 (zlen notes + 1) ++
         le32 (zlen notes + total) ++ le32 (zlen notes) ++ F ++ pl (draw_hdr 3 3 61451 18) ++ draw001 ++
         pl (draw_hdr 0 4 61726 16) ++ draw002) = group_bytes notes).
  { unfold group_bytes. fold total. fold sp.
    replace F with (flat_map (fun p : nat * (Z * Z) => le32 (Z.of_nat (fst p) + 1) ++ le32 (1 + snd (snd p)))
              (combine (seq 0 (length notes)) notes)).
    - unfold Hd, H6. change RECORD_HEADER_SIZE with 4. unfold draw_hdr, pl. cbn [appended op_bytes].
      rewrite <- !app_assoc. reflexivity.
    - unfold F, pl. rewrite (appended_flat f (fun p : nat * (Z * Z) => le32 (Z.of_nat (fst p) + 1) ++ le32 (1 + snd (snd p)))).
      + reflexivity.
      + reflexivity. }
  rewrite E. reflexivity.
Qed.
