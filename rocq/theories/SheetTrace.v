(** A worksheet dump emits [sheet_units]. *)
From Coq Require Import ZArith List Bool Lia ZifyBool ZifyNat.
From Verif Require Import Bytes UnitModel RecModel SheetModel RecProofs RecFrames SheetProofs.
Import ListNotations.
Local Open Scope Z_scope.

(* ------------------------------------------------------------------ *)
(** * Row-block sizes *)

(** The sizes of the first block of [cells], and the cells left. *)
Definition size_block (cells : list cell) : rbsize * list cell :=
  match cells with
  | [] => (rb_new, [])
  | c :: _ =>
      let '(rest, rows, n, rb1) := size_scan cells (c_row c) 1 0 (rb_row rb_new (c_row c)) in
      let payload := 2 * n in
      let over := if MAX_RECORD_SIZE <? payload
                  then ((payload + MAX_RECORD_SIZE - 1) / MAX_RECORD_SIZE - 1) * 4 else 0 in
      (mkRB (rb_rc rb1 + ROW_SIZE * rows) (8 + payload + over) (rb_rows rb1 + rows) (rb_cells rb1 + n)
            (rb_fc rb1) (rb_lc rb1) (rb_fr rb1) (rb_lr rb1), rest)
  end.
Fixpoint size_blocks (fuel : nat) (cells : list cell) : list rbsize :=
  match fuel with
  | O => []
  | S f => match cells with
           | [] => []
           | _ => let '(rb, rest) := size_block cells in rb :: size_blocks f rest
           end
  end.
Definition sblocks (cells : list cell) : list rbsize := size_blocks (S (length cells)) cells.
Definition rb_total (l : list rbsize) : rbsize := fold_left rb_merge l rb_new.

Lemma size_scan_len cells : forall row rows n rb rest rows' n' rb',
  size_scan cells row rows n rb = (rest, rows', n', rb') -> (length rest <= length cells)%nat.
Proof.
  induction cells as [|c t IH]; intros row rows n rb rest rows' n' rb' H; cbn [size_scan] in H.
  - injection H as <- _ _ _. auto.
  - destruct (c_row c =? row). { apply IH in H. cbn [length]. lia. }
    destruct (MAX_ROWBLOCK <=? rows). { injection H as <- _ _ _. auto. }
    apply IH in H. cbn [length]. lia.
Qed.
Lemma size_block_len c t rb rest : size_block (c :: t) = (rb, rest) -> (length rest <= length t)%nat.
Proof.
  unfold size_block. destruct (size_scan (c :: t) _ _ _ _) as [[[rest' rows] n] rb1] eqn:E.
  intro H. injection H as _ <-. cbn [size_scan] in E. rewrite Z.eqb_refl in E.
  eapply size_scan_len; eauto.
Qed.
Lemma size_blocks_fuel f : forall g cells, (length cells < f)%nat -> (length cells < g)%nat ->
  size_blocks f cells = size_blocks g cells.
Proof.
  induction f; intros g cells Hf Hg; [lia|]. destruct g; [lia|]. cbn [size_blocks].
  destruct cells as [|c t]; [reflexivity|]. destruct (size_block (c :: t)) as [rb rest] eqn:E.
  f_equal. apply size_block_len in E. cbn [length] in *. apply IHf; lia.
Qed.
Lemma sblocks_cons c t : sblocks (c :: t) = fst (size_block (c :: t)) :: sblocks (snd (size_block (c :: t))).
Proof.
  unfold sblocks. change (size_blocks (S (length (c :: t))) (c :: t)) with
    (let '(rb, rest) := size_block (c :: t) in rb :: size_blocks (length (c :: t)) rest).
  destruct (size_block (c :: t)) as [rb rest] eqn:E.
  cbn [fst snd]. f_equal. apply size_block_len in E.
  apply size_blocks_fuel; cbn [length] in *; lia.
Qed.

Lemma num_rb_fresh f all : all <> [] -> forall cur sizes cu acc, cur <> [] -> (length cur < f)%nat ->
  num_rb_loop f all (mkCache false sizes cu cur) acc =
  Ok (fold_left rb_merge (sblocks cur) acc, mkCache true (sizes ++ sblocks cur) (sizes ++ sblocks cur) all).
Proof.
  intro Ha. induction f; intros cur sizes cu acc Hc Hl; [lia|].
  destruct cur as [|c t]; [congruence|]. cbn [num_rb_loop].
  unfold get_rbsize. cbn [ch_calc negb ch_cell ch_sizes ch_cur]. destruct all as [|a0 at_]; [congruence|].
  pose proof (sblocks_cons c t) as Hs. unfold size_block in Hs.
  pose proof (size_scan_len (c :: t) (c_row c) 1 0 (rb_row rb_new (c_row c))) as Hlen.
  assert (Hlt : forall rest rows n rb1, size_scan (c :: t) (c_row c) 1 0 (rb_row rb_new (c_row c)) = (rest, rows, n, rb1) -> (length rest <= length t)%nat).
  { intros rest rows n rb1 E. cbn [size_scan] in E. rewrite Z.eqb_refl in E. eapply size_scan_len; eauto. }
  clear Hlen.
  destruct (size_scan (c :: t) (c_row c) 1 0 (rb_row rb_new (c_row c))) as [[[rest rows] n] rb1].
  specialize (Hlt _ _ _ _ eq_refl). cbn [fst snd] in Hs.
  destruct rest as [|c1 rest].
  - cbn [bind]. rewrite Hs. unfold sblocks. cbn [size_blocks length]. cbn [fold_left]. reflexivity.
  - cbn [bind]. rewrite IHf; [|discriminate|cbn [length] in *; lia].
    rewrite Hs. cbn [fold_left]. rewrite <- app_assoc. reflexivity.
Qed.
Lemma num_rb_cached all : forall l pre f acc cc, l <> [] -> (length l <= f)%nat ->
  num_rb_loop f all (mkCache true (pre ++ l) l cc) acc =
  Ok (fold_left rb_merge l acc, mkCache true (pre ++ l) (pre ++ l) cc).
Proof.
  induction l as [|rb l IH]; intros pre f acc cc Hn Hl; [congruence|].
  destruct f; [cbn in Hl; lia|]. cbn [num_rb_loop get_rbsize ch_calc negb ch_cur ch_sizes ch_cell].
  destruct l as [|rb' l].
  - cbn [bind fold_left]. reflexivity.
  - cbn [bind]. specialize (IH (pre ++ [rb]) f (rb_merge acc rb) cc ltac:(discriminate) ltac:(cbn in *; lia)).
    rewrite <- !app_assoc in IH. cbn [app] in IH. rewrite IH. reflexivity.
Qed.

(** State of the size cache: empty, or the right sizes. *)
Definition cache_ok (s : sheet) : Prop :=
  (sh_calc s = false /\ sh_sizes s = []) \/
  (sh_calc s = true /\ sh_sizes s = sblocks (sh_cells s) /\ sh_cells s <> []).

Lemma sblocks_ne c t : sblocks (c :: t) <> [].
Proof. rewrite sblocks_cons. discriminate. Qed.
Lemma sblocks_short cells : (length (sblocks cells) <= length cells)%nat.
Proof.
  unfold sblocks. generalize (S (length cells)) as f. intro f. revert cells.
  induction f; intro cells; cbn [size_blocks]; [cbn; lia|]. destruct cells as [|c t]; [cbn; lia|].
  destruct (size_block (c :: t)) as [rb rest] eqn:E. apply size_block_len in E.
  specialize (IHf rest). cbn [length]. lia.
Qed.
Lemma num_row_blocks_ok s : cache_ok s -> 
  num_row_blocks (sh_cells s) (mkCache (sh_calc s) (sh_sizes s) (sh_sizes s) (sh_cells s)) =
  Ok (zlen (sblocks (sh_cells s)), rb_total (sblocks (sh_cells s)),
      match sh_cells s with [] => mkCache (sh_calc s) (sh_sizes s) (sh_sizes s) []
      | _ => mkCache true (sblocks (sh_cells s)) (sblocks (sh_cells s)) (sh_cells s) end).
Proof.
  intro H. unfold num_row_blocks. destruct (sh_cells s) as [|c t] eqn:E; [reflexivity|].
  cbn [ch_calc ch_sizes]. destruct H as [[H1 H2]|[H1 [H2 H3]]]; rewrite H1, H2.
  - rewrite num_rb_fresh by (try discriminate; cbn [length]; lia). cbn [bind app ch_sizes]. reflexivity.
  - rewrite E. pose proof (num_rb_cached (c :: t) (sblocks (c :: t)) [] (S (length (c :: t))) rb_new (c :: t) (sblocks_ne c t)) as K.
    cbn [app] in K. rewrite K by (pose proof (sblocks_short (c :: t)); lia). cbn [bind ch_sizes]. reflexivity.
Qed.

(** Offsets listed in the INDEX record. *)
Fixpoint index_offs (l : list rbsize) (acc off : Z) : list Z :=
  match l with
  | [] => []
  | rb :: t => let acc1 := acc + rb_rc rb in (off + acc1) :: index_offs t (acc1 + rb_db rb) (off + acc1)
  end.
Lemma index_loop_ok all cc : forall l pre acc off, (l = [] -> pre = []) ->
  index_loop (length l) all (mkCache true (pre ++ l) l cc) acc off =
  Ok (index_offs l acc off, mkCache true (pre ++ l) (match l with [] => l | _ => pre ++ l end) cc).
Proof.
  induction l as [|rb l IH]; intros pre acc off Hp; cbn [length index_loop index_offs].
  - reflexivity.
  - cbn [get_rbsize ch_calc negb ch_cur ch_sizes ch_cell]. destruct l as [|rb' l].
    + cbn [length bind xl_assert Bool.eqb index_loop index_offs]. reflexivity.
    + cbn [bind length Bool.eqb xl_assert].
      specialize (IH (pre ++ [rb]) (acc + rb_rc rb + rb_db rb) (off + (acc + rb_rc rb)) ltac:(discriminate)).
      rewrite <- !app_assoc in IH. cbn [app length] in IH. rewrite IH. reflexivity.
Qed.

(* ------------------------------------------------------------------ *)
(** * The units of a sheet *)

Definition ubuild (ops : list uop) : bunit := match build ops with Ok u => u | _ => mkBU [] false end.
Lemma ubuild_ok ops u : build ops = Ok u -> build ops = Ok (ubuild ops).
Proof. unfold ubuild. intros ->. reflexivity. Qed.

Definition renote (n : note) (i : Z) : note :=
  mkNote (no_row n) (no_col n) (no_author n) (no_text n) (no_rect n) (no_fill n) i.
(** Notes numbered from [i], the shape counter after them, and their drawings. *)
Fixpoint number_notes (ns : list note) (i : Z) : list note :=
  match ns with [] => [] | n :: t => renote n i :: number_notes t ((i + 1) mod 65536) end.
Fixpoint spid_after (ns : list note) (i spid : Z) : Z :=
  match ns with [] => spid | n :: t => spid_after t ((i + 1) mod 65536) (w32 (spid + spid_step i)) end.
Fixpoint drawing_units (ns : list note) (sheet count i spid : Z) : list bunit :=
  match ns with
  | [] => []
  | n :: t => ubuild (rec_drawing (renote n i) sheet spid count)
              :: drawing_units t sheet count ((i + 1) mod 65536) (w32 (spid + spid_step i))
  end.
(** Merged ranges in groups of at most 1027. *)
Fixpoint merged_chunks (fuel : nat) (rs : list range) : list (list range) :=
  match fuel with
  | O => []
  | S f => match rs with
           | [] => []
           | _ => firstn 1027 rs :: merged_chunks f (skipn 1027 rs)
           end
  end.
Definition chunks (rs : list range) : list (list range) := merged_chunks (S (length rs)) rs.

Definition index_unit (pos : Z) (s : sheet) : bunit :=
  let sb := sblocks (sh_cells s) in
  let off0 := pos + (20 + 4 * zlen sb) + 8 + 16 * zlen (sh_cols s) in
  ubuild (rec_index (rb_fr (rb_total sb)) (rb_lr (rb_total sb)) (off0 :: index_offs sb 0 (off0 + 6 + 18))).

Definition sheet_head (pos : Z) (s : sheet) : list bunit :=
  [ubuild (rec_bof 16); index_unit pos s; ubuild (rec_defrowheight (sh_defrh s))]
  ++ map (fun c => ubuild (rec_colinfo c)) (sh_cols s)
  ++ [ubuild (rec_defcolwidth (sh_defcw s));
      ubuild (rec_dimension (sh_minr s) (sh_maxr s) (sh_minc s) (sh_maxc s))].
Definition sheet_blocks (s : sheet) : option (list block) :=
  blocks_of (S (length (sh_cells s))) (sh_cells s) (sh_heights s).
Definition sheet_body (ls : labels) (s : sheet) : list bunit :=
  match sheet_blocks s with Some bl => flat_map (block_units ls) bl | None => [] end.
Definition sheet_tail (ac : Z) (s : sheet) : list bunit :=
  drawing_units (sh_notes s) (sh_index s) (zlen (sh_notes s) mod 65536) 0 (sh_spid s)
  ++ map (fun n => ubuild (rec_note n)) (number_notes (sh_notes s) 0)
  ++ map (fun rs => ubuild (rec_merged rs)) (chunks (sh_merged s))
  ++ [ubuild (rec_window2 (sh_index s =? ac))]
  ++ (if ((sh_rsplit s =? 0) && (sh_csplit s =? 0))%bool then [] else [ubuild (rec_pane (sh_rsplit s) (sh_csplit s))])
  ++ map (fun h => ubuild (rec_hlink h)) (sh_links s)
  ++ match sh_dvs s with [] => [] | dvs => ubuild (rec_dval (zlen dvs)) :: map (fun v => ubuild (rec_dv v)) dvs end
  ++ [ubuild rec_eof].
(** [pos]: stream position of the sheet's first byte. *)
Definition sheet_units (ls : labels) (ac pos : Z) (s : sheet) : list bunit :=
  sheet_head (pos + 20) s ++ sheet_body ls s ++ sheet_tail ac s.

(** The sheet after a dump. *)
Definition sheet_after (s : sheet) : sheet :=
  set_dumped s (number_notes (sh_notes s) 0) (spid_after (sh_notes s) 0 (sh_spid s))
    (match sh_cells s with [] => sh_calc s | _ => true end)
    (match sh_cells s with [] => sh_sizes s | _ => sblocks (sh_cells s) end).

(** What the dump needs of a sheet. *)
Definition sheet_ok (ls : labels) (s : sheet) : Prop :=
  sheet_blocks s <> None
  /\ Forall (fun c => cell_unit ls c = Ok (cu ls c)) (sh_cells s)
  /\ zlen (sh_cells s) < 4294967295
  /\ cache_ok s.

Lemma build_bof k : build (rec_bof k) = Ok (ubuild (rec_bof k)).
Proof. reflexivity. Qed.
Lemma build_eof : build rec_eof = Ok (ubuild rec_eof).
Proof. reflexivity. Qed.
Lemma build_colinfo c : build (rec_colinfo c) = Ok (ubuild (rec_colinfo c)).
Proof. eapply ubuild_ok. unfold rec_colinfo. apply build_rec. unfold app_only. cbn. discriminate. Qed.
Lemma build_dimension a b c d : build (rec_dimension a b c d) = Ok (ubuild (rec_dimension a b c d)).
Proof. eapply ubuild_ok. unfold rec_dimension. apply build_rec. unfold app_only. cbn. discriminate. Qed.
Lemma build_window2 b : build (rec_window2 b) = Ok (ubuild (rec_window2 b)).
Proof. eapply ubuild_ok. unfold rec_window2. apply build_rec. unfold app_only. cbn. discriminate. Qed.

Section SH.
Variables (ls : labels) (ac : Z) (adv : bunit -> Z).
Hypothesis adv_small : forall u, bu_size u <= 8228 -> adv u = bu_size u.
Local Notation adva := (adv_all adv).

Inductive strace : Z -> shdump -> list bunit -> Z -> shdump -> Prop :=
| strace_end pos d d' : sheet_dump_data ls ac pos d = Ok (None, d') -> strace pos d [] pos d'
| strace_give pos d u d1 us pos' d' : sheet_dump_data ls ac pos d = Ok (Some u, d1) ->
    strace (pos + adv u) d1 us pos' d' -> strace pos d (u :: us) pos' d'.

Lemma strace_again pos d d1 us pos' d' : sh_step ls ac pos d = Ok (Again, d1) ->
  strace pos d1 us pos' d' -> strace pos d us pos' d'.
Proof.
  intros H T. destruct T as [pos d1 d' E|pos d1 u d2 us pos' d' E T].
  - apply strace_end. rewrite sheet_dump_data_eq, H. exact E.
  - eapply strace_give; [|exact T]. rewrite sheet_dump_data_eq, H. exact E.
Qed.
Lemma strace_step pos d u d1 us pos' d' : sh_step ls ac pos d = Ok (Give (Some u), d1) ->
  strace (pos + adv u) d1 us pos' d' -> strace pos d (u :: us) pos' d'.
Proof. intros H T. eapply strace_give; [|exact T]. rewrite sheet_dump_data_eq, H. reflexivity. Qed.

Ltac sfields := cbn [e_state e_sheet e_col e_note e_noteidx e_link e_dv e_range e_rb to_state bind].

Lemma st_colinfo s col note ni lk dv rg rb p' d' us : forall pos,
  (sh_cols s = [] <-> col = []) ->
  strace (pos + adva (map (fun c => ubuild (rec_colinfo c)) col)) (mkSD SDfltCol s [] note ni lk dv rg rb) us p' d' ->
  strace pos (mkSD SColinfo s col note ni lk dv rg rb) (map (fun c => ubuild (rec_colinfo c)) col ++ us) p' d'.
Proof.
  intros pos Hc. destruct (sh_cols s) as [|c0 ct] eqn:E.
  - destruct col; [|destruct Hc as [Hc _]; discriminate Hc; auto]. cbn [map app adv_all fold_right]. rewrite Z.add_0_r. intro T.
    eapply strace_again; [|exact T]. unfold sh_step. sfields. rewrite E. reflexivity.
  - assert (Hn : col <> []) by (intros ->; destruct Hc as [_ Hc]; discriminate Hc; auto). clear Hc.
    revert pos. induction col as [|c t IH]; intros pos T; [congruence|]. cbn [map app] in *.
    eapply strace_step.
    { unfold sh_step. sfields. rewrite E, build_colinfo. sfields. reflexivity. }
    rewrite adv_all_cons, Z.add_assoc in T. destruct t as [|c1 t].
    + cbn [map app adv_all fold_right] in *. rewrite Z.add_0_r in T. exact T.
    + apply IH; [discriminate|]. exact T.
Qed.

Lemma st_rb s col note ni lk dv rg p us1 p1 rb1 us p' d' : sh_cells s <> [] -> forall rb,
  rbtr ls (sh_cells s) (sh_heights s) adv p rb us1 p1 rb1 ->
  strace p1 (mkSD SDrawings s col note ni lk dv rg rb1) us p' d' ->
  strace p (mkSD SRowblocks s col note ni lk dv rg rb) (us1 ++ us) p' d'.
Proof.
  intros Hc rb T. induction T as [p rb rb1 E|p rb u rb2 us1 p1 rb1 E T IH]; intro K.
  - cbn [app]. eapply strace_again; [|exact K]. unfold sh_step. sfields.
    destruct (sh_cells s); [congruence|]. rewrite E. sfields. reflexivity.
  - cbn [app]. eapply strace_step; [|apply IH, K]. unfold sh_step. sfields.
    destruct (sh_cells s); [congruence|]. rewrite E. sfields. reflexivity.
Qed.

Lemma nth_error_mid {A} (a : list A) x b : nth_error (a ++ x :: b) (length a) = Some x.
Proof. rewrite nth_error_app2, Nat.sub_diag by lia. reflexivity. Qed.
Lemma note_set_mid a n b i : note_set_idx (a ++ n :: b) (length a) i = a ++ renote n i :: b.
Proof.
  unfold note_set_idx. rewrite nth_error_mid. fold (renote n i). f_equal.
  - rewrite firstn_app, Nat.sub_diag, firstn_all, firstn_O, app_nil_r. reflexivity.
  - f_equal. rewrite skipn_app, skipn_all2 by lia. replace (S (length a) - length a)%nat with 1%nat by lia. reflexivity.
Qed.

Lemma st_drawings s col lk dv rg rb : forall rest done i spid,
  done ++ rest <> [] -> exists ni, forall pos us p' d',
  strace (pos + adva (drawing_units rest (sh_index s) (zlen (done ++ rest) mod 65536) i spid))
    (mkSD SNotes (set_dumped s (done ++ number_notes rest i) (spid_after rest i spid) (sh_calc s) (sh_sizes s))
       col 0 ni lk dv rg rb) us p' d' ->
  strace pos (mkSD SDrawings (set_dumped s (done ++ rest) spid (sh_calc s) (sh_sizes s)) col (length done) i lk dv rg rb)
    (drawing_units rest (sh_index s) (zlen (done ++ rest) mod 65536) i spid ++ us) p' d'.
Proof.
  induction rest as [|n t IH]; intros done i spid Hn.
  - exists i. intros pos us p' d' T. cbn [drawing_units adv_all fold_right number_notes spid_after app] in *.
    rewrite Z.add_0_r in T. eapply strace_again; [|exact T]. unfold sh_step. sfields.
    cbn [sh_notes set_dumped]. destruct (done ++ []) eqn:E; [congruence|]. rewrite <- E. rewrite app_nil_r.
    rewrite (proj2 (nth_error_None done (length done))) by lia. reflexivity.
  - destruct (IH (done ++ [renote n i]) ((i + 1) mod 65536) (w32 (spid + spid_step i))) as [ni K].
    { destruct done; discriminate. }
    exists ni. intros pos us p' d' T. cbn [drawing_units number_notes spid_after app] in *.
    rewrite <- !app_assoc in K. cbn [app] in K. rewrite app_length in K. cbn [length] in K.
    replace (length done + 1)%nat with (S (length done)) in K by lia.
    replace (zlen (done ++ renote n i :: t)) with (zlen (done ++ n :: t)) in K by (rewrite !zlen_app, !zlen_cons; reflexivity).
    rewrite adv_all_cons, Z.add_assoc in T.
    eapply strace_step; [|apply K, T]. unfold sh_step. sfields. cbn [sh_notes set_dumped sh_index sh_spid sh_calc sh_sizes].
    destruct (done ++ n :: t) eqn:E; [destruct done; discriminate|]. rewrite <- E. clear E.
    rewrite note_set_mid, !nth_error_mid. rewrite build_drawing. cbn [bind renote no_idx].
    unfold ubuild at 1. rewrite build_drawing. reflexivity.
Qed.

Lemma st_notes s col ni lk dv rg rb us p' d' : forall rest done pos,
  sh_notes s = done ++ rest -> done ++ rest <> [] ->
  strace (pos + adva (map (fun n => ubuild (rec_note n)) rest)) (mkSD SMerged s col (length (done ++ rest)) ni lk dv rg rb) us p' d' ->
  strace pos (mkSD SNotes s col (length done) ni lk dv rg rb) (map (fun n => ubuild (rec_note n)) rest ++ us) p' d'.
Proof.
  induction rest as [|n t IH]; intros done pos E Hn T.
  - rewrite app_nil_r in *. cbn [map adv_all fold_right app] in *. rewrite Z.add_0_r in T.
    eapply strace_again; [|exact T]. unfold sh_step. sfields. rewrite E.
    destruct done eqn:Ed; [congruence|]. rewrite <- Ed.
    rewrite (proj2 (nth_error_None done (length done))) by lia. subst done. reflexivity.
  - cbn [map app] in *. rewrite adv_all_cons, Z.add_assoc in T.
    eapply strace_step.
    { unfold sh_step. sfields. rewrite E. destruct (done ++ n :: t) eqn:E1; [congruence|]. rewrite <- E1. clear E1.
      rewrite nth_error_mid, (ubuild_ok _ _ (build_note n)). sfields. reflexivity. }
    specialize (IH (done ++ [n]) (pos + adv (ubuild (rec_note n)))). rewrite <- !app_assoc in IH. cbn [app] in IH.
    replace (length (done ++ [n])) with (S (length done)) in IH by (rewrite app_length; cbn [length]; lia).
    apply IH; auto.
Qed.

Lemma merged_chunks_fuel f : forall g rs, (length rs < f)%nat -> (length rs < g)%nat -> merged_chunks f rs = merged_chunks g rs.
Proof.
  induction f; intros g rs Hf Hg; [lia|]. destruct g; [lia|]. cbn [merged_chunks]. destruct rs as [|r t]; [reflexivity|].
  f_equal. change (skipn 1027 (r :: t)) with (skipn 1026 t). apply IHf; rewrite skipn_length; cbn [length] in *; lia.
Qed.
Lemma chunks_cons r t : chunks (r :: t) = firstn 1027 (r :: t) :: chunks (skipn 1027 (r :: t)).
Proof.
  unfold chunks. change (merged_chunks (S (length (r :: t))) (r :: t)) with
    (firstn 1027 (r :: t) :: merged_chunks (length (r :: t)) (skipn 1027 (r :: t))). f_equal.
  change (skipn 1027 (r :: t)) with (skipn 1026 t). apply merged_chunks_fuel; rewrite skipn_length; cbn [length]; lia.
Qed.
Lemma st_merged s col note ni lk dv rb us p' d' k : forall rg pos, (length rg <= k)%nat ->
  (sh_merged s = [] -> rg = []) ->
  strace (pos + adva (map (fun rs => ubuild (rec_merged rs)) (chunks rg))) (mkSD SWindow2 s col note ni lk dv [] rb) us p' d' ->
  strace pos (mkSD SMerged s col note ni lk dv rg rb) (map (fun rs => ubuild (rec_merged rs)) (chunks rg) ++ us) p' d'.
Proof.
  induction k; intros rg pos Hk Hm T.
  - destruct rg; [|cbn in Hk; lia]. cbn [chunks map adv_all fold_right app] in *. rewrite Z.add_0_r in T.
    eapply strace_again; [|exact T]. unfold sh_step. sfields. destruct (sh_merged s); reflexivity.
  - destruct rg as [|r t].
    { cbn [chunks map adv_all fold_right app] in *. rewrite Z.add_0_r in T.
      eapply strace_again; [|exact T]. unfold sh_step. sfields. destruct (sh_merged s); reflexivity. }
    rewrite chunks_cons in *. set (rs := r :: t) in *. cbn [map app] in *. rewrite adv_all_cons, Z.add_assoc in T.
    eapply strace_step; [|apply IHk; [| |exact T]].
    + unfold sh_step. sfields. destruct (sh_merged s) as [|m0 mt]; [discriminate Hm; auto|]. unfold rs at 1. fold rs.
      cbv zeta. assert (Hf : firstn (Nat.min (length rs) 1027) rs = firstn 1027 rs).
      { destruct (Nat.le_ge_cases (length rs) 1027) as [H|H].
        - rewrite Nat.min_l, firstn_all, firstn_all2 by lia. reflexivity.
        - rewrite Nat.min_r by lia. reflexivity. }
      assert (Hs : skipn (Nat.min (length rs) 1027) rs = skipn 1027 rs).
      { destruct (Nat.le_ge_cases (length rs) 1027) as [H|H].
        - rewrite Nat.min_l, skipn_all, skipn_all2 by lia. reflexivity.
        - rewrite Nat.min_r by lia. reflexivity. }
      rewrite Hf, Hs, (ubuild_ok _ _ (build_merged _)). sfields. reflexivity.
    + rewrite skipn_length. cbn [length rs] in *. lia.
    + intro H. specialize (Hm H). discriminate.
Qed.

Lemma st_links s col note ni lk dv rg rb us p' d' : forall pos, (sh_links s = [] <-> lk = []) ->
  strace (pos + adva (map (fun h => ubuild (rec_hlink h)) lk)) (mkSD SValHead s col note ni [] dv rg rb) us p' d' ->
  strace pos (mkSD SHlinks s col note ni lk dv rg rb) (map (fun h => ubuild (rec_hlink h)) lk ++ us) p' d'.
Proof.
  intros pos Hc. destruct (sh_links s) as [|c0 ct] eqn:E.
  - destruct lk; [|destruct Hc as [Hc _]; discriminate Hc; auto]. cbn [map app adv_all fold_right]. rewrite Z.add_0_r. intro T.
    eapply strace_again; [|exact T]. unfold sh_step. sfields. rewrite E. reflexivity.
  - assert (Hn : lk <> []) by (intros ->; destruct Hc as [_ Hc]; discriminate Hc; auto). clear Hc.
    revert pos. induction lk as [|c t IH]; intros pos T; [congruence|]. cbn [map app] in *.
    eapply strace_step.
    { unfold sh_step. sfields. rewrite E, (ubuild_ok _ _ (build_hlink c)). sfields. reflexivity. }
    rewrite adv_all_cons, Z.add_assoc in T. destruct t as [|c1 t].
    + cbn [map app adv_all fold_right] in *. rewrite Z.add_0_r in T. exact T.
    + apply IH; [discriminate|]. exact T.
Qed.
Lemma st_dvs s col note ni lk dv rg rb us p' d' : forall pos, (sh_dvs s = [] <-> dv = []) ->
  strace (pos + adva (map (fun h => ubuild (rec_dv h)) dv)) (mkSD SEof s col note ni lk [] rg rb) us p' d' ->
  strace pos (mkSD SValBody s col note ni lk dv rg rb) (map (fun h => ubuild (rec_dv h)) dv ++ us) p' d'.
Proof.
  intros pos Hc. destruct (sh_dvs s) as [|c0 ct] eqn:E.
  - destruct dv; [|destruct Hc as [Hc _]; discriminate Hc; auto]. cbn [map app adv_all fold_right]. rewrite Z.add_0_r. intro T.
    eapply strace_again; [|exact T]. unfold sh_step. sfields. rewrite E. reflexivity.
  - assert (Hn : dv <> []) by (intros ->; destruct Hc as [_ Hc]; discriminate Hc; auto). clear Hc.
    revert pos. induction dv as [|c t IH]; intros pos T; [congruence|]. cbn [map app] in *.
    eapply strace_step.
    { unfold sh_step. sfields. rewrite E, (ubuild_ok _ _ (build_dv c)). sfields. reflexivity. }
    rewrite adv_all_cons, Z.add_assoc in T. destruct t as [|c1 t].
    + cbn [map app adv_all fold_right] in *. rewrite Z.add_0_r in T. exact T.
    + apply IH; [discriminate|]. exact T.
Qed.

Lemma zlen_nil_iff {A} (l m : list A) : l = m -> (l = [] <-> m = []).
Proof. intros ->. tauto. Qed.

Lemma adv_ub ops n : bu_size (ubuild ops) = n -> n <= 8228 -> adv (ubuild ops) = n.
Proof. intros H L. rewrite adv_small; lia. Qed.

(** The whole dump. *)
Theorem sheet_trace pos d s : e_state d = SInit -> e_sheet d = s -> d_rb (e_rb d) = RBInit -> sheet_ok ls s ->
  exists d', strace pos d (sheet_units ls ac pos s) (pos + adva (sheet_units ls ac pos s)) d'
    /\ e_state d' = SInit /\ e_sheet d' = sheet_after s /\ d_rb (e_rb d') = RBInit.
Proof.
  intros E0 Es Er (Hb & Hc & Hl & Hch).
  destruct (sheet_blocks s) as [bl|] eqn:Ebl; [clear Hb|congruence].
  set (s1 := set_dumped s (sh_notes s) (sh_spid s) (match sh_cells s with [] => sh_calc s | _ => true end)
                        (match sh_cells s with [] => sh_sizes s | _ => sblocks (sh_cells s) end)).
  assert (Hs1 : sheet_after s = set_dumped s1 (number_notes (sh_notes s) 0) (spid_after (sh_notes s) 0 (sh_spid s)) (sh_calc s1) (sh_sizes s1)) by reflexivity.
  (* tail *)
  assert (Tail : forall p col lk dv rg rb, lk = sh_links s -> dv = sh_dvs s -> rg = sh_merged s -> d_rb rb = RBInit ->
    exists d', strace p (mkSD SDrawings s1 col 0 0 lk dv rg rb) (sheet_tail ac s) (p + adva (sheet_tail ac s)) d'
      /\ e_state d' = SInit /\ e_sheet d' = sheet_after s /\ d_rb (e_rb d') = RBInit).
  { intros p col lk dv rg rb -> -> -> Hrb.
    (* from SMerged *)
    set (t4 := match sh_dvs s with [] => [] | dvs => ubuild (rec_dval (zlen dvs)) :: map (fun v => ubuild (rec_dv v)) dvs end ++ [ubuild rec_eof]).
    assert (K4 : forall p nt ni, exists d', strace p (mkSD SValHead (sheet_after s) col nt ni [] (sh_dvs s) [] rb) t4 (p + adva t4) d'
       /\ e_state d' = SInit /\ e_sheet d' = sheet_after s /\ d_rb (e_rb d') = RBInit).
    { intros q nt ni. exists (mkSD SInit (sheet_after s) col nt ni [] [] [] rb).
      split; [|cbn [e_state e_sheet e_rb]; auto]. unfold t4.
      assert (K : forall q dv0 us p' d', (sh_dvs s = [] <-> dv0 = []) -> 
        strace (q + adva (map (fun v => ubuild (rec_dv v)) dv0)) (mkSD SEof (sheet_after s) col nt ni [] [] [] rb) us p' d' ->
        strace q (mkSD SValBody (sheet_after s) col nt ni [] dv0 [] rb) (map (fun v => ubuild (rec_dv v)) dv0 ++ us) p' d').
      { intros. apply st_dvs; auto. }
      assert (KE : forall q, strace q (mkSD SEof (sheet_after s) col nt ni [] [] [] rb) [ubuild rec_eof] (q + adva [ubuild rec_eof])
          (mkSD SInit (sheet_after s) col nt ni [] [] [] rb)).
      { intro q0. rewrite adv_all_cons. change (adva []) with 0. rewrite Z.add_0_r.
        eapply strace_step. { unfold sh_step. sfields. rewrite build_eof. sfields. reflexivity. }
        apply strace_end. rewrite sheet_dump_data_eq. unfold sh_step. sfields. reflexivity. }
      destruct (sh_dvs s) as [|v t] eqn:Ed.
      - eapply strace_again. { unfold sh_step. sfields. cbn [sh_dvs sheet_after set_dumped]. rewrite Ed. reflexivity. }
        sfields. cbn [app]. specialize (K q [] [ubuild rec_eof] (q + adva [ubuild rec_eof])).
        cbn [map app] in K. change (adva []) with 0 in K. rewrite Z.add_0_r in K. apply K; [tauto|]. apply KE.
      - rewrite adv_all_app, adv_all_cons, !Z.add_assoc. cbn [app].
        eapply strace_step. { unfold sh_step. sfields. cbn [sh_dvs sheet_after set_dumped]. rewrite Ed, build_dval. sfields. reflexivity. }
        change (mkBU (frame RT_DVAL _) false) with (ubuild (rec_dval (zlen (v :: t)))).
        apply K; [split; discriminate|]. apply KE. }
    set (t3 := (if ((sh_rsplit s =? 0) && (sh_csplit s =? 0))%bool then [] else [ubuild (rec_pane (sh_rsplit s) (sh_csplit s))])
       ++ map (fun h => ubuild (rec_hlink h)) (sh_links s) ++ t4).
    assert (K3 : forall p nt ni, exists d', strace p (mkSD SPane (sheet_after s) col nt ni (sh_links s) (sh_dvs s) [] rb) t3 (p + adva t3) d'
       /\ e_state d' = SInit /\ e_sheet d' = sheet_after s /\ d_rb (e_rb d') = RBInit).
    { intros q nt ni. unfold t3. destruct ((sh_rsplit s =? 0) && (sh_csplit s =? 0))%bool eqn:Ep.
      - destruct (K4 (q + adva (map (fun h => ubuild (rec_hlink h)) (sh_links s))) nt ni) as (d' & T & R).
        exists d'. split; [|exact R]. eapply strace_again. { unfold sh_step. sfields. cbn [sheet_after set_dumped sh_rsplit sh_csplit]. rewrite Ep. reflexivity. }
        sfields. cbn [app]. rewrite adv_all_app, Z.add_assoc. apply st_links; [cbn [sheet_after set_dumped sh_links]; tauto|]. exact T.
      - rewrite !adv_all_app, adv_all_cons. change (adva []) with 0. rewrite Z.add_0_r, !Z.add_assoc.
        destruct (K4 (q + adv (ubuild (rec_pane (sh_rsplit s) (sh_csplit s))) + adva (map (fun h => ubuild (rec_hlink h)) (sh_links s))) nt ni) as (d' & T & R).
        exists d'. split; [|exact R]. cbn [app]. eapply strace_step.
        { unfold sh_step. sfields. cbn [sheet_after set_dumped sh_rsplit sh_csplit]. rewrite Ep, (ubuild_ok _ _ (build_pane _ _)). sfields. reflexivity. }
        sfields. apply st_links; [cbn [sheet_after set_dumped sh_links]; tauto|]. exact T. }
    set (t2 := map (fun rs => ubuild (rec_merged rs)) (chunks (sh_merged s)) ++ [ubuild (rec_window2 (sh_index s =? ac))] ++ t3).
    assert (K2 : forall p nt ni, exists d', strace p (mkSD SMerged (sheet_after s) col nt ni (sh_links s) (sh_dvs s) (sh_merged s) rb) t2 (p + adva t2) d'
       /\ e_state d' = SInit /\ e_sheet d' = sheet_after s /\ d_rb (e_rb d') = RBInit).
    { intros q nt ni. unfold t2. rewrite !adv_all_app, adv_all_cons. change (adva []) with 0. rewrite Z.add_0_r, !Z.add_assoc.
      edestruct K3 as (d' & T & R). exists d'. split; [|exact R].
      eapply st_merged; [reflexivity|cbn [sheet_after set_dumped sh_merged]; tauto|].
      cbn [app]. eapply strace_step. { unfold sh_step. sfields. rewrite build_window2. sfields. reflexivity. }
      exact T. }
    assert (Ht : sheet_tail ac s = drawing_units (sh_notes s) (sh_index s) (zlen (sh_notes s) mod 65536) 0 (sh_spid s)
       ++ map (fun n => ubuild (rec_note n)) (number_notes (sh_notes s) 0) ++ t2) by reflexivity.
    assert (Hs0 : sh_notes s = [] -> s1 = sheet_after s).
    { intro H0. unfold s1, sheet_after. rewrite H0. reflexivity. }
    assert (D : sh_notes s = [] \/ sh_notes s <> []) by (destruct (sh_notes s); [left|right]; congruence).
    rewrite Ht. destruct D as [En|En].
    - destruct (K2 p 0%nat 0) as (d' & T & R). exists d'. split; [|exact R]. rewrite En. cbn [drawing_units number_notes map app].
      specialize (Hs0 En).
      rewrite Hs0. assert (Hnn : sh_notes (sheet_after s) = []) by (unfold sheet_after; rewrite En; reflexivity).
      eapply strace_again. { unfold sh_step. sfields. rewrite Hnn. reflexivity. }
      eapply strace_again. { unfold sh_step. sfields. rewrite Hnn. reflexivity. }
      sfields. exact T.
    - destruct (st_drawings s1 col (sh_links s) (sh_dvs s) (sh_merged s) rb (sh_notes s) [] 0 (sh_spid s)) as [ni K].
      { exact En. }
      cbn [app length] in K. rewrite <- Hs1 in K.
      edestruct (K2 (p + adva (drawing_units (sh_notes s) (sh_index s) (zlen (sh_notes s) mod 65536) 0 (sh_spid s)) + adva (map (fun n => ubuild (rec_note n)) (number_notes (sh_notes s) 0)))) as (d' & T & R).
      exists d'. split; [|exact R]. rewrite !adv_all_app, !Z.add_assoc.
      assert (Hset : set_dumped s1 (sh_notes s) (sh_spid s) (sh_calc s1) (sh_sizes s1) = s1) by reflexivity.
      rewrite Hset in K. change (sh_index s1) with (sh_index s) in K. apply K.
      apply (st_notes (sheet_after s) col ni (sh_links s) (sh_dvs s) (sh_merged s) rb t2 _ d' (number_notes (sh_notes s) 0) []).
      + reflexivity.
      + cbn [app]. destruct (sh_notes s); [congruence|discriminate].
      + exact T. }
  (* body *)
  assert (Body : forall p col lk dv rg rb, lk = sh_links s -> dv = sh_dvs s -> rg = sh_merged s -> d_rb rb = RBInit -> d_cur rb = sh_cells s ->
    exists d', strace p (mkSD SRowblocks s1 col 0 0 lk dv rg rb) (sheet_body ls s ++ sheet_tail ac s) (p + adva (sheet_body ls s ++ sheet_tail ac s)) d'
      /\ e_state d' = SInit /\ e_sheet d' = sheet_after s /\ d_rb (e_rb d') = RBInit).
  { intros p col lk dv rg rb Hlk Hdv Hrg Hrb Hcur. unfold sheet_body. rewrite Ebl. unfold sheet_blocks in Ebl.
    destruct (sh_cells s) as [|c t] eqn:Ec.
    - cbn in Ebl. injection Ebl as <-. cbn [flat_map app].
      destruct (Tail p col lk dv rg rb Hlk Hdv Hrg Hrb) as (d' & T & R). exists d'. split; [|exact R].
      eapply strace_again; [|exact T]. unfold sh_step. sfields. change (sh_cells s1) with (sh_cells s). rewrite Ec. reflexivity.
    - rewrite <- Ec in *. assert (Hne : sh_cells s <> []) by (rewrite Ec; discriminate).
      destruct (rb_blocks_ok ls (sh_cells s) (sh_heights s) adv adv_small Hne (S (length (sh_cells s))) (sh_cells s) (sh_heights s) bl p
         (d_cnt rb) (d_start rb) (d_dboff rb) (d_first rb) (d_offs rb) Ebl Hc Hl) as (rb' & Tr & Hrb').
      destruct (Tail (p + adva (flat_map (block_units ls) bl)) col lk dv rg rb' Hlk Hdv Hrg Hrb') as (d' & T & R).
      exists d'. split; [|exact R]. rewrite adv_all_app, Z.add_assoc.
      eapply st_rb; [exact Hne| |exact T].
      eapply rbtr_again; [|exact Tr]. unfold rb_step. rewrite Hrb, Hcur. reflexivity. }
  (* head *)
  unfold sheet_units, sheet_head.
  destruct d as [st sh col note ni lk dv rg rb]. cbn [e_state e_sheet e_rb] in *. subst st sh.
  set (rb0 := mkRBD (d_rb rb) (d_rows rb) (d_cnt rb) (d_start rb) (sh_cells s) (d_dboff rb) (d_first rb) (d_offs rb) (d_rh rb)).
  set (hd1 := [ubuild (rec_bof 16); index_unit (pos + 20) s; ubuild (rec_defrowheight (sh_defrh s))]).
  set (cls := map (fun c => ubuild (rec_colinfo c)) (sh_cols s)).
  set (hd2 := [ubuild (rec_defcolwidth (sh_defcw s)); ubuild (rec_dimension (sh_minr s) (sh_maxr s) (sh_minc s) (sh_maxc s))]).
  destruct (Body (pos + adva hd1 + adva cls + adva hd2) [] (sh_links s) (sh_dvs s) (sh_merged s) rb0 eq_refl eq_refl eq_refl Er eq_refl) as (d' & T & R).
  exists d'. split; [|exact R]. rewrite !adv_all_app, !Z.add_assoc. rewrite adv_all_app, !Z.add_assoc in T. rewrite <- !app_assoc.
  eapply strace_again. { unfold sh_step. sfields. reflexivity. } fold rb0.
  unfold hd1. cbn [app].
  eapply strace_step. { unfold sh_step. sfields. rewrite build_bof. sfields. reflexivity. }
  assert (A1 : adv (ubuild (rec_bof 16)) = 20) by (apply adv_ub; [reflexivity|lia]).
  rewrite A1.
  eapply (strace_step _ _ (index_unit (pos + 20) s) (mkSD SDfltRow s1 (sh_cols s) 0 0 (sh_links s) (sh_dvs s) (sh_merged s) rb0)).
  { unfold sh_step. sfields. cbv zeta. rewrite num_row_blocks_ok by auto. cbn [bind].
    unfold s1, index_unit.
    destruct (sh_cells s) as [|c t] eqn:Ec.
    - change (Z.to_nat (zlen (sblocks []))) with 0%nat. cbn [index_loop bind]. rewrite build_index.
      unfold ubuild. cbv zeta. rewrite build_index. reflexivity.
    - replace (Z.to_nat (zlen (sblocks (c :: t)))) with (length (sblocks (c :: t))) by (unfold zlen; lia).
      pose proof (index_loop_ok (c :: t) (c :: t) (sblocks (c :: t)) [] 0
        (pos + 20 + (20 + 4 * zlen (sblocks (c :: t))) + 8 + 16 * zlen (sh_cols s) + 6 + 18) ltac:(auto)) as K.
      cbn [app] in K. rewrite K. cbn [bind ch_calc ch_sizes]. rewrite build_index.
      unfold ubuild. cbv zeta. rewrite build_index. reflexivity. }
  eapply strace_step. { unfold sh_step. sfields. rewrite (ubuild_ok _ _ (build_defrowheight _)). sfields. reflexivity. }
  change (sh_defrh s1) with (sh_defrh s).
  assert (A : pos + 20 + adv (index_unit (pos + 20) s) + adv (ubuild (rec_defrowheight (sh_defrh s))) = pos + adva hd1).
  { unfold hd1. rewrite !adv_all_cons. change (adva []) with 0. rewrite A1. lia. }
  rewrite A. apply st_colinfo; [change (sh_cols s1) with (sh_cols s); tauto|]. fold cls.
  unfold hd2. cbn [app].
  eapply strace_step. { unfold sh_step. sfields. rewrite (ubuild_ok _ _ (build_defcolwidth _)). sfields. reflexivity. }
  eapply strace_step. { unfold sh_step. sfields. rewrite build_dimension. sfields. reflexivity. }
  match goal with |- strace ?p _ _ _ _ => replace p with (pos + adva hd1 + adva cls + adva hd2) end. { exact T. }
  unfold hd2. rewrite !adv_all_cons. change (adva []) with 0. 
  change (sh_defcw s1) with (sh_defcw s). change (sh_minr s1) with (sh_minr s). change (sh_maxr s1) with (sh_maxr s).
  change (sh_minc s1) with (sh_minc s). change (sh_maxc s1) with (sh_maxc s). cbn [sh_defcw]. rewrite Z.add_0_r, !Z.add_assoc. reflexivity.
Qed.
End SH.
