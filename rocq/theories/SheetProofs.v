(** The worksheet dump machines emit an explicit list of records. *)
From Coq Require Import ZArith List Bool Lia ZifyBool ZifyNat.
From Verif Require Import Bytes UnitModel RecModel SheetModel RecProofs RecFrames.
Import ListNotations.
Local Open Scope Z_scope.

(* ------------------------------------------------------------------ *)
(** * The loops, one pass at a time *)

Ltac brk := match goal with
  | |- bind ?x _ = _ -> _ => let E := fresh "E" in destruct x as [?| |] eqn:E; cbn [bind]; try discriminate
  | |- (let '(_, _) := ?x in _) = _ -> _ => destruct x
  end.
Definition rb_rank (s : rbstate) : nat :=
  match s with RBInit => 3 | RBFirstRow => 2 | RBCells => 2 | _ => 1 end%nat.
Lemma rb_again_rank ls cells hs pos d d1 :
  rb_step ls cells hs pos d = Ok (Again, d1) -> (rb_rank (d_rb d1) < rb_rank (d_rb d))%nat.
Proof.
  unfold rb_step. destruct (d_rb d) eqn:E.
  - intro H. injection H as <-. cbn. lia.
  - destruct (xl_assert _); cbn [bind]; try discriminate.
    destruct (d_cur d); intro H; injection H as <-; cbn; lia.
  - destruct (d_cur d); try discriminate. destruct (row_scan _ _ _ _ _) as [[[? ?] ?] ?].
    brk.
    match goal with |- bind ?x _ = _ -> _ => destruct x as [[? ?]| |] end; cbn [bind]; try discriminate.
    destruct (build _); cbn [bind]; try discriminate. destruct (xl_assert _); cbn [bind]; try discriminate.
    destruct (_ || _)%bool; discriminate.
  - destruct (d_start d); try discriminate. destruct (cell_unit _ _); cbn [bind]; discriminate.
  - destruct (d_cnt d =? 0).
    + intro H; injection H as <-. cbn. lia.
    + destruct (d_start d); try discriminate. destruct (cell_unit _ _); cbn [bind]; discriminate.
  - destruct (build _); cbn [bind]; discriminate.
  - discriminate.
Qed.
Lemma rb_loop_enough ls cells hs pos : forall n m d, (rb_rank (d_rb d) <= n)%nat -> (rb_rank (d_rb d) <= m)%nat ->
  rb_loop n ls cells hs pos d = rb_loop m ls cells hs pos d.
Proof.
  induction n; intros m d Hn Hm. { destruct (d_rb d); cbn in Hn; lia. }
  destruct m. { destruct (d_rb d); cbn in Hm; lia. }
  cbn [rb_loop]. destruct (rb_step ls cells hs pos d) as [[[|u] d1]| |] eqn:E; cbn [bind]; auto.
  apply rb_again_rank in E. apply IHn; lia.
Qed.
Lemma row_blocks_dump_eq ls cells hs pos d :
  row_blocks_dump ls cells hs pos d =
  (let* (r, d1) := rb_step ls cells hs pos d in
   match r with Again => row_blocks_dump ls cells hs pos d1 | Give u => Ok (u, d1) end).
Proof.
  unfold row_blocks_dump. change (rb_loop 4 ls cells hs pos d) with
   (let* (r, d1) := rb_step ls cells hs pos d in
   match r with Again => rb_loop 3 ls cells hs pos d1 | Give u => Ok (u, d1) end).
  destruct (rb_step ls cells hs pos d) as [[[|u] d1]| |] eqn:E; cbn [bind]; auto.
  apply rb_again_rank in E. assert (rb_rank (d_rb d) <= 3)%nat by (destruct (d_rb d); cbn; lia).
  apply rb_loop_enough; lia.
Qed.

Definition sh_rank (s : shstate) : nat :=
  match s with
  | SInit => 2 | SColinfo => 2 | SRowblocks => 5 | SDrawings => 4 | SNotes => 3 | SMerged => 2
  | SPane => 5 | SHlinks => 4 | SValHead => 3 | SValBody => 2 | _ => 1
  end%nat.
Lemma sh_again_rank ls ac pos d d1 :
  sh_step ls ac pos d = Ok (Again, d1) -> (sh_rank (e_state d1) < sh_rank (e_state d))%nat.
Proof.
  unfold sh_step. destruct (e_state d) eqn:E; try (repeat brk; discriminate).
  - intro H. injection H as <-. cbn. lia.
  - destruct (sh_cols _). { intro H; injection H as <-; cbn; lia. }
    destruct (e_col d); try (repeat brk; discriminate).
  - destruct (sh_cells _). { intro H; injection H as <-; cbn; lia. }
    destruct (row_blocks_dump _ _ _ _ _) as [[[?|] ?]| |]; cbn [bind]; try discriminate. intro H; injection H as <-; cbn; lia.
  - destruct (sh_notes _). { intro H; injection H as <-; cbn; lia. }
    destruct (nth_error _ _). 2:{ intro H; injection H as <-; cbn; lia. }
    destruct (nth_error _ _); try (repeat brk; discriminate).
  - destruct (sh_notes _). { intro H; injection H as <-; cbn; lia. }
    destruct (nth_error _ _). 2:{ intro H; injection H as <-; cbn; lia. }
    repeat brk; discriminate.
  - destruct (sh_merged _). { intro H; injection H as <-; cbn; lia. }
    destruct (e_range _). { intro H; injection H as <-; cbn; lia. }
    cbv zeta. repeat brk; discriminate.
  - destruct (_ && _)%bool. { intro H; injection H as <-; cbn; lia. } repeat brk; discriminate.
  - destruct (sh_links _). { intro H; injection H as <-; cbn; lia. }
    destruct (e_link _); try (repeat brk; discriminate).
  - destruct (sh_dvs _). { intro H; injection H as <-; cbn; lia. } repeat brk; discriminate.
  - destruct (sh_dvs _). { intro H; injection H as <-; cbn; lia. }
    destruct (e_dv _); try (repeat brk; discriminate).
Qed.
Lemma sh_loop_enough ls ac pos : forall n m d, (sh_rank (e_state d) <= n)%nat -> (sh_rank (e_state d) <= m)%nat ->
  sh_loop n ls ac pos d = sh_loop m ls ac pos d.
Proof.
  induction n; intros m d Hn Hm. { destruct (e_state d); cbn in Hn; lia. }
  destruct m. { destruct (e_state d); cbn in Hm; lia. }
  cbn [sh_loop]. destruct (sh_step ls ac pos d) as [[[|u] d1]| |] eqn:E; cbn [bind]; auto.
  apply sh_again_rank in E. apply IHn; lia.
Qed.
Lemma sheet_dump_data_eq ls ac pos d :
  sheet_dump_data ls ac pos d =
  (let* (r, d1) := sh_step ls ac pos d in
   match r with Again => sheet_dump_data ls ac pos d1 | Give u => Ok (u, d1) end).
Proof.
  unfold sheet_dump_data. change (sh_loop 8 ls ac pos d) with
   (let* (r, d1) := sh_step ls ac pos d in
   match r with Again => sh_loop 7 ls ac pos d1 | Give u => Ok (u, d1) end).
  destruct (sh_step ls ac pos d) as [[[|u] d1]| |] eqn:E; cbn [bind]; auto.
  apply sh_again_rank in E. assert (sh_rank (e_state d) <= 5)%nat by (destruct (e_state d); cbn; lia).
  apply sh_loop_enough; lia.
Qed.

(* ------------------------------------------------------------------ *)
(** * Row blocks as a function *)

Record rowspec := mkRow { r_row : Z; r_fc : Z; r_lc : Z; r_h : Z; r_xf : option Z }.
Record block := mkBlk { k_rows : list rowspec; k_cells : list cell }.

(** Longest prefix of cells in row [r]. *)
Fixpoint span_row (r : Z) (l : list cell) : list cell * list cell :=
  match l with
  | [] => ([], [])
  | c :: t => if c_row c =? r then let '(a, b) := span_row r t in (c :: a, b) else ([], l)
  end.
Definition next_row (c : cell) (rh : list rowheight) : Z :=
  match rh with
  | h :: _ => if rh_row h <? c_row c then rh_row h else c_row c
  | [] => c_row c
  end.
Definition min_col (l : list cell) : Z := fold_left (fun m c => Z.min m (c_col c)) l 4294967295.
Definition max_col (l : list cell) : Z := fold_left (fun m c => Z.max m (c_col c)) l 0.
Definition cols_of (here : list cell) : Z * Z :=
  if max_col here <? min_col here then (1, 0) else (min_col here, max_col here).
Definition row_at (r : Z) (here : list cell) (rh : list rowheight) : rowspec * list rowheight :=
  let '(fc, lc) := cols_of here in
  match rh with
  | h :: t => if rh_row h =? r then (mkRow r fc lc (rh_height h) (rh_xf h), t)
              else (mkRow r fc lc 264 None, rh)
  | [] => (mkRow r fc lc 264 None, rh)
  end.
Fixpoint rows_of (n : nat) (cells : list cell) (rh : list rowheight) :
  list rowspec * list cell * list rowheight :=
  match n with
  | O => ([], cells, rh)
  | S m =>
      match cells with
      | [] => ([], [], rh)
      | c :: _ =>
          let '(here, rest) := span_row (next_row c rh) cells in
          let '(r, rh1) := row_at (next_row c rh) here rh in
          let '(rs, rest2, rh2) := rows_of m rest rh1 in
          (r :: rs, rest2, rh2)
      end
  end.
(** [None]: a block without cells, on which the machine does not terminate properly. *)
Fixpoint blocks_of (fuel : nat) (cells : list cell) (rh : list rowheight) : option (list block) :=
  match fuel with
  | O => None
  | S f =>
      match cells with
      | [] => Some []
      | _ =>
          let '(rs, rest, rh1) := rows_of 16 cells rh in
          let taken := (length cells - length rest + if at_last rest then 1 else 0)%nat in
          if Nat.eqb taken 0 then None
          else if at_last rest then Some [mkBlk rs (firstn taken cells)]
          else match blocks_of f rest rh1 with
               | Some bl => Some (mkBlk rs (firstn taken cells) :: bl)
               | None => None
               end
      end
  end.

Definition row_bytes (r : rowspec) : list Z :=
  le16 (r_row r) ++ le16 (r_fc r) ++ le16 (r_lc r + 1) ++ le16 (r_h r) ++ le16 0 ++ le16 0
  ++ le16 (if r_h r =? 264 then 128 else 192) ++ le16 (match r_xf r with Some i => i | None => 15 end).
Definition row_unit (r : rowspec) : bunit := mkBU (frame RT_ROW (row_bytes r)) false.
Definition cu (ls : labels) (c : cell) : bunit :=
  match cell_unit ls c with Ok u => u | _ => mkBU [] false end.
Definition sizes (ls : labels) (cs : list cell) : Z :=
  fold_right (fun c n => bu_size (cu ls c) + n) 0 cs.
Definition dbcell_unit (ls : labels) (b : block) : bunit :=
  mkBU (frame RT_DBCELL
    (le32 (20 * zlen (k_rows b) + sizes ls (k_cells b))
     ++ offs16 (20 * zlen (k_rows b) :: map (fun c => bu_size (cu ls c)) (tl (k_cells b))))) false.
Definition block_units (ls : labels) (b : block) : list bunit :=
  map row_unit (k_rows b) ++ map (cu ls) (k_cells b) ++ [dbcell_unit ls b].

Lemma build_row r : build (rec_row (r_row r) (r_fc r) (r_lc r) (r_h r) (r_xf r)) = Ok (row_unit r).
Proof.
  unfold rec_row. rewrite build_rec.
  - reflexivity.
  - unfold app_only. cbn. discriminate.
Qed.
Lemma row_unit_size r : bu_size (row_unit r) = 20.
Proof. unfold bu_size, row_unit; cbn [bu_bytes]. rewrite frame_length. reflexivity. Qed.

Lemma row_scan_span r l : forall fc lc cnt, 0 <= cnt -> cnt + zlen l < 4294967296 ->
  row_scan l r fc lc cnt =
  (snd (span_row r l), fold_left (fun m c => Z.min m (c_col c)) (fst (span_row r l)) fc,
   fold_left (fun m c => Z.max m (c_col c)) (fst (span_row r l)) lc, cnt + zlen (fst (span_row r l))).
Proof.
  induction l as [|c t IH]; intros fc lc cnt H0 H1; cbn [row_scan span_row].
  - cbn. rewrite Z.add_0_r. reflexivity.
  - rewrite zlen_cons in H1. assert (0 <= zlen t) by (unfold zlen; lia).
    destruct (c_row c =? r) eqn:E.
    + unfold w32. rewrite Z.mod_small by lia. rewrite IH by lia.
      destruct (span_row r t) as [a b]. cbn [fst snd fold_left]. rewrite zlen_cons. f_equal. lia.
    + cbn [fst snd fold_left]. unfold zlen at 1; cbn [length Z.of_nat]. rewrite Z.add_0_r. reflexivity.
Qed.
Lemma span_app r l : fst (span_row r l) ++ snd (span_row r l) = l.
Proof.
  induction l as [|c t IH]; [reflexivity|]. cbn [span_row]. destruct (c_row c =? r); [|reflexivity].
  destruct (span_row r t). cbn in *. rewrite IH. reflexivity.
Qed.
Lemma span_row_all r l : Forall (fun c => c_row c = r) (fst (span_row r l)).
Proof.
  induction l as [|c t IH]; [constructor|]. cbn [span_row]. destruct (c_row c =? r) eqn:E; [|constructor].
  destruct (span_row r t). cbn in *. constructor; [lia|auto].
Qed.
Lemma rows_of_suffix n : forall cells rh rs rest rh2, rows_of n cells rh = (rs, rest, rh2) ->
  exists pre, cells = pre ++ rest.
Proof.
  induction n; intros cells rh rs rest rh2 H; cbn [rows_of] in H.
  - injection H as _ <- _. exists []. reflexivity.
  - destruct cells as [|c t]. { injection H as _ <- _. exists []. reflexivity. }
    pose proof (span_app (next_row c rh) (c :: t)) as Hs.
    destruct (span_row (next_row c rh) (c :: t)) as [here rest1]. cbn [fst snd] in Hs.
    destruct (row_at _ _ _) as [r rh1]. destruct (rows_of n rest1 rh1) as [[rs' rest'] rh'] eqn:E.
    injection H as _ <- _. apply IHn in E. destruct E as [pre E].
    exists (here ++ pre). rewrite <- app_assoc, <- E. auto.
Qed.
Lemma rows_of_len n : forall cells rh rs rest rh2, rows_of n cells rh = (rs, rest, rh2) -> (length rs <= n)%nat.
Proof.
  induction n; intros cells rh rs rest rh2 H; cbn [rows_of] in H.
  - injection H as <- _ _. cbn; lia.
  - destruct cells as [|c t]. { injection H as <- _ _. cbn; lia. }
    destruct (span_row _ _) as [here rest1]. destruct (row_at _ _ _) as [r rh1].
    destruct (rows_of n rest1 rh1) as [[rs' rest'] rh'] eqn:E.
    injection H as <- _ _. apply IHn in E. cbn [length]. lia.
Qed.

(* ------------------------------------------------------------------ *)
(** * The row-block machine emits [block_units] *)

Section RB.
Variables (ls : labels) (cells0 : list cell) (hs0 : list rowheight) (adv : bunit -> Z).
Hypothesis adv_small : forall u, bu_size u <= 8228 -> adv u = bu_size u.
Hypothesis cells0_ne : cells0 <> [].

Inductive rbtr : Z -> rbdump -> list bunit -> Z -> rbdump -> Prop :=
| rbtr_end pos d d' : row_blocks_dump ls cells0 hs0 pos d = Ok (None, d') -> rbtr pos d [] pos d'
| rbtr_give pos d u d1 us pos' d' : row_blocks_dump ls cells0 hs0 pos d = Ok (Some u, d1) ->
    rbtr (pos + adv u) d1 us pos' d' -> rbtr pos d (u :: us) pos' d'.

Lemma rbtr_again pos d d1 us pos' d' : rb_step ls cells0 hs0 pos d = Ok (Again, d1) ->
  rbtr pos d1 us pos' d' -> rbtr pos d us pos' d'.
Proof.
  intros H T. destruct T as [pos d1 d' E|pos d1 u d2 us pos' d' E T].
  - apply rbtr_end. rewrite row_blocks_dump_eq, H. exact E.
  - eapply rbtr_give; [|exact T]. rewrite row_blocks_dump_eq, H. exact E.
Qed.
Lemma rbtr_step pos d u d1 us pos' d' : rb_step ls cells0 hs0 pos d = Ok (Give (Some u), d1) ->
  rbtr (pos + adv u) d1 us pos' d' -> rbtr pos d (u :: us) pos' d'.
Proof. intros H T. eapply rbtr_give; [|exact T]. rewrite row_blocks_dump_eq, H. reflexivity. Qed.

Lemma rb_rows_ok n : forall cur rh rows cnt start dboff first offs pos rs rest rh' us p' d',
  cur <> [] -> rows + Z.of_nat n = 16 -> 0 <= rows -> (0 < n)%nat -> 0 <= cnt -> cnt + zlen cur < 4294967295 ->
  rows_of n cur rh = (rs, rest, rh') ->
  rbtr (pos + 20 * zlen rs)
    (mkRBD RBFirstCell 0 (cnt + (zlen cur - zlen rest) + if at_last rest then 1 else 0) start rest
       (dboff + 20 * zlen rs) first offs rh') us p' d' ->
  rbtr pos (mkRBD RBRows rows cnt start cur dboff first offs rh) (map row_unit rs ++ us) p' d'.
Proof.
  induction n; intros cur rh rows cnt start dboff first offs pos rs rest rh' us p' d' Hne Hr H0 Hn Hc Hl H T; [lia|].
  cbn [rows_of] in H. destruct cur as [|c t]; [congruence|]. clear Hne.
  set (r := next_row c rh) in *. set (cur := c :: t) in *.
  pose proof (span_app r cur) as Hs.
  pose proof (row_scan_span r cur 4294967295 0 cnt Hc ltac:(lia)) as Hsc.
  destruct (span_row r cur) as [here rest1]. cbn [fst snd] in Hs, Hsc.
  destruct (row_at r here rh) as [ro rh1] eqn:Era.
  destruct (rows_of n rest1 rh1) as [[rs' rest'] rh''] eqn:Ero.
  injection H as <- <- <-.
  assert (Hlen : zlen cur = zlen here + zlen rest1) by (rewrite <- Hs, zlen_app; reflexivity).
  (* the step *)
  assert (St : rb_step ls cells0 hs0 pos (mkRBD RBRows rows cnt start cur dboff first offs rh) =
    let full := ((MAX_ROWBLOCK <=? w32 (rows + 1)) || match rest1 with [] => true | _ => false end)%bool in
    if full then Ok (Give (Some (row_unit ro)), mkRBD RBFirstCell 0 (if at_last rest1 then w32 (cnt + zlen here + 1) else cnt + zlen here) start rest1 (dboff + 20) first offs rh1)
    else Ok (Give (Some (row_unit ro)), mkRBD RBRows (w32 (rows + 1)) (cnt + zlen here) start rest1 (dboff + 20) first offs rh1)).
  { unfold rb_step. cbn [d_rb d_cur d_rh d_cnt d_rows d_start d_dboff d_first d_offs].
    unfold cur at 1. fold r. change (match rh with h :: _ => if rh_row h <? c_row c then rh_row h else c_row c | [] => c_row c end) with r.
    rewrite Hsc. fold (min_col here) (max_col here). unfold row_at, cols_of in Era.
    destruct (if max_col here <? min_col here then (1, 0) else (min_col here, max_col here)) as [fc lc].
    assert (Ho : (match rh with
        | h :: t0 => let* _ := xl_assert (r <=? rh_row h) in
              (if rh_row h =? r then Ok (rec_row r fc lc (rh_height h) (rh_xf h), t0) else Ok (rec_row r fc lc 264 None, rh))
        | [] => Ok (rec_row r fc lc 264 None, rh) end) =
        Ok (rec_row (r_row ro) (r_fc ro) (r_lc ro) (r_h ro) (r_xf ro), rh1)).
    { destruct rh as [|h rt].
      - injection Era as <- <-. reflexivity.
      - assert (Hle : (r <=? rh_row h) = true).
        { unfold r, next_row. destruct (rh_row h <? c_row c) eqn:E; lia. }
        rewrite Hle. cbn [xl_assert bind]. destruct (rh_row h =? r); injection Era as <- <-; reflexivity. }
    rewrite Ho. cbn [bind]. rewrite build_row. cbn [bind]. rewrite row_unit_size. cbn [xl_assert bind Z.eqb Pos.eqb ROW_SIZE]. reflexivity. }
  cbn [map app]. assert (Hw : w32 (rows + 1) = rows + 1) by (unfold w32; apply Z.mod_small; lia).
  assert (Hadv : adv (row_unit ro) = 20).
  { rewrite adv_small; rewrite row_unit_size; lia. }
  assert (Hz : zlen (ro :: rs') = 1 + zlen rs') by (rewrite zlen_cons; lia).
  cbv zeta in St. rewrite Hw in St. rewrite Hz in T.
  destruct ((MAX_ROWBLOCK <=? rows + 1) || match rest1 with [] => true | _ => false end)%bool eqn:Ef.
  - assert (rs' = [] /\ rest' = rest1 /\ rh'' = rh1) as (-> & -> & ->).
    { unfold MAX_ROWBLOCK in Ef. destruct rest1 as [|c1 rt1].
      - destruct n; cbn [rows_of] in Ero; injection Ero as <- <- <-; auto.
      - assert (n = 0%nat) as -> by lia. cbn [rows_of] in Ero; injection Ero as <- <- <-; auto. }
    eapply rbtr_step; [exact St|]. rewrite Hadv.
    cbn [map app]. change (zlen (@nil rowspec)) with 0 in T.
    match goal with |- rbtr ?p ?d us p' d' => match type of T with rbtr ?p1 ?d1 us p' d' =>
      replace p with p1 by lia; replace d with d1; [exact T|] end end.
    f_equal; try lia. destruct (at_last rest1) eqn:Ea; [|lia].
    unfold w32. rewrite Z.mod_small; [lia|]. unfold zlen in *. lia.
  - unfold MAX_ROWBLOCK in Ef. eapply rbtr_step; [exact St|]. rewrite Hadv.
    eapply IHn; [destruct rest1; [rewrite orb_true_r in Ef; discriminate|discriminate] | | | | | |exact Ero|]; try lia.
    + unfold zlen in *; lia.
    + match goal with |- rbtr ?p ?d us p' d' => match type of T with rbtr ?p1 ?d1 us p' d' =>
      replace p with p1 by lia; replace d with d1; [exact T|] end end.
      f_equal; lia.
Qed.

Lemma dbcell_step pos rows cnt start cur dboff first offs rh :
  rb_step ls cells0 hs0 pos (mkRBD RBDbcell rows cnt start cur dboff first offs rh) =
  Ok (Give (Some (mkBU (frame RT_DBCELL (le32 dboff ++ offs16 offs)) false)),
      mkRBD (if at_last cur then RBFinish else RBFirstRow) rows cnt start cur dboff first offs rh).
Proof.
  unfold rb_step. cbn [d_rb d_cur d_rh d_cnt d_rows d_start d_dboff d_first d_offs].
  rewrite build_dbcell. reflexivity.
Qed.

Lemma rb_cells_ok cs : forall tl cnt cur dboff first offs rh pos us p' d' rows,
  cnt = zlen cs -> cnt < 4294967296 -> Forall (fun c => cell_unit ls c = Ok (cu ls c)) cs ->
  let db := mkBU (frame RT_DBCELL (le32 (dboff + sizes ls cs) ++ offs16 (offs ++ map (fun c => bu_size (cu ls c)) cs))) false in
  rbtr (pos + fold_right (fun c n => adv (cu ls c) + n) 0 cs + adv db)
    (mkRBD (if at_last cur then RBFinish else RBFirstRow) rows 0 tl cur (dboff + sizes ls cs) first
           (offs ++ map (fun c => bu_size (cu ls c)) cs) rh) us p' d' ->
  rbtr pos (mkRBD RBCells rows cnt (cs ++ tl) cur dboff first offs rh) (map (cu ls) cs ++ db :: us) p' d'.
Proof.
  induction cs as [|c t IH]; intros tl cnt cur dboff first offs rh pos us p' d' rows -> Hb F db T.
  - eapply rbtr_again; [unfold rb_step; cbn [d_rb d_cnt zlen length Z.of_nat Z.eqb]; reflexivity|].
    cbn [d_rows d_cnt d_start d_cur d_dboff d_first d_offs d_rh app map].
    subst db. cbn [sizes fold_right map] in *. rewrite !Z.add_0_r in *. rewrite !app_nil_r in *.
    eapply rbtr_step; [apply dbcell_step|]. exact T.
  - inversion F as [|? ? Fc Ft]; subst. rewrite zlen_cons in *. assert (0 <= zlen t) by (unfold zlen; lia).
    cbn [map app].
    eapply rbtr_step.
    { unfold rb_step. cbn [d_rb d_cnt d_start]. replace (zlen t + 1 =? 0) with false by lia.
      rewrite Fc. cbn [bind d_rows d_cur d_dboff d_first d_offs d_rh]. reflexivity. }
    replace (w32 (zlen t + 1 - 1)) with (zlen t) by (unfold w32; rewrite Z.mod_small; lia).
    cbn [map sizes fold_right] in *. fold (sizes ls t) in *.
    specialize (IH tl (zlen t) cur (dboff + bu_size (cu ls c)) first (offs ++ [bu_size (cu ls c)]) rh (pos + adv (cu ls c)) us p' d' rows
       eq_refl ltac:(lia) Ft). cbv zeta in IH.
    replace (dboff + bu_size (cu ls c) + sizes ls t) with (dboff + (bu_size (cu ls c) + sizes ls t)) in IH by lia.
    rewrite <- app_assoc in IH. cbn [app] in IH. apply IH.
    rewrite <- Z.add_assoc in T. rewrite <- !Z.add_assoc. rewrite <- Z.add_assoc in T. exact T.
Qed.

Definition adv_all (us : list bunit) : Z := fold_right (fun u n => adv u + n) 0 us.
Lemma adv_all_cons u l : adv_all (u :: l) = adv u + adv_all l.
Proof. reflexivity. Qed.
Lemma adv_all_app a b : adv_all (a ++ b) = adv_all a + adv_all b.
Proof. clear adv_small. induction a as [|u a IH]; [reflexivity|]. cbn [app]. rewrite !adv_all_cons, IH. lia. Qed.
Lemma adv_all_map f (l : list cell) : adv_all (map f l) = fold_right (fun c n => adv (f c) + n) 0 l.
Proof. clear adv_small. induction l as [|c l IH]; [reflexivity|]. cbn [map fold_right]. rewrite adv_all_cons, IH. lia. Qed.
Lemma adv_rows rs : adv_all (map row_unit rs) = 20 * zlen rs.
Proof.
  induction rs as [|r rs IH]; [reflexivity|]. cbn [map]. rewrite adv_all_cons, IH.
  rewrite adv_small by (rewrite row_unit_size; lia). rewrite row_unit_size, zlen_cons. lia.
Qed.

Lemma rb_first_ok c cs tl cur rh pos first n :
  zlen (c :: cs) < 4294967296 -> Forall (fun c => cell_unit ls c = Ok (cu ls c)) (c :: cs) -> pos - first = 20 * n ->
  let db := mkBU (frame RT_DBCELL (le32 (20 * n + sizes ls (c :: cs)) ++ offs16 (20 * n :: map (fun c => bu_size (cu ls c)) cs))) false in
  exists st, forall us p' d', rbtr (pos + adv_all (map (cu ls) (c :: cs)) + adv db)
    (mkRBD (if at_last cur then RBFinish else RBFirstRow) 0 0 st cur (20 * n + sizes ls (c :: cs)) first
           (20 * n :: map (fun c => bu_size (cu ls c)) cs) rh) us p' d' ->
  rbtr pos (mkRBD RBFirstCell 0 (zlen (c :: cs)) ((c :: cs) ++ tl) cur (20 * n) first [] rh)
       (map (cu ls) (c :: cs) ++ db :: us) p' d'.
Proof.
  intros Hb F Hp db. inversion F as [|? ? Fc Ft]; subst. rewrite zlen_cons in *. assert (0 <= zlen cs) by (unfold zlen; lia).
  exists (match cs with [] => c :: tl | _ => tl end). intros us p' d' T.
  cbn [map app]. eapply rbtr_step.
  { unfold rb_step. cbn [d_rb d_cnt d_start]. rewrite Fc.
    cbn [bind d_rows d_cur d_dboff d_first d_offs d_rh]. rewrite Hp. reflexivity. }
  replace (w32 (zlen cs + 1 - 1)) with (zlen cs) by (unfold w32; rewrite Z.mod_small; lia).
  destruct cs as [|c1 cs].
  - change (zlen (@nil cell) =? 0) with true. cbv iota. subst db. cbn [map app adv_all fold_right sizes] in *.
    rewrite Z.add_0_r in T. rewrite Z.add_0_r in *. eapply rbtr_step; [apply dbcell_step|]. apply T.
  - replace (zlen (c1 :: cs) =? 0) with false by (rewrite zlen_cons; unfold zlen; lia).
    cbv iota.
    pose proof (rb_cells_ok (c1 :: cs) tl (zlen (c1 :: cs)) cur (20 * n + bu_size (cu ls c)) first [20 * n] rh (pos + adv (cu ls c)) us p' d' 0
       eq_refl ltac:(lia) Ft) as K. cbv zeta in K. subst db.
    replace (20 * n + bu_size (cu ls c) + sizes ls (c1 :: cs)) with (20 * n + sizes ls (c :: c1 :: cs)) in K by (cbn [sizes fold_right]; lia).
    cbn [app] in K. apply K. clear K.
    match goal with |- rbtr ?p ?d us p' d' => match type of T with rbtr ?p1 ?d1 us p' d' =>
      replace p with p1; [exact T|] end end.
    rewrite adv_all_map. cbn [fold_right]. lia.
Qed.

Lemma rb_blocks_ok fuel : forall cur rh bl pos cnt start dboff first offs,
  blocks_of fuel cur rh = Some bl -> Forall (fun c => cell_unit ls c = Ok (cu ls c)) cur ->
  zlen cur < 4294967295 ->
  exists d', rbtr pos (mkRBD RBFirstRow 0 cnt start cur dboff first offs rh) (flat_map (block_units ls) bl)
                  (pos + adv_all (flat_map (block_units ls) bl)) d'
    /\ d_rb d' = RBInit.
Proof.
  induction fuel; intros cur rh bl pos cnt start dboff first offs H F Hl; cbn [blocks_of] in H; [discriminate|].
  assert (Hne0 : negb (zlen cells0 =? 0) = true) by (destruct cells0; [congruence|rewrite zlen_cons; unfold zlen; lia]).
  destruct cur as [|c t].
  - injection H as <-. eexists. split; [|shelve].
    eapply rbtr_again.
    { unfold rb_step. cbn [d_rb]. rewrite Hne0. cbn [xl_assert bind d_cur]. reflexivity. }
    cbn [flat_map adv_all fold_right]. rewrite Z.add_0_r. apply rbtr_end.
    rewrite row_blocks_dump_eq. unfold rb_step. cbn [d_rb bind]. reflexivity.
    Unshelve. reflexivity.
  - set (cur := c :: t) in *.
    destruct (rows_of 16 cur rh) as [[rs rest] rh1] eqn:Er.
    destruct (rows_of_suffix 16 _ _ _ _ _ Er) as [pre Hpre].
    set (x := (if at_last rest then 1 else 0)%nat) in *.
    assert (Htk : (length cur - length rest + x)%nat = (length pre + x)%nat).
    { rewrite Hpre, app_length. lia. }
    rewrite Htk in H. destruct (Nat.eqb (length pre + x) 0) eqn:E0; [discriminate|]. apply Nat.eqb_neq in E0.
    (* the cells of the block *)
    set (cs := firstn (length pre + x) cur) in *.
    assert (Hcs : exists tl, cur = cs ++ tl) by (exists (skipn (length pre + x) cur); symmetry; apply firstn_skipn).
    destruct Hcs as [tl Htl].
    assert (Hlen : length cs = (length pre + x)%nat).
    { unfold cs. rewrite firstn_length. rewrite Hpre, app_length. unfold x. destruct rest as [|? [|? ?]]; cbn; lia. }
    assert (Hcnt : zlen cs = zlen cur - zlen rest + (if at_last rest then 1 else 0)).
    { unfold zlen. rewrite Hlen, Hpre, app_length. unfold x. destruct (at_last rest); lia. }
    assert (Fcs : Forall (fun c => cell_unit ls c = Ok (cu ls c)) cs).
    { rewrite Htl in F. apply Forall_app in F. tauto. }
    assert (Frest : Forall (fun c => cell_unit ls c = Ok (cu ls c)) rest).
    { rewrite Hpre in F. apply Forall_app in F. tauto. }
    assert (Hlcs : zlen cs < 4294967296).
    { unfold zlen in *. rewrite Htl, app_length in Hl. lia. }
    assert (Hlrest : zlen rest < 4294967295).
    { unfold zlen in *. rewrite Hpre, app_length in Hl. lia. }
    clearbody cs. destruct cs as [|c0 cs']; [cbn in Hlen; lia|].
    set (blk := mkBlk rs (c0 :: cs')) in *.
    (* the machine through the block *)
    assert (G : exists st, forall us p' d',
      rbtr (pos + adv_all (block_units ls blk))
         (mkRBD (if at_last rest then RBFinish else RBFirstRow) 0 0 st rest (20 * zlen rs + sizes ls (c0 :: cs')) pos
           (20 * zlen rs :: map (fun c => bu_size (cu ls c)) cs') rh1) us p' d' ->
      rbtr pos (mkRBD RBFirstRow 0 cnt start cur dboff first offs rh) (block_units ls blk ++ us) p' d').
    { destruct (rb_first_ok c0 cs' tl rest rh1 (pos + 20 * zlen rs) pos (zlen rs) Hlcs Fcs ltac:(lia)) as [st K].
      cbv zeta in K. exists st. intros us p' d' T. specialize (K us p' d').
      eapply rbtr_again.
      { unfold rb_step. cbn [d_rb]. rewrite Hne0. cbn [xl_assert bind d_cur]. unfold cur at 1. fold cur.
        cbn [d_rows d_rh]. reflexivity. }
      unfold block_units, dbcell_unit. rewrite <- !app_assoc.
      change (k_rows blk) with rs. change (k_cells blk) with (c0 :: cs').
      eapply (rb_rows_ok 16); [discriminate| | | | | |exact Er|]; try lia.
      rewrite !Z.add_0_l, <- Hcnt. rewrite <- Htl in K. apply K. clear K.
      unfold block_units, dbcell_unit in T. rewrite !adv_all_app in T.
      change (k_rows blk) with rs in T. change (k_cells blk) with (c0 :: cs') in T. rewrite adv_rows in T.
      rewrite adv_all_cons in T. change (adv_all []) with 0 in T. rewrite Z.add_0_r, !Z.add_assoc in T. exact T. }
    destruct G as [st G].
    destruct (at_last rest) eqn:Ea.
    + injection H as <-. eexists. split.
      * cbn [flat_map]. rewrite app_nil_r. rewrite <- (app_nil_r (block_units ls blk)) at 1. apply G. apply rbtr_end.
        rewrite row_blocks_dump_eq. unfold rb_step. cbn [d_rb bind]. reflexivity.
      * reflexivity.
    + destruct (blocks_of fuel rest rh1) as [bl'|] eqn:Eb; [|discriminate]. injection H as <-.
      edestruct (IHfuel rest rh1 bl' (pos + adv_all (block_units ls blk))) as (d' & T & Hd); [exact Eb|exact Frest|exact Hlrest|].
      exists d'. split; [|exact Hd]. cbn [flat_map]. apply G. rewrite adv_all_app, Z.add_assoc. apply T.
Qed.
End RB.
