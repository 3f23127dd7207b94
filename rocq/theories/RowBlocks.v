(** The rows described in the row blocks of a sheet. *)
From Coq Require Import ZArith List Bool Lia ZifyBool ZifyNat Sorting.Sorted.
From Verif Require Import Bytes UnitModel RecModel SheetModel XfModel WbModel RecProofs RecFrames SheetProofs XfInv ApiModel ApiInv SpecApi ApiEff SaveOk.
Import ListNotations.
Local Open Scope Z_scope.

Definition in_row (r : Z) (cells : list cell) : list cell := filter (fun c => c_row c =? r) cells.
Definition at_row (r : Z) (rh : list rowheight) : option rowheight := find (fun h => rh_row h =? r) rh.
Definition height_spec (o : option rowheight) : Z * option Z :=
  match o with Some h => (rh_height h, rh_xf h) | None => (264, None) end.
(** The row record says what cells and heights say. *)
Definition row_good (cells : list cell) (rh : list rowheight) (x : rowspec) : Prop :=
  (r_fc x, r_lc x) = cols_of (in_row (r_row x) cells) /\ (r_h x, r_xf x) = height_spec (at_row (r_row x) rh).
Definition rsorted (l : list rowspec) : Prop := StronglySorted (fun a b => r_row a < r_row b) l.

Lemma in_row_none r l : Forall (fun c => c_row c <> r) l -> in_row r l = [].
Proof. induction 1 as [|c l H F IH]; [reflexivity|]. unfold in_row in *. cbn [filter]. replace (c_row c =? r) with false by lia. exact IH. Qed.
Lemma in_row_all r l : Forall (fun c => c_row c = r) l -> in_row r l = l.
Proof. induction 1 as [|c l H F IH]; [reflexivity|]. unfold in_row in *. cbn [filter]. replace (c_row c =? r) with true by lia. rewrite IH. reflexivity. Qed.
Lemma in_row_app r a b : in_row r (a ++ b) = in_row r a ++ in_row r b.
Proof. apply filter_app. Qed.
Lemma at_row_none r l : Forall (fun h => rh_row h <> r) l -> at_row r l = None.
Proof. induction 1 as [|c l H F IH]; [reflexivity|]. unfold at_row in *. cbn [find]. replace (rh_row c =? r) with false by lia. exact IH. Qed.
Lemma at_row_app r a b : Forall (fun h => rh_row h <> r) a -> at_row r (a ++ b) = at_row r b.
Proof. induction 1 as [|c l H F IH]; [reflexivity|]. unfold at_row in *. cbn [find app]. replace (rh_row c =? r) with false by lia. exact IH. Qed.

Record rows_spec (cells : list cell) (rh : list rowheight) (rs : list rowspec) (pre rest : list cell) (hpre rh2 : list rowheight) : Prop := {
  rw_cells : cells = pre ++ rest;
  rw_heights : rh = hpre ++ rh2;
  rw_sorted : rsorted rs;
  rw_good : Forall (row_good cells rh) rs;
  rw_pre : forall c, In c pre -> exists x, In x rs /\ r_row x = c_row c;
  rw_hpre : forall h, In h hpre -> exists x, In x rs /\ r_row x = rh_row h;
  rw_why : forall x, In x rs -> (exists c, In c pre /\ c_row c = r_row x)
             \/ (exists h c, In h hpre /\ rh_row h = r_row x /\ In c cells /\ r_row x <= c_row c);
  rw_rest : forall x c, In x rs -> In c rest -> r_row x < c_row c;
  rw_rh2 : forall x h, In x rs -> In h rh2 -> r_row x < rh_row h }.

(** The first row. *)
Lemma first_row c t rh : csorted (c :: t) -> hsorted rh ->
  let r := next_row c rh in
  let here := fst (span_row r (c :: t)) in
  let rest := snd (span_row r (c :: t)) in
  let x := fst (row_at r here rh) in
  let rh1 := snd (row_at r here rh) in
  exists hp, rows_spec (c :: t) rh [x] here rest hp rh1 /\ r_row x = r.
Proof.
  intros S H. cbv zeta. pose proof (row_step c t rh S H) as R. cbv zeta in R.
  remember (next_row c rh) as r eqn:Enr.
  assert (F : Forall (fun x => r <= c_row x) (c :: t)).
  { pose proof (next_row_le c rh) as Hn. rewrite <- Enr in Hn. apply csorted_inv in S. destruct S as [S G]. apply clt_rows in G.
    constructor; [assumption|]. eapply Forall_impl; [|exact G]. cbn. intros; lia. }
  destruct (span_sorted r _ S F) as [S1 F1]. pose proof (span_app r (c :: t)) as A. pose proof (span_row_all r (c :: t)) as Al.
  destruct R as (_ & _ & Fh & _ & _).
  set (here := fst (span_row r (c :: t))) in *. set (rest := snd (span_row r (c :: t))) in *.
  assert (Ehere : in_row r (c :: t) = here).
  { rewrite <- A, in_row_app, (in_row_all r here Al), in_row_none, app_nil_r; [reflexivity|]. eapply Forall_impl; [|exact F1]. cbn. intros; lia. }
  assert (Xr : r_row (fst (row_at r here rh)) = r).
  { unfold row_at. destruct (cols_of here). destruct rh as [|h rh']; [reflexivity|]. destruct (rh_row h =? r); reflexivity. }
  set (hp := match rh with h :: _ => if rh_row h =? r then [h] else [] | [] => [] end).
  assert (Ehp : rh = hp ++ snd (row_at r here rh)).
  { rewrite row_at_rest. unfold hp. destruct rh as [|h rh']; [reflexivity|]. destruct (rh_row h =? r); reflexivity. }
  exists hp. split; [|exact Xr]. constructor.
  - symmetry. exact A.
  - exact Ehp.
  - repeat constructor.
  - repeat constructor; rewrite Xr.
    + rewrite Ehere. unfold row_at. destruct (cols_of here) as [fc lc]. destruct rh as [|h rh']; [reflexivity|]. destruct (rh_row h =? r); reflexivity.
    + clear - H Enr Fh. unfold row_at in *. destruct (cols_of here) as [fc lc]. destruct rh as [|h rh']; [reflexivity|]. cbn [at_row find]. unfold at_row. cbn [find].
      destruct (rh_row h =? r) eqn:E; [reflexivity|]. cbn [fst snd r_h r_xf] in *. change (find _ rh') with (at_row r rh').
      rewrite at_row_none; [reflexivity|]. apply Forall_inv_tail in Fh. eapply Forall_impl; [|exact Fh]. cbn. intros; lia.
  - intros y J. exists (fst (row_at r here rh)). split; [left; reflexivity|]. rewrite Xr. rewrite Forall_forall in Al. symmetry. apply Al. exact J.
  - intros h J. exists (fst (row_at r here rh)). split; [left; reflexivity|]. rewrite Xr. unfold hp in J. destruct rh as [|h0 rh']; [destruct J|].
    destruct (rh_row h0 =? r) eqn:E; [|destruct J]. destruct J as [<-|[]]. lia.
  - intros y [<-|[]]. rewrite Xr. destruct here as [|y l] eqn:Eh.
    + right. unfold hp. unfold next_row in Enr. destruct rh as [|h rh'].
      * exfalso. unfold in_row in Ehere. cbn [filter] in Ehere. replace (c_row c =? r) with true in Ehere by lia. discriminate Ehere.
      * exists h, c. assert (rh_row h = r).
        { destruct (rh_row h <? c_row c) eqn:E; [lia|]. exfalso. unfold in_row in Ehere. cbn [filter] in Ehere. replace (c_row c =? r) with true in Ehere by lia. discriminate Ehere. }
        replace (rh_row h =? r) with true by lia. split; [left; reflexivity|]. split; [assumption|]. split; [left; reflexivity|]. inversion F; subst; assumption.
    + left. exists y. split; [left; reflexivity|]. inversion Al; subst; assumption.
  - intros x y [<-|[]] J. rewrite Xr. rewrite Forall_forall in F1. apply F1. exact J.
  - intros x h [<-|[]] J. rewrite Xr. rewrite Forall_forall in Fh. apply Fh. exact J.
Qed.

(** Putting two stretches of rows together. *)
Lemma rows_join cells rh rs1 pre1 rest1 hp1 rh1 rs2 pre2 rest2 hp2 rh2 :
  rows_spec cells rh rs1 pre1 rest1 hp1 rh1 -> rows_spec rest1 rh1 rs2 pre2 rest2 hp2 rh2 -> csorted cells ->
  rows_spec cells rh (rs1 ++ rs2) (pre1 ++ pre2) rest2 (hp1 ++ hp2) rh2.
Proof.
  intros [] [] Cs. 
  assert (Lt : forall x y, In x rs1 -> In y rs2 -> r_row x < r_row y).
  { intros x y Jx Jy. destruct (rw_why1 y Jy) as [(c & J & <-)|(h & c & J & <- & _)].
    - apply rw_rest0; auto. rewrite rw_cells1. apply in_or_app. auto.
    - apply rw_rh3; auto. rewrite rw_heights1. apply in_or_app. auto. }
  constructor.
  - rewrite <- app_assoc, <- rw_cells1. exact rw_cells0.
  - rewrite <- app_assoc, <- rw_heights1. exact rw_heights0.
  - clear - rw_sorted0 rw_sorted1 Lt. induction rw_sorted0 as [|x l So IH F]; [exact rw_sorted1|]. cbn [app]. constructor.
    + apply IH. intros a b Ja Jb. apply Lt; auto. right. exact Ja.
    + apply Forall_app. split; [exact F|]. apply Forall_forall. intros b Jb. apply Lt; [left; reflexivity|exact Jb].
  - apply Forall_app. split; [exact rw_good0|]. apply Forall_forall. intros y Jy. rewrite Forall_forall in rw_good1. destruct (rw_good1 y Jy) as [G1 G2].
    split.
    + rewrite G1, rw_cells0, in_row_app, (in_row_none _ pre1); [reflexivity|].
      apply Forall_forall. intros c J. destruct (rw_pre0 c J) as (x & Jx & Ex). specialize (Lt x y Jx Jy). lia.
    + rewrite G2, rw_heights0, at_row_app; [reflexivity|].
      apply Forall_forall. intros h J. destruct (rw_hpre0 h J) as (x & Jx & Ex). specialize (Lt x y Jx Jy). lia.
  - intros c J. apply in_app_or in J. destruct J as [J|J]; [destruct (rw_pre0 c J) as (x & Jx & Ex)|destruct (rw_pre1 c J) as (x & Jx & Ex)];
      exists x; (split; [apply in_or_app; auto|exact Ex]).
  - intros h J. apply in_app_or in J. destruct J as [J|J]; [destruct (rw_hpre0 h J) as (x & Jx & Ex)|destruct (rw_hpre1 h J) as (x & Jx & Ex)];
      exists x; (split; [apply in_or_app; auto|exact Ex]).
  - intros x J. apply in_app_or in J. destruct J as [J|J]; [destruct (rw_why0 x J) as [(c & A & B)|(h & c & A & B & C & D)]|destruct (rw_why1 x J) as [(c & A & B)|(h & c & A & B & C & D)]].
    + left. exists c. split; [apply in_or_app; auto|exact B].
    + right. exists h, c. split; [apply in_or_app; auto|]. auto.
    + left. exists c. split; [apply in_or_app; auto|exact B].
    + right. exists h, c. split; [apply in_or_app; auto|]. split; [exact B|]. split; [rewrite rw_cells0; apply in_or_app; auto|exact D].
  - intros x c J Jc. apply in_app_or in J. destruct J as [J|J]; [|apply rw_rest1; auto]. apply rw_rest0; auto. rewrite rw_cells1. apply in_or_app. auto.
  - intros x h J Jh. apply in_app_or in J. destruct J as [J|J]; [|apply rw_rh4; auto]. apply rw_rh3; auto. rewrite rw_heights1. apply in_or_app. auto.
Qed.
Lemma rows_of_spec n : forall cells rh rs rest rh2, csorted cells -> hsorted rh -> rows_of n cells rh = (rs, rest, rh2) ->
  exists pre hpre, rows_spec cells rh rs pre rest hpre rh2.
Proof.
  induction n; intros cells rh rs rest rh2 S H E; cbn [rows_of] in E.
  - injection E as <- <- <-. exists [], []. constructor; auto; try (repeat constructor); intros; cbn in *; tauto.
  - destruct cells as [|c t]. { injection E as <- <- <-. exists [], []. constructor; auto; try (repeat constructor); intros; cbn in *; tauto. }
    pose proof (first_row c t rh S H) as R. pose proof (row_step c t rh S H) as R1. cbv zeta in R, R1.
    destruct (span_row (next_row c rh) (c :: t)) as [here rest1]. cbn [fst snd] in R, R1.
    destruct (row_at _ here rh) as [r rh1]. cbn [fst snd] in R, R1. destruct R as (hp & Sp & _). destruct R1 as (S1 & H1 & _).
    destruct (rows_of n rest1 rh1) as [[rs' rest'] rh'] eqn:E2. injection E as <- <- <-.
    destruct (IHn _ _ _ _ _ S1 H1 E2) as (pre & hpre & Sp2). exists (here ++ pre), (hp ++ hpre).
    change (r :: rs') with ([r] ++ rs'). eapply rows_join; eauto.
Qed.
(** Unless cells are left over, fewer rows than asked for may be found; otherwise all. *)
Lemma rows_of_full n : forall cells rh rs rest rh2, rows_of n cells rh = (rs, rest, rh2) -> rest <> [] -> length rs = n.
Proof.
  induction n; intros cells rh rs rest rh2 E N; cbn [rows_of] in E; [injection E as <- _ _; reflexivity|].
  destruct cells as [|c t]; [injection E as _ <- _; congruence|]. destruct (span_row _ _) as [here rest1]. destruct (row_at _ _ _) as [r rh1].
  destruct (rows_of n rest1 rh1) as [[rs' rest'] rh'] eqn:E2. injection E as <- <- <-. cbn [length]. f_equal. eapply IHn; eauto.
Qed.

(** The last cell shares its row with another. *)
Definition paired (cells : list cell) : Prop := cells = [] \/ exists a x y, cells = a ++ [x; y] /\ c_row x = c_row y.
(** At most 16 rows hold cells or have a height and are not below the last cell. *)
Definition few (cells : list cell) (rh : list rowheight) : Prop :=
  exists rows, (length rows <= 16)%nat /\ (forall c, In c cells -> In (c_row c) rows) /\ (forall h c, In h rh -> In c cells -> rh_row h <= c_row c -> In (rh_row h) rows).
Lemma paired_rest pre rest : paired (pre ++ rest) -> (forall a b, In a pre -> In b rest -> c_row a < c_row b) -> paired rest /\ at_last rest = false.
Proof.
  intros P L. destruct rest as [|u rest]; [split; [left; reflexivity|reflexivity]|].
  destruct P as [P|(a & x & y & E & R)]; [destruct pre; discriminate P|].
  assert (Q : forall rest pre a, pre ++ rest = a ++ [x; y] -> rest <> [] -> (forall p b, In p pre -> In b rest -> c_row p < c_row b) -> exists a', rest = a' ++ [x; y]).
  { clear - R. intros rest pre a. revert pre. induction a as [|z a IH]; intros [|p pre] E N L; cbn [app] in *.
    - exists []. exact E.
    - injection E as -> E. destruct pre as [|p' pre]; cbn [app] in E.
      + subst rest. exfalso. specialize (L x y (or_introl eq_refl) (or_introl eq_refl)). lia.
      + injection E as -> E. destruct pre; [|discriminate E]. cbn in E. congruence.
    - exists (z :: a). exact E.
    - injection E as -> E. eapply IH; [exact E|exact N|]. intros q b Jq Jb. apply L; [right; exact Jq|exact Jb]. }
  destruct (Q (u :: rest) pre a E ltac:(discriminate) L) as [a' E']. split; [right; exists a', x, y; auto|].
  rewrite E'. destruct a' as [|? [|]]; reflexivity.
Qed.
Lemma few_rest cells rh rs rest rh2 : csorted cells -> hsorted rh -> few cells rh -> rows_of 16 cells rh = (rs, rest, rh2) -> rest = [].
Proof.
  intros S H (rows & L & Fc & Fh) E. destruct rest as [|c rest]; [reflexivity|]. exfalso.
  pose proof (rows_of_full _ _ _ _ _ _ E ltac:(discriminate)) as Ln. destruct (rows_of_spec _ _ _ _ _ _ S H E) as (pre & hpre & []).
  assert (N : NoDup (c_row c :: map r_row rs)).
  { constructor.
    - intro J. apply in_map_iff in J. destruct J as (x & Ex & J). specialize (rw_rest0 x c J (or_introl eq_refl)). lia.
    - clear - rw_sorted0. induction rw_sorted0 as [|x l So IH F]; cbn [map]; constructor; auto. intro J. apply in_map_iff in J. destruct J as (y & Ey & J).
      rewrite Forall_forall in F. specialize (F y J). lia. }
  assert (I : incl (c_row c :: map r_row rs) rows).
  { intros z [<-|J]; [apply Fc; rewrite rw_cells0; apply in_or_app; right; left; reflexivity|].
    apply in_map_iff in J. destruct J as (x & <- & J). destruct (rw_why0 x J) as [(d & A & <-)|(h & d & A & <- & Jd & Le)].
    - apply Fc. rewrite rw_cells0. apply in_or_app. auto.
    - apply (Fh h d); auto. rewrite rw_heights0. apply in_or_app. auto. }
  pose proof (NoDup_incl_length N I) as Q. cbn [length] in Q. rewrite map_length, Ln in Q. lia.
Qed.

Definition blocked (bl : list block) : Prop :=
  Forall (fun b => forall c, In c (k_cells b) -> exists x, In x (k_rows b) /\ r_row x = c_row c) bl.
Theorem blocks_rows f : forall cells rh bl, csorted cells -> hsorted rh -> paired cells \/ few cells rh -> blocks_of f cells rh = Some bl ->
  exists hpre rh2, rows_spec cells rh (flat_map k_rows bl) cells [] hpre rh2 /\ blocked bl.
Proof.
  induction f; intros cells rh bl S H T E; [discriminate E|]. cbn [blocks_of] in E. destruct cells as [|c t].
  { injection E as <-. exists [], rh. split; [|constructor]. constructor; auto; try (repeat constructor); intros; cbn in *; tauto. }
  destruct (rows_of 16 (c :: t) rh) as [[rs rest] rh1] eqn:Er. destruct (rows_of_spec _ _ _ _ _ _ S H Er) as (pre & hpre & Sp).
  destruct (rows_of_bare _ _ _ _ _ _ S H Er) as (S1 & H1 & _).
  assert (Q : at_last rest = false /\ (paired rest \/ few rest rh1)).
  { destruct T as [T|T].
    - rewrite (rw_cells _ _ _ _ _ _ _ Sp) in T. destruct (paired_rest _ _ T) as [A B]; [|auto].
      intros a b Ja Jb. destruct (rw_pre _ _ _ _ _ _ _ Sp a Ja) as (x & Jx & <-). apply (rw_rest _ _ _ _ _ _ _ Sp); auto.
    - pose proof (few_rest _ _ _ _ _ S H T Er) as ->. split; [reflexivity|]. left. left. reflexivity. }
  destruct Q as [Q1 Q2]. rewrite Q1 in E.
  destruct (Nat.eqb _ 0); [discriminate E|]. destruct (blocks_of f rest rh1) as [bl'|] eqn:Eb; [|discriminate E]. injection E as <-.
  destruct (IHf rest rh1 bl' S1 H1 Q2 Eb) as (hp2 & rh2 & Sp2 & B2). exists (hpre ++ hp2), rh2.
  assert (Et : firstn (length (c :: t) - length rest + 0) (c :: t) = pre).
  { rewrite (rw_cells _ _ _ _ _ _ _ Sp), app_length. replace (length pre + length rest - length rest + 0)%nat with (length pre + 0)%nat by lia.
    rewrite firstn_app_2. cbn. apply app_nil_r. }
  split.
  - cbn [flat_map k_rows]. pose proof (rows_join _ _ _ _ _ _ _ _ _ _ _ _ Sp Sp2 S) as J. rewrite <- (rw_cells _ _ _ _ _ _ _ Sp) in J. exact J.
  - constructor; [|exact B2]. cbv beta. intros d J. apply (rw_pre _ _ _ _ _ _ _ Sp). rewrite <- Et. exact J.
Qed.
