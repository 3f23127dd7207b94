(** C26, C37: what cell and range setters do to the looks of cells. *)
From Coq Require Import ZArith List Bool Lia ZifyBool ZifyNat Sorted.
From Verif Require Import Bytes UnitModel SpecBuf RecModel SheetModel XfModel WbModel RecProofs RecFrames SpecXf XfProofs SpecXfOps PropsXf XfInv Looks ApiModel SpecBiff BookRecs ApiInv
  SpecApi ApiEff SheetProofs SheetTrace GlobTrace WbProofs SaveOk SaveRecs SaveRead SpecSaved SaveMeans DocLimits SavedView DemoDoc XfTrace SpecLook LookInv ViewPay PropsSheet RefTrace LookStep
  FontUse Careful ViewLook FontLook CellLook PropsRows.
Import ListNotations.
Local Open Scope Z_scope.
Local Notation mem := ApiEff.mem.

Lemma view_step R R' calls q s1 s2 w1 w2 : view R calls s1 w1 -> view R' (calls ++ [q]) s2 w2 -> api_call w1 q = Ok w2.
Proof.
  intros V1 V2. destruct (document_snoc _ _ _ (vw_doc _ _ _ _ V2)) as (w & D & C). pose proof (vw_doc _ _ _ _ V1) as D1. rewrite D1 in D. apply ok_inj in D. subst w. exact C.
Qed.
Lemma not_here k k' r r' c c' : (k', r', c') <> (k, r, c) -> here k' k r' r c' c = false.
Proof. intro N. apply not_true_is_false. intro E. unfold here in E. apply N. f_equal; [f_equal|]; lia. Qed.

(** C26 (first half): setting an attribute of one cell, or giving it another format,
    leaves what every other cell looks like as it was. *)
Theorem C26_other_cells_partial R moves R' moves' calls k r c o s1 s2 k' r' c' l :
  saved_ok R moves calls s1 -> saved_ok R' moves' (calls ++ [KCellOp k r c o]) s2 ->
  covered calls o -> (k', r', c') <> (k, r, c) ->
  cell_look s1 k' r' c' = Some l -> cell_look s2 k' r' c' = Some l.
Proof.
  intros H1 H2 Co N L. destruct (saved_view _ _ _ _ H1) as [w1 V1]. destruct (saved_view _ _ _ _ H2) as [w2 V2].
  pose proof (view_step _ _ _ _ _ _ _ _ V1 V2) as C. cbn [api_call] in C.
  destruct (cellop_xfat _ _ _ _ _ _ (mn_inv _ _ (vw_means _ _ _ _ V1)) C) as (p & q & X & Ho & A).
  rewrite (view_cell_look _ _ _ _ V1) in L. rewrite (view_cell_look _ _ _ _ V2). rewrite A, (not_here _ _ _ _ _ _ N).
  destruct (xfat w1 k' r' c') as [i|]; [|discriminate L]. rewrite (view_look _ _ _ _ V1) in L. rewrite (view_look _ _ _ _ V2).
  eapply xlook_keeps; [|exact L]. exact (covered_keeps _ _ _ _ _ _ _ _ _ (vw_typed _ _ _ _ V1) (vw_doc _ _ _ _ V1) Co X Ho).
Qed.
Print Assumptions C26_other_cells_partial.

(** From the format object of a cell to what a reader sees. *)
Lemma styled_restyled R calls s w k r c o l q : view R calls s w -> few_records s -> xfat w k r c = Some q -> styled (wb_fs w) o l q ->
  exists g, globals_of s = Some g /\ restyled g o l (cell_look s k r c).
Proof.
  intros V Fw X S. exists (globals_body (dg w) (dstarts w)). split; [apply (view_gof _ _ _ _ V)|]. destruct (view_few _ _ _ _ V Fw) as [_ M].
  rewrite (view_cell_look _ _ _ _ V), X, (M q (xfat_valid _ _ _ _ _ (mn_inv _ _ (vw_means _ _ _ _ V)) X)).
  destruct o as [o|o|[i|]]; cbn [styled restyled] in *.
  - rewrite (view_look _ _ _ _ V), (view_look_of _ _ _ _ V), S. reflexivity.
  - destruct S as (j & S). exists j. rewrite (view_look _ _ _ _ V). exact S.
  - subst q. reflexivity.
  - rewrite (view_look _ _ _ _ V). exact S.
Qed.

(** C26 (second half): the cell itself changes as asked and in nothing else. *)
Theorem C26_own_cell_partial R moves R' moves' calls k r c o s1 s2 l :
  saved_ok R moves calls s1 -> saved_ok R' moves' (calls ++ [KCellOp k r c o]) s2 ->
  Forall args (calls ++ [KCellOp k r c o]) -> few_records s2 -> covered calls o ->
  cell_look s1 k r c = Some l ->
  exists g, globals_of s2 = Some g /\ restyled g o l (cell_look s2 k r c).
Proof.
  intros H1 H2 Ag Fw Co L. destruct (saved_view _ _ _ _ H1) as [w1 V1]. destruct (saved_view _ _ _ _ H2) as [w2 V2].
  pose proof (view_step _ _ _ _ _ _ _ _ V1 V2) as C. cbn [api_call] in C. pose proof (mn_inv _ _ (vw_means _ _ _ _ V1)) as I1.
  destruct (cellop_xfat _ _ _ _ _ _ I1 C) as (p & q & X & Ho & A).
  destruct (view_few _ _ _ _ V2 Fw) as [F2 M2]. apply Forall_app in Ag. destruct Ag as [Ag Aq]. inversion Aq as [|? ? Ao _]; subst.
  pose proof (xfat_valid _ _ _ _ _ I1 X) as Vp. destruct (cellop_grows _ _ _ _ _ Vp Ho) as [G _].
  rewrite (view_cell_look _ _ _ _ V1), X, (M2 p (valid_grows _ _ _ G Vp)), (view_look _ _ _ _ V1) in L.
  apply (styled_restyled R' (calls ++ [KCellOp k r c o]) s2 w2 k r c o l q V2 Fw).
  - rewrite A. unfold here. rewrite !Z.eqb_refl, Nat.eqb_refl. reflexivity.
  - exact (covered_styled _ _ _ _ _ _ _ _ _ _ (vw_typed _ _ _ _ V1) Ag (vw_doc _ _ _ _ V1) Co Ao F2 X Ho L).
Qed.
Print Assumptions C26_own_cell_partial.

(* ------------------------------------------------------------------ *)
(** * C37 *)

Lemma view_record R calls s w k r c : view R calls s w ->
  cell_record s k r c = match nth_error (wb_sheets w) k with Some sh => option_map cell_as (find_cell sh r c) | None => None end.
Proof.
  intro V. unfold cell_record. rewrite (view_gof _ _ _ _ V).
  destruct (substream s (S k)) as [[kind b]|] eqn:E.
  - apply (view_kind _ _ _ _ V) in E. destruct (view_cells _ _ _ _ V k _ b (view_has_globals _ _ _ _ V) E) as (sh & Es & -> & ->).
    rewrite Es. unfold find_cell. induction (sh_cells sh) as [|x l IH]; [reflexivity|]. cbn [map find]. unfold cell_as at 1. cbn [rc_row rc_col].
    unfold cell_as at 1. cbn [rc_col].
    destruct ((c_row x =? r) && (c_col x =? c))%bool; [reflexivity|exact IH].
  - destruct (nth_error (wb_sheets w) k) as [sh|] eqn:Es; [|reflexivity]. exfalso.
    assert (K : exists body, sheet_in s k body).
    { apply (view_has_sheet _ _ _ _ V). rewrite <- (mn_len _ _ (vw_means _ _ _ _ V)). apply nth_error_Some. congruence. }
    destruct K as (b & K). unfold sheet_in in K. congruence.
Qed.
Lemma view_value R calls s w k r c : view R calls s w -> option_map rc_val (cell_record s k r c) = option_map read_as (wv w k r c).
Proof.
  intro V. rewrite (view_record _ _ _ _ _ _ _ V). unfold wv, fv. destruct (nth_error (wb_sheets w) k) as [sh|]; [|reflexivity]. destruct (find_cell sh r c); reflexivity.
Qed.
Lemma record_xfat R calls s w k r c : view R calls s w -> (cell_record s k r c = None <-> xfat w k r c = None).
Proof.
  intro V. rewrite (view_record _ _ _ _ _ _ _ V). unfold xfat. destruct (nth_error (wb_sheets w) k) as [sh|]; [|tauto]. destruct (find_cell sh r c); split; intro H; try discriminate H; reflexivity.
Qed.

(** The look of a position before a range setter: that of its cell or, where there is
    none, that of the default cell format, XF record 15. *)
Definition position_look (s : list Z) (k : nat) (r c : Z) : option look :=
  match cell_record s k r c with
  | Some _ => cell_look s k r c
  | None => olet g := globals_of s in read_look g 15
  end.

Section Range.
Variables (R R' : Z) (moves moves' : Z -> nat -> bool) (calls : list call) (k : nat) (r1 c1 r2 c2 : Z) (o : cellop) (s1 s2 : list Z).
Hypothesis H1 : saved_ok R moves calls s1.
Hypothesis H2 : saved_ok R' moves' (calls ++ [KRange k r1 c1 r2 c2 o]) s2.
Let inside_block (r c : Z) : Prop := r1 <= r <= r2 /\ c1 <= c <= c2.

Lemma range_effect : exists w1 w2, view R calls s1 w1 /\ view R' (calls ++ [KRange k r1 c1 r2 c2 o]) s2 w2
  /\ Forall (fun p => u32 (fst p) /\ u32 (snd p)) (block_of r1 c1 r2 c2)
  /\ fold_res (range_step k o) (block_of r1 c1 r2 c2) w1 = Ok w2.
Proof.
  destruct (saved_view _ _ _ _ H1) as [w1 V1]. destruct (saved_view _ _ _ _ H2) as [w2 V2]. exists w1, w2. split; [exact V1|]. split; [exact V2|].
  pose proof (vw_typed _ _ _ _ V2) as T. apply Forall_app in T. destruct T as [_ T]. inversion T as [|? ? Tq _]; subst. cbn [typed] in Tq. destruct Tq as (U1 & U2 & U3 & U4).
  split; [exact (block_u32 _ _ _ _ U1 U2 U3 U4)|]. pose proof (view_step _ _ _ _ _ _ _ _ V1 V2) as C. cbn [api_call] in C. apply (range_inv _ _ _ _ _ _ _ _ C).
Qed.
Lemma block_dec r c : if mem r c (block_of r1 c1 r2 c2) then inside_block r c else ~ inside_block r c.
Proof. rewrite block_mem. unfold inside, inside_block. destruct (_ && _)%bool eqn:E; lia. Qed.

(** C37 (contents): every position of the rectangle holds a cell afterwards, the same as
    before or else a blank one; nothing changes outside. *)
Theorem C37_contents k' r c :
  option_map rc_val (cell_record s2 k' r c) =
    if (Nat.eqb k' k && ((r1 <=? r) && (r <=? r2) && ((c1 <=? c) && (c <=? c2))))%bool
    then match cell_record s1 k' r c with Some x => Some (rc_val x) | None => Some RBlank end
    else option_map rc_val (cell_record s1 k' r c).
Proof.
  destruct range_effect as (w1 & w2 & V1 & V2 & U & H). pose proof (mn_inv _ _ (vw_means _ _ _ _ V1)) as I1.
  destruct (range_all _ _ _ U _ _ I1 H) as [Q W]. rewrite (view_value _ _ _ _ _ _ _ V2).
  pose proof (view_value _ _ _ _ k' r c V1) as E. destruct (Nat.eqb k' k) eqn:Ek.
  - apply Nat.eqb_eq in Ek. subst k'. rewrite W, block_mem. unfold inside. cbn [andb]. destruct (_ && _)%bool; [|symmetry; exact E].
    destruct (cell_record s1 k r c), (wv w1 k r c); cbn [option_map blank_fill] in *; try discriminate E; [symmetry; exact E|reflexivity].
  - apply Nat.eqb_neq in Ek. unfold wv. rewrite (qu_other _ _ _ Q) by exact Ek. fold (wv w1 k' r c). symmetry. exact E.
Qed.
(** C37 (outside): no cell outside the rectangle changes its look. *)
Theorem C37_outside_partial k' r c l : covered calls o -> op_args o -> k' <> k \/ ~ (r1 <= r <= r2 /\ c1 <= c <= c2) ->
  cell_look s1 k' r c = Some l -> cell_look s2 k' r c = Some l.
Proof.
  intros Co Ao N L. destruct range_effect as (w1 & w2 & V1 & V2 & U & H).
  destruct (range_looks k o _ Ao U (block_nodup _ _ _ _) calls w1 w2 (vw_typed _ _ _ _ V1) (vw_doc _ _ _ _ V1) Co H) as (K & X & _).
  rewrite (view_cell_look _ _ _ _ V1) in L. rewrite (view_cell_look _ _ _ _ V2). rewrite X.
  2:{ destruct N as [N|N]; [left; exact N|right]. pose proof (block_dec r c) as B. destruct (mem r c _); [exfalso; exact (N B)|reflexivity]. }
  destruct (xfat w1 k' r c) as [i|]; [|discriminate L]. rewrite (view_look _ _ _ _ V1) in L. rewrite (view_look _ _ _ _ V2).
  eapply xlook_keeps; [exact K|exact L].
Qed.
(** C37 (inside): every position of the rectangle changes as asked and in nothing else. *)
Theorem C37_inside_partial r c l : covered calls o -> Forall args (calls ++ [KRange k r1 c1 r2 c2 o]) -> few_records s2 -> r1 <= r <= r2 /\ c1 <= c <= c2 ->
  position_look s1 k r c = Some l -> exists g, globals_of s2 = Some g /\ restyled g o l (cell_look s2 k r c).
Proof.
  intros Co Ag Fw N L. destruct range_effect as (w1 & w2 & V1 & V2 & U & H). apply Forall_app in Ag. destruct Ag as [Ag Aq]. inversion Aq as [|? ? Ao _]; subst. cbn [args] in Ao.
  destruct (view_few _ _ _ _ V2 Fw) as [F2 M2]. pose proof (mn_inv _ _ (vw_means _ _ _ _ V1)) as I1.
  destruct (range_looks k o _ Ao U (block_nodup _ _ _ _) calls w1 w2 (vw_typed _ _ _ _ V1) (vw_doc _ _ _ _ V1) Co H) as (_ & _ & S).
  assert (M : mem r c (block_of r1 c1 r2 c2) = true) by (pose proof (block_dec r c) as B; destruct (mem r c _); [reflexivity|exfalso; exact (B N)]).
  destruct (S Ag F2 r c l M) as (q & Xq & Sq); [|exact (styled_restyled _ _ _ _ _ _ _ _ _ _ V2 Fw Xq Sq)].
  unfold position_look in L. pose proof (record_xfat _ _ _ _ k r c V1) as E. destruct (cell_record s1 k r c) as [x|].
  - destruct (xfat w1 k r c) as [p|] eqn:Xp; [|exfalso; assert (X : Some x = None) by (apply E; reflexivity); discriminate X].
    rewrite (view_cell_look _ _ _ _ V1), Xp in L.
    assert (Vp : valid (wb_fs w2) p).
    { eapply valid_grows; [|exact (xfat_valid _ _ _ _ _ I1 Xp)]. eapply rsteps_grows. apply (range_rsteps k 0 0 0 0 o _ w1 w2 I1 U H). }
    rewrite (M2 p Vp), (view_look _ _ _ _ V1) in L. exact L.
  - destruct E as [E _]. rewrite (E eq_refl). rewrite (view_gof _ _ _ _ V1), (view_look _ _ _ _ V1) in L. exact L.
Qed.
End Range.
Print Assumptions C37_contents.
Print Assumptions C37_outside_partial.
Print Assumptions C37_inside_partial.

(* ------------------------------------------------------------------ *)
(** * Cases, and a history in which a font setter reaches another cell *)

(** Two cells share a format object with a font of its own; a third one is plain. *)
Definition shared : list call :=
  [KSheet (TChar [65]); KFont [70]; KXformat (Some (Some 6)) None; KCell 0 0 0 UBlank (Some 21); KCell 0 0 1 (UInt 7) (Some 21); KCell 0 2 1 (UInt 8) None].
Definition careless : list call :=
  [KSheet (TChar [65]); KFont [70]; KXformat (Some (Some 6)) None; KCell 0 0 0 UBlank (Some 21); KCell 0 0 1 UBlank (Some 21);
   KCellOp 0 0 0 (CFont (NBold 0)); KCellOp 0 0 1 (CFont (NBold 0)); KCell 0 0 2 UBlank (Some 21); KCell 0 0 3 UBlank (Some 21)].
Lemma heightless calls : forallb (fun q => match q with KRowheight _ _ _ _ => false | _ => true end) calls = true ->
  forall k, exists rows, (length rows < 16)%nat /\ forall r, height_of k calls r <> None -> In r rows \/ exists c u, cells_of k calls r c = Some u.
Proof.
  intros F k. exists []. split; [cbn; lia|]. intros r H. exfalso. destruct (height_of k calls r) as [[h p]|] eqn:E; [|congruence]. apply heights_from in E.
  rewrite forallb_forall in F. apply F in E. discriminate E.
Qed.
Lemma shared_typed q : typed q -> Forall typed (shared ++ [q]).
Proof. intro T. apply Forall_app. split; [unfold shared; small_typed|constructor; [exact T|constructor]]. Qed.
Lemma careless_typed q : typed q -> Forall typed (careless ++ [q]).
Proof. intro T. apply Forall_app. split; [unfold careless; small_typed|constructor; [exact T|constructor]]. Qed.
Lemma shared_fits : fits 40 shared.
Proof. unfold shared. small_fits. apply (heightless shared). reflexivity. Qed.
Lemma shared_fits_op : fits 40 (shared ++ [KCellOp 0 0 0 (CFont (NBold 0))]).
Proof. unfold shared. cbn [app]. small_fits. apply (heightless (shared ++ [KCellOp 0 0 0 (CFont (NBold 0))])). reflexivity. Qed.
Lemma shared_fits_range : fits 40 (shared ++ [KRange 0 0 1 2 2 (CFont (NBold 0))]).
Proof. unfold shared. cbn [app]. small_fits. apply (heightless (shared ++ [KRange 0 0 1 2 2 (CFont (NBold 0))])). reflexivity. Qed.
Lemma careless_fits : fits 40 careless.
Proof. unfold careless. small_fits. apply (heightless careless). reflexivity. Qed.
Lemma careless_fits_op : fits 40 (careless ++ [KCellOp 0 0 2 (CFont (NItalic true))]).
Proof. unfold careless. cbn [app]. small_fits. apply (heightless (careless ++ [KCellOp 0 0 2 (CFont (NItalic true))])). reflexivity. Qed.

Lemma name70 : font_arg (NName [70]).
Proof. split; [reflexivity|repeat constructor; lia]. Qed.
Ltac small_args := repeat (apply Forall_cons; [cbn [args op_args]; first [exact I|exact name70|lia]|]); try apply Forall_nil.
(** What a computed stream says. *)
Definition few_now (s : list Z) : bool :=
  match globals_of s with
  | Some g => (zlen (payloads T_XF g) <=? 65000) && (zlen (payloads T_FONT g) <=? 65000) && (zlen (payloads T_FORMAT g) <=? 65000)
  | None => false
  end.
Lemma few_now_spec s : few_now s = true -> few_records s.
Proof. unfold few_now, few_records. destruct (globals_of s) as [g|]; [|discriminate]. intro H. exists g. split; [reflexivity|]. lia. Qed.
Definition two (calls : list call) (q : call) (f : list Z -> list Z -> bool) : bool :=
  match stream_of 400 calls, stream_of 400 (calls ++ [q]) with Some s1, Some s2 => f s1 s2 | _, _ => false end.
Lemma two_spec calls q f : two calls q f = true -> exists s1 s2, stream_of 400 calls = Some s1 /\ stream_of 400 (calls ++ [q]) = Some s2 /\ f s1 s2 = true.
Proof. unfold two. destruct (stream_of 400 calls) as [s1|]; [|discriminate]. destruct (stream_of 400 (calls ++ [q])) as [s2|]; [|discriminate]. eauto. Qed.
Definition italic (s : list Z) (k : nat) (r c : Z) : option bool := olet l := cell_look s k r c in Some (Z.testbit (rf_attr (lk_font l)) 1).

(** C26 fails for font setters in general: cells 2 and 3 share a font that the library
    counts as unused, since the format object carrying it was out of use for a while;
    making cell 2 italic makes cell 3 italic too. *)
Theorem C26_fonts_refuted : exists calls k r c o k' r' c' s1 s2,
  saved_ok 40 (fun _ _ => false) calls s1 /\ saved_ok 40 (fun _ _ => false) (calls ++ [KCellOp k r c (CFont o)]) s2
  /\ (k', r', c') <> (k, r, c) /\ Forall args (calls ++ [KCellOp k r c (CFont o)]) /\ few_records s2
  /\ italic s1 k' r' c' = Some false /\ italic s2 k' r' c' = Some true.
Proof.
  assert (E : two careless (KCellOp 0 0 2 (CFont (NItalic true))) (fun s1 s2 =>
    (few_now s2 && match italic s1 0 0 3, italic s2 0 0 3 with Some false, Some true => true | _, _ => false end)%bool) = true) by (vm_compute; reflexivity).
  apply two_spec in E. destruct E as (s1 & s2 & E1 & E2 & E). exists careless, 0%nat, 0, 2, (NItalic true), 0%nat, 0, 3, s1, s2.
  split; [apply (small_saved 400); [pose proof (careless_typed (KActive 0) I) as T; apply Forall_app in T; apply T|exact careless_fits|exact E1]|].
  split; [apply (small_saved 400); [apply careless_typed; exact I|exact careless_fits_op|exact E2]|].
  split; [intro X; apply (f_equal snd) in X; discriminate X|]. split; [unfold careless; cbn [app]; small_args|].
  apply andb_prop in E. destruct E as [E3 E4]. split; [apply few_now_spec; exact E3|].
  destruct (italic s1 0 0 3) as [[|]|]; try discriminate E4. destruct (italic s2 0 0 3) as [[|]|]; try discriminate E4. split; reflexivity.
Qed.
Print Assumptions C26_fonts_refuted.

Lemma made_now calls f m since p : (match document calls with Ok w => match wb_xformat (wb_fs w) f m with Ok (_, q) => q =? p | _ => false end | _ => false end) = true ->
  made (calls ++ KXformat f m :: since) f p since.
Proof.
  intro H. destruct (document calls) as [w| |] eqn:D; try discriminate H. destruct (wb_xformat (wb_fs w) f m) as [[fs q]| |] eqn:X; try discriminate H.
  apply Z.eqb_eq in H. subst q. exists calls, m, w, fs. auto.
Qed.
Lemma shared_careful : careful shared.
Proof.
  assert (F : fresh [KSheet (TChar [65]); KFont [70]; KXformat (Some (Some 6)) None] 21) by (split;
    [exists (Some (Some 6)), []; apply (made_now [KSheet (TChar [65]); KFont [70]] (Some (Some 6)) None [] 21); vm_compute; reflexivity|repeat constructor; intros []]).
  change shared with (((((([] ++ [KSheet (TChar [65])]) ++ [KFont [70]]) ++ [KXformat (Some (Some 6)) None]) ++ [KCell 0 0 0 UBlank (Some 21)]) ++ [KCell 0 0 1 (UInt 7) (Some 21)]) ++ [KCell 0 2 1 (UInt 8) None]).
  repeat apply careful_snoc; try exact I.
  - intros a x b E. destruct a; discriminate E.
  - cbn [careful_call app]. left. exact F.
  - cbn [careful_call app]. right. left. exists 0%nat, 0, 0. reflexivity.
Qed.
Lemma shared_args : Forall args shared.
Proof. unfold shared. small_args. Qed.

Example C26_case : exists s1 s2, saved_ok 40 (fun _ _ => false) shared s1 /\ saved_ok 40 (fun _ _ => false) (shared ++ [KCellOp 0 0 0 (CFont (NBold 0))]) s2
  /\ covered shared (CFont (NBold 0)) /\ Forall args (shared ++ [KCellOp 0 0 0 (CFont (NBold 0))]) /\ few_records s2
  /\ (exists l, cell_look s1 0 0 0 = Some l) /\ exists l, cell_look s1 0 0 1 = Some l.
Proof.
  assert (E : two shared (KCellOp 0 0 0 (CFont (NBold 0))) (fun s1 s2 =>
    (few_now s2 && match cell_look s1 0 0 0, cell_look s1 0 0 1 with Some _, Some _ => true | _, _ => false end)%bool) = true) by (vm_compute; reflexivity).
  apply two_spec in E. destruct E as (s1 & s2 & E1 & E2 & E). exists s1, s2.
  split; [apply (small_saved 400); [pose proof (shared_typed (KActive 0) I) as T; apply Forall_app in T; apply T|exact shared_fits|exact E1]|].
  split; [apply (small_saved 400); [apply shared_typed; exact I|exact shared_fits_op|exact E2]|].
  split; [split; [exact shared_careful|exact shared_args]|]. split; [apply Forall_app; split; [exact shared_args|repeat constructor]|].
  apply andb_prop in E. destruct E as [E3 E4]. split; [apply few_now_spec; exact E3|].
  destruct (cell_look s1 0 0 0); try discriminate E4. destruct (cell_look s1 0 0 1); try discriminate E4. eauto.
Qed.
(** The rectangle covers a cell sharing the format of one outside, an empty position and a
    plain cell. *)
Example C37_case : exists s1 s2, saved_ok 40 (fun _ _ => false) shared s1 /\ saved_ok 40 (fun _ _ => false) (shared ++ [KRange 0 0 1 2 2 (CFont (NBold 0))]) s2
  /\ covered shared (CFont (NBold 0)) /\ op_args (CFont (NBold 0)) /\ Forall args (shared ++ [KRange 0 0 1 2 2 (CFont (NBold 0))]) /\ few_records s2
  /\ (exists l, cell_look s1 0 0 0 = Some l) /\ (exists l, position_look s1 0 0 1 = Some l) /\ (cell_record s1 0 1 1 = None /\ exists l, position_look s1 0 1 1 = Some l).
Proof.
  assert (E : two shared (KRange 0 0 1 2 2 (CFont (NBold 0))) (fun s1 s2 =>
    (few_now s2 && match cell_look s1 0 0 0, position_look s1 0 0 1, position_look s1 0 1 1, cell_record s1 0 1 1 with Some _, Some _, Some _, None => true | _, _, _, _ => false end)%bool) = true)
    by (vm_compute; reflexivity).
  apply two_spec in E. destruct E as (s1 & s2 & E1 & E2 & E). exists s1, s2.
  split; [apply (small_saved 400); [pose proof (shared_typed (KActive 0) I) as T; apply Forall_app in T; apply T|exact shared_fits|exact E1]|].
  split; [apply (small_saved 400); [apply shared_typed; cbn [typed]; unfold u32; lia|exact shared_fits_range|exact E2]|].
  split; [split; [exact shared_careful|exact shared_args]|]. split; [exact I|]. split; [apply Forall_app; split; [exact shared_args|repeat constructor]|].
  apply andb_prop in E. destruct E as [E3 E4]. split; [apply few_now_spec; exact E3|].
  destruct (cell_look s1 0 0 0); try discriminate E4. destruct (position_look s1 0 0 1); try discriminate E4. destruct (position_look s1 0 1 1); try discriminate E4.
  destruct (cell_record s1 0 1 1); try discriminate E4. eauto 7.
Qed.
