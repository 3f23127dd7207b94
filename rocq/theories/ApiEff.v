(** The effect of every call on the document state, and the invariants it keeps. *)
From Coq Require Import ZArith List Bool Lia ZifyBool ZifyNat Sorting.Sorted Sorting.Permutation.
From Verif Require Import Bytes UnitModel RecModel SheetModel XfModel WbModel SheetTrace XfInv ApiModel SpecApi ApiInv.
Import ListNotations.
Local Open Scope Z_scope.

(* ------------------------------------------------------------------ *)
(** * Bounds of the used range *)

Definition places (s : sheet) : list (Z * Z) :=
  map (fun c => (c_row c, c_col c)) (sh_cells s) ++ map (fun n => (no_row n, no_col n)) (sh_notes s).
(** The recorded bounds are the exact bounds of the cells and notes. *)
Record tight (s : sheet) : Prop := {
  ti_u32 : Forall (fun p => u32 (fst p) /\ u32 (snd p)) (places s);
  ti_in : Forall (fun p => sh_minr s <= fst p <= sh_maxr s /\ sh_minc s <= snd p <= sh_maxc s) (places s);
  ti_none : places s = [] -> sh_minr s = 4294967295 /\ sh_maxr s = 0 /\ sh_minc s = 4294967295 /\ sh_maxc s = 0;
  ti_some : places s <> [] -> In (sh_minr s) (map fst (places s)) /\ In (sh_maxr s) (map fst (places s))
                           /\ In (sh_minc s) (map snd (places s)) /\ In (sh_maxc s) (map snd (places s))
}.

Lemma tight_new i : tight (sheet_new i).
Proof. constructor; cbn; auto; try constructor. Qed.

(** Adding one place. *)
Lemma tight_add s s' r c : tight s -> u32 r -> u32 c ->
  (forall p, In p (places s') <-> p = (r, c) \/ In p (places s)) ->
  sh_minr s' = Z.min (sh_minr s) r -> sh_maxr s' = Z.max (sh_maxr s) r ->
  sh_minc s' = Z.min (sh_minc s) c -> sh_maxc s' = Z.max (sh_maxc s) c -> tight s'.
Proof.
  intros [U I N S] Hr Hc P E1 E2 E3 E4. rewrite Forall_forall in U, I.
  constructor; rewrite ?E1, ?E2, ?E3, ?E4.
  - apply Forall_forall. intros p J. apply P in J. destruct J as [->|J]; auto.
  - apply Forall_forall. intros p J. apply P in J. destruct J as [->|J]; cbn [fst snd]; [lia|]. specialize (I p J). lia.
  - intro E. exfalso. assert (J : In (r, c) (places s')) by (apply P; auto). rewrite E in J. destruct J.
  - intros _. assert (Jr : In r (map fst (places s'))) by (apply in_map_iff; exists (r, c); split; [reflexivity|apply P; auto]).
    assert (Jc : In c (map snd (places s'))) by (apply in_map_iff; exists (r, c); split; [reflexivity|apply P; auto]).
    assert (Sub1 : forall x, In x (map fst (places s)) -> In x (map fst (places s'))).
    { intros x J. apply in_map_iff in J. destruct J as (p & <- & J). apply in_map_iff. exists p. split; auto. apply P. auto. }
    assert (Sub2 : forall x, In x (map snd (places s)) -> In x (map snd (places s'))).
    { intros x J. apply in_map_iff in J. destruct J as (p & <- & J). apply in_map_iff. exists p. split; auto. apply P. auto. }
    unfold u32 in *. destruct (places s) as [|p0 l] eqn:E.
    + destruct (N eq_refl) as (-> & -> & -> & ->). rewrite Z.min_r, Z.max_r, Z.min_r, Z.max_r by lia. auto.
    + destruct S as (S1 & S2 & S3 & S4); [discriminate|]. rewrite <- E in *.
      repeat split.
      * destruct (Z.min_spec (sh_minr s) r) as [[_ ->]|[_ ->]]; auto.
      * destruct (Z.max_spec (sh_maxr s) r) as [[_ ->]|[_ ->]]; auto.
      * destruct (Z.min_spec (sh_minc s) c) as [[_ ->]|[_ ->]]; auto.
      * destruct (Z.max_spec (sh_maxc s) c) as [[_ ->]|[_ ->]]; auto.
Qed.
Lemma tight_same s s' : tight s -> places s' = places s ->
  sh_minr s' = sh_minr s -> sh_maxr s' = sh_maxr s -> sh_minc s' = sh_minc s -> sh_maxc s' = sh_maxc s -> tight s'.
Proof. intros [] P E1 E2 E3 E4. constructor; rewrite ?P, ?E1, ?E2, ?E3, ?E4; auto. Qed.

(* ------------------------------------------------------------------ *)
(** * The effect of a call on one sheet *)

Definition fv (s : sheet) (r c : Z) : option cval := option_map c_val (find_cell s r c).
Definition vm (o : option cval) (u : option uval) : Prop :=
  match o, u with
  | Some v, Some u => exists id, v = make_val id u
  | None, None => True
  | _, _ => False
  end.
Definition cols_step (k : nat) (l : list colinfo) (q : call) : list colinfo :=
  match q with
  | KColwidth k' c w p => if Nat.eqb k k' then col_put (mkCol c w p) l else l
  | _ => l
  end.
Definition rows_step (k : nat) (l : list rowheight) (q : call) : list rowheight :=
  match q with
  | KRowheight k' r h p => if Nat.eqb k k' then rh_put (mkRH r h p) l else l
  | _ => l
  end.
Definition notes_step (k : nat) (l : list note) (q : call) : list note :=
  match q with
  | KNote k' r c a t => if Nat.eqb k k' then note_put (note_new r c (to16 a) (to16 t)) l else l
  | _ => l
  end.
Definition rng (x : Z * Z * Z * Z) : range := let '(r1, c1, r2, c2) := x in mkRange r1 r2 c1 c2.
Definition lnk (x : Z * Z * text * text) : hlink :=
  let '(r, c, u, m) := x in mkLink (r mod 65536) (c mod 65536) (to16 u) (to16 m).
Record eff (q : call) (k : nat) (s s' : sheet) : Prop := {
  ef_index : sh_index s' = sh_index s;
  ef_merged : sh_merged s' = sh_merged s ++ map rng (merges_step k q);
  ef_links : sh_links s' = sh_links s ++ map lnk (links_step k q);
  ef_dvs : sh_dvs s' = sh_dvs s ++ dvs_step k q;
  ef_cols : sh_cols s' = cols_step k (sh_cols s) q;
  ef_heights : sh_heights s' = rows_step k (sh_heights s) q;
  ef_notes : sh_notes s' = notes_step k (sh_notes s) q;
  ef_vals : forall m, (forall r c, vm (fv s r c) (m r c)) -> forall r c, vm (fv s' r c) (cells_step k m q r c)
}.

(** The sheet a call addresses. *)
Definition target (q : call) : option nat :=
  match q with
  | KCell k _ _ _ _ | KNote k _ _ _ _ | KCellOp k _ _ _ | KRange k _ _ _ _ _ | KMerge k _ _ _ _
  | KColwidth k _ _ _ | KRowheight k _ _ _ | KDefRowHeight k _ _ | KDefColWidth k _ | KSplit k _ _
  | KHyperlink k _ _ _ _ | KValidate k _ => Some k
  | _ => None
  end.
Lemma eff_other q k s : target q <> Some k -> eff q k s s.
Proof.
  intro T. assert (N : forall k', target q = Some k' -> Nat.eqb k k' = false).
  { intros k' E. apply Nat.eqb_neq. intros ->. auto. }
  constructor; auto; destruct q; cbn [merges_step links_step dvs_step cols_step rows_step notes_step cells_step target map] in *;
    rewrite ?app_nil_r; auto; rewrite ?(N _ eq_refl); cbn [andb map]; rewrite ?app_nil_r; auto.
Qed.

(* ------------------------------------------------------------------ *)
(** * Each call *)

Record winv2 (w : wb) : Prop := { w2_inv : winv w; w2_tight : Forall tight (wb_sheets w) }.
(** One sheet changes, the others stay. *)
Record touch (q : call) (w w' : wb) : Prop := {
  to_inv : winv2 w';
  to_len : length (wb_sheets w') = length (wb_sheets w);
  to_eff : forall k s, nth_error (wb_sheets w) k = Some s ->
             exists s', nth_error (wb_sheets w') k = Some s' /\ eff q k s s';
  to_names : map bs_name (wb_bs w') = map bs_name (wb_bs w)
}.
Lemma touch_sheet q w w' k s s' : target q = Some k -> winv w' -> Forall tight (wb_sheets w) ->
  nth_error (wb_sheets w) k = Some s -> wb_sheets w' = upd k s' (wb_sheets w) -> tight s' ->
  map bs_name (wb_bs w') = map bs_name (wb_bs w) ->
  eff q k s s' -> touch q w w'.
Proof.
  intros T I Ft E U Ts En Ef. constructor.
  - constructor; [exact I|]. rewrite U. destruct (nth_split_upd k _ s s' E) as (a & b & El & _ & ->).
    rewrite El in Ft. apply Forall_app in Ft. destruct Ft as [A B]. inversion B; subst. apply Forall_app. auto.
  - rewrite U. apply upd_len.
  - intros j t J. rewrite U, nth_upd. destruct (Nat.eqb j k) eqn:Ej.
    + apply Nat.eqb_eq in Ej. subst j. rewrite E. exists s'. split; [reflexivity|]. congruence.
    + exists t. split; [exact J|]. apply eff_other. rewrite T. apply Nat.eqb_neq in Ej. congruence.
  - exact En.
Qed.
Lemma touch_none q w w' : target q = None -> winv w' -> Forall tight (wb_sheets w) -> wb_sheets w' = wb_sheets w ->
  map bs_name (wb_bs w') = map bs_name (wb_bs w) -> touch q w w'.
Proof.
  intros T I Ft E En. constructor; auto.
  - constructor; [exact I|]. rewrite E. exact Ft.
  - rewrite E. reflexivity.
  - intros k s J. exists s. rewrite E. split; [exact J|]. apply eff_other. rewrite T. discriminate.
Qed.

Lemma nth_tight w k s : Forall tight (wb_sheets w) -> nth_error (wb_sheets w) k = Some s -> tight s.
Proof. intros F E. rewrite Forall_forall in F. apply F. eapply nth_error_In; eauto. Qed.

Lemma fv_cells s l r c r' c' : fv (with_cells s l r c) r' c' = option_map c_val (find (at_key r' c') l).
Proof. reflexivity. Qed.

Lemma cell_touch w k r c v p w' : winv2 w -> u32 r -> u32 c -> api_cell w k r c v p = Ok w' ->
  touch (KCell k r c v p) w w'
  /\ exists s s', nth_error (wb_sheets w) k = Some s /\ wb_sheets w' = upd k s' (wb_sheets w)
       /\ find_cell s' r c = Some (mkCell r c (cell_xf p) (make_val (wb_next w) v))
       /\ (forall r' c', (r', c') <> (r, c) -> find_cell s' r' c' = find_cell s r' c').
Proof.
  intros [I T] Hr Hc H. destruct (api_cell_spec _ _ _ _ _ _ _ I H) as (I' & s & a & b & old & E & El & Ho & Fa & Fb & U & B1 & B2 & B3).
  pose proof (nth_tight _ _ _ T E) as Ts. set (x := mkCell r c (cell_xf p) (make_val (wb_next w) v)) in *.
  assert (Fs : find (at_key r c) (a ++ x :: b) = Some x).
  { apply find_mid_same; auto. }
  assert (Fo : forall r' c', (r', c') <> (r, c) -> find (at_key r' c') (a ++ x :: b) = find (at_key r' c') (sh_cells s)).
  { intros r' c' N. change (a ++ x :: b) with (a ++ [x] ++ b). rewrite find_mid_other, El, find_mid_other; [reflexivity| |].
    - destruct old as [y|]; cbn [olist]; [|constructor]. constructor; [|constructor].
      destruct (Ho y eq_refl) as [R C]. unfold at_key. rewrite R, C. destruct (r =? r') eqn:?, (c =? c') eqn:?; auto.
      exfalso. apply N. f_equal; lia.
    - constructor; [|constructor]. unfold at_key. cbn [x c_row c_col]. destruct (r =? r') eqn:?, (c =? c') eqn:?; auto.
      exfalso. apply N. f_equal; lia. }
  split.
  - eapply touch_sheet; eauto.
    + reflexivity.
    + eapply tight_add; [exact Ts|exact Hr|exact Hc| | | | |]; try reflexivity.
      intros q. unfold places. cbn [with_cells sh_cells sh_notes]. rewrite El, !map_app. cbn [map]. rewrite !in_app_iff. cbn [In x c_row c_col].
      destruct old as [y|]; cbn [olist map In].
      * destruct (Ho y eq_refl) as [R C]. rewrite R, C. intuition congruence.
      * intuition congruence.
    + rewrite B1. reflexivity.
    + constructor; cbn [with_cells sh_index sh_merged sh_links sh_dvs sh_cols sh_heights sh_notes merges_step links_step dvs_step cols_step rows_step notes_step map];
        rewrite ?app_nil_r; auto.
      intros m M r' c'. rewrite fv_cells. cbn [cells_step]. rewrite Nat.eqb_refl. cbn [andb].
      destruct ((r' =? r) && (c' =? c))%bool eqn:Q.
      * assert (r' = r) by lia. assert (c' = c) by lia. subst r' c'. rewrite Fs. cbn [option_map vm]. exists (wb_next w). reflexivity.
      * rewrite Fo by (intro N; injection N as -> ->; rewrite !Z.eqb_refl in Q; discriminate). apply (M r' c').
  - exists s, (with_cells s (a ++ x :: b) r c). auto.
Qed.

Lemma map_upd_name i (b : bsheet) l : nth_error l i = Some b ->
  map bs_name (upd i (bump_notes b) l) = map bs_name l.
Proof. revert l. induction i; intros [|y l] H; cbn in *; try discriminate. { injection H as ->. reflexivity. } rewrite IHi; auto. Qed.

Lemma note_places x l : forall p, In p (map (fun n => (no_row n, no_col n)) (note_put x l)) <->
  p = (no_row x, no_col x) \/ In p (map (fun n => (no_row n, no_col n)) l).
Proof.
  induction l as [|y t IH]; intros p; cbn [note_put map In].
  - intuition congruence.
  - destruct (key_lt (no_row x) (no_col x) (no_row y) (no_col y)) eqn:E1; cbn [map In]; [intuition congruence|].
    destruct (key_lt (no_row y) (no_col y) (no_row x) (no_col x)) eqn:E2; cbn [map In].
    + rewrite IH. intuition congruence.
    + destruct (key_tri _ _ _ _ E1 E2) as [R C]. rewrite R, C. intuition congruence.
Qed.

Lemma note_touch w k r c a t w' : winv2 w -> u32 r -> u32 c -> api_note w k r c a t = Ok w' -> touch (KNote k r c a t) w w'.
Proof.
  intros [I T] Hr Hc H. unfold api_note in H. apply bind_ok in H. destruct H as (w1 & H1 & H).
  apply on_sheet_inv in H1. destruct H1 as (s & w2 & s1 & E & H1 & ->). rewrite E in H.
  destruct (nth_error (wb_bs w) (Z.to_nat (sh_index s))) as [b|] eqn:Eb; [|discriminate]. apply ok_inj in H.
  apply ok_pair in H1. destruct H1 as [Hw Hs]. destruct (winv_nth _ _ _ I E) as [Is Xs]. pose proof (nth_tight _ _ _ T E) as Ts.
  set (n := note_new r c (to16 a) (to16 t)) in *.
  destruct (note_new_texts r c (to16 a) (to16 t)) as (N1 & N2 & N3 & N4). fold n in N1, N2, N3, N4.
  assert (L : level (wb_fs w) (wb_fs w2)).
  { rewrite <- Hw. cbn [up_fs wb_fs]. destruct (find _ _); [eapply level_trans; [apply xf_mark_level|apply xf_unmark_level]|apply xf_mark_level]. }
  assert (Eb2 : wb_bs w2 = wb_bs w) by (rewrite <- Hw; reflexivity).
  assert (I1 : winv (up_sheets w2 (upd k s1 (wb_sheets w)))).
  { eapply winv_sheet_plain; eauto; try (rewrite <- Hw; reflexivity).
    - apply level_grows, L.
    - rewrite <- Hs. destruct Is. constructor; cbn [add_note sh_cells sh_calc sh_sizes sh_notes sh_cols sh_heights sh_spid]; auto.
      + apply note_put_sorted; auto.
      + apply Forall_forall. intros y J. apply note_put_in in J. destruct J as [->|J].
        * rewrite N1, N2. split; [apply note_author_len|apply note_text_len].
        * rewrite Forall_forall in si_ntext. auto.
    - rewrite <- Hs. reflexivity.
    - eapply sheet_xfs_grows; [apply level_grows, L|]. rewrite <- Hs. exact Xs.
    - rewrite <- Hs. reflexivity. }
  rewrite <- H. eapply touch_sheet with (s' := s1); eauto.
  - reflexivity.
  - destruct I1. constructor; cbn [up_bs wb_fs wb_palette wb_labels wb_w1 wb_bs wb_sheets wb_next up_sheets] in *; auto.
    rewrite upd_len. auto.
  - rewrite <- Hs. eapply tight_add; [exact Ts|exact Hr|exact Hc| | | | |]; cbn [add_note sh_minr sh_maxr sh_minc sh_maxc]; rewrite ?N3, ?N4; auto.
    intros q. unfold places. cbn [add_note sh_cells sh_notes]. rewrite !in_app_iff, note_places, N3, N4. tauto.
  - cbn [up_bs wb_bs up_sheets]. rewrite Eb2. apply map_upd_name. exact Eb.
  - rewrite <- Hs. constructor; cbn [add_note sh_index sh_merged sh_links sh_dvs sh_cols sh_heights sh_notes merges_step links_step dvs_step cols_step rows_step notes_step map];
      rewrite ?app_nil_r, ?Nat.eqb_refl; auto.
Qed.

(** Replacing the XF of a cell keeps its value. *)
Lemma replace_labels l r c q : flat_map cell_label (replace_cell l r c q) = flat_map cell_label l.
Proof.
  unfold replace_cell. induction l as [|x l IH]; cbn [map flat_map]; [reflexivity|]. rewrite IH. f_equal.
  destruct (_ && _)%bool; reflexivity.
Qed.
Lemma replace_keys l r c q : map (fun x => (c_row x, c_col x)) (replace_cell l r c q) = map (fun x => (c_row x, c_col x)) l.
Proof.
  unfold replace_cell. rewrite map_map. apply map_ext. intro x. destruct (_ && _)%bool; reflexivity.
Qed.
Lemma replace_vals l r c q r' c' : option_map c_val (find (at_key r' c') (replace_cell l r c q)) = option_map c_val (find (at_key r' c') l).
Proof. rewrite find_replace. destruct (find _ l); cbn [option_map]; [|reflexivity]. destruct (at_key r c c0); reflexivity. Qed.
Lemma find_cell_in s r c x : find_cell s r c = Some x -> In x (sh_cells s) /\ c_row x = r /\ c_col x = c.
Proof. unfold find_cell. intro H. apply find_some in H. destruct H as [A B]. split; [exact A|]. split; lia. Qed.

Lemma cellop_grows o fs p fs' q : valid fs p -> cellop_apply o fs p = Ok (fs', q) -> grows fs fs' /\ valid fs' q.
Proof.
  intros V H. destruct o; cbn [cellop_apply] in H.
  - apply cell_format_grows in H. tauto.
  - apply cell_font_grows in H. tauto.
  - destruct (xf_valid fs q0) eqn:E; [|discriminate]. pose proof (cell_setxf_grows fs p q0 V (xf_valid_spec _ _ E)) as K.
    destruct (cell_setxf fs p q0) as [a b]. apply ok_pair in H. destruct H as [<- <-]. exact K.
Qed.

Lemma cellop_touch w k r c o w' : winv2 w -> api_cellop w k r c o = Ok w' ->
  touch (KCellOp k r c o) w w'
  /\ exists s x q fs', nth_error (wb_sheets w) k = Some s /\ find_cell s r c = Some x
       /\ cellop_apply o (wb_fs w) (c_xf x) = Ok (fs', q) /\ wb_fs w' = fs'
       /\ wb_sheets w' = upd k (set_cells s (replace_cell (sh_cells s) r c q)) (wb_sheets w).
Proof.
  intros [I T] H. apply on_sheet_inv in H. destruct H as (s & w1 & s1 & E & H & ->).
  destruct (find_cell s r c) as [x|] eqn:Ex; [|discriminate].
  destruct (cellop_apply o (wb_fs w) (c_xf x)) as [[fs' q]| |] eqn:Eo; cbn [bind] in H; try discriminate.
  apply ok_pair in H. destruct H as [Hw Hs]. destruct (winv_nth _ _ _ I E) as [Is Xs]. pose proof (nth_tight _ _ _ T E) as Ts.
  destruct (find_cell_in _ _ _ _ Ex) as (J & Rx & Cx). destruct Xs as (X1 & X2 & X3).
  assert (Vx : valid (wb_fs w) (c_xf x)) by (rewrite Forall_forall in X1; auto).
  destruct (cellop_grows _ _ _ _ _ Vx Eo) as [G V].
  assert (Hfs : wb_fs w1 = fs') by (rewrite <- Hw; reflexivity).
  split.
  - eapply touch_sheet with (s' := s1); eauto.
    + reflexivity.
    + eapply winv_sheet_plain; eauto; try (rewrite <- Hw; reflexivity).
      * rewrite Hfs. exact G.
      * rewrite <- Hs. destruct Is. constructor; cbn [set_cells sh_cells sh_calc sh_sizes sh_notes sh_cols sh_heights sh_spid]; auto.
        apply replace_sorted. auto.
      * rewrite <- Hs. reflexivity.
      * rewrite Hfs, <- Hs. repeat split; cbn [set_cells sh_cells sh_cols sh_heights].
        -- apply Forall_forall. intros y Jy. unfold replace_cell in Jy. apply in_map_iff in Jy. destruct Jy as (z & <- & Jz).
           destruct (_ && _)%bool; [exact V|]. eapply valid_grows; [exact G|]. rewrite Forall_forall in X1. auto.
        -- eapply Forall_impl; [|exact X2]. cbn. intros. eapply valid_grows; eauto.
        -- eapply Forall_impl; [|exact X3]. cbn. intros. eapply valid_grows; eauto.
      * rewrite <- Hs. apply replace_labels.
    + rewrite <- Hs. eapply tight_same; [exact Ts| | | | |]; try reflexivity.
      unfold places. cbn [set_cells sh_cells sh_notes]. rewrite replace_keys. reflexivity.
    + rewrite <- Hw. reflexivity.
    + rewrite <- Hs. constructor; cbn [set_cells sh_index sh_merged sh_links sh_dvs sh_cols sh_heights sh_notes merges_step links_step dvs_step cols_step rows_step notes_step map];
        rewrite ?app_nil_r; auto.
      intros m M r' c'. specialize (M r' c'). unfold fv, find_cell in *. cbn [set_cells sh_cells cells_step]. fold (at_key r' c') in *.
      change (fun x0 : cell => ((c_row x0 =? r') && (c_col x0 =? c'))%bool) with (at_key r' c') in *. rewrite replace_vals. exact M.
  - exists s, x, q, fs'. rewrite <- Hs. cbn [up_sheets wb_fs wb_sheets]. auto.
Qed.

(* ------------------------------------------------------------------ *)
(** * Ranges *)

(** What both steps at one position of a range keep. *)
Record quiet (k : nat) (w w' : wb) : Prop := {
  qu_inv : winv2 w';
  qu_len : length (wb_sheets w') = length (wb_sheets w);
  qu_names : map bs_name (wb_bs w') = map bs_name (wb_bs w);
  qu_other : forall j, j <> k -> nth_error (wb_sheets w') j = nth_error (wb_sheets w) j;
  qu_here : forall s, nth_error (wb_sheets w) k = Some s -> exists s', nth_error (wb_sheets w') k = Some s'
     /\ sh_index s' = sh_index s /\ sh_merged s' = sh_merged s /\ sh_links s' = sh_links s /\ sh_dvs s' = sh_dvs s
     /\ sh_cols s' = sh_cols s /\ sh_heights s' = sh_heights s /\ sh_notes s' = sh_notes s
}.
Lemma quiet_refl k w : winv2 w -> quiet k w w.
Proof. intro I. constructor; auto. intros s E. exists s. auto 9. Qed.
Lemma quiet_trans k a b c : quiet k a b -> quiet k b c -> quiet k a c.
Proof.
  intros [A1 A2 A3 A4 A5] [B1 B2 B3 B4 B5]. constructor; auto; try congruence.
  - intros j N. rewrite B4, A4; auto.
  - intros s E. destruct (A5 s E) as (t & Et & ? & ? & ? & ? & ? & ? & ?). destruct (B5 t Et) as (u & Eu & ? & ? & ? & ? & ? & ? & ?).
    exists u. repeat split; try congruence.
Qed.
Definition wv (w : wb) (k : nat) (r c : Z) : option cval :=
  match nth_error (wb_sheets w) k with Some s => fv s r c | None => None end.

Lemma touch_quiet q w w' k s' : winv2 w -> touch q w w' -> wb_sheets w' = upd k s' (wb_sheets w) ->
  (forall s, merges_step k q = [] /\ links_step k q = [] /\ dvs_step k q = [] /\ cols_step k (sh_cols s) q = sh_cols s
             /\ rows_step k (sh_heights s) q = sh_heights s /\ notes_step k (sh_notes s) q = sh_notes s) ->
  quiet k w w'.
Proof.
  intros I [T1 T2 T3 T4] U Q. constructor; auto.
  - intros j N. rewrite U, nth_upd. apply Nat.eqb_neq in N. rewrite N. reflexivity.
  - intros s E. destruct (T3 k s E) as (t & Et & []). exists t. destruct (Q s) as (Q1 & Q2 & Q3 & Q4 & Q5 & Q6).
    rewrite Q1, Q2, Q3, ?app_nil_r in *. cbn [map] in *. rewrite ?app_nil_r in *. repeat split; congruence.
Qed.

Lemma blank_step w k r c w' : winv2 w -> u32 r -> u32 c -> find_or_blank w k r c = Ok w' ->
  quiet k w w' /\ exists s s', nth_error (wb_sheets w) k = Some s /\ nth_error (wb_sheets w') k = Some s'
    /\ (find_cell s' r c = match find_cell s r c with Some x => Some x | None => Some (mkCell r c 15 VBlank) end)
    /\ (forall r' c', (r', c') <> (r, c) -> find_cell s' r' c' = find_cell s r' c').
Proof.
  intros I Hr Hc H. unfold find_or_blank in H. destruct (nth_error (wb_sheets w) k) as [s|] eqn:E; [|discriminate].
  destruct (find_cell s r c) as [x|] eqn:Ex.
  - apply ok_inj in H. subst w'. split; [apply quiet_refl, I|]. exists s, s. rewrite Ex. auto.
  - destruct (cell_touch _ _ _ _ _ _ _ I Hr Hc H) as (T & s0 & s' & E0 & U & F1 & F2).
    assert (s0 = s) by congruence. subst s0. split.
    + eapply touch_quiet; eauto. intros u. cbn. auto 7.
    + exists s, s'. rewrite U, nth_upd, Nat.eqb_refl, E. rewrite Ex. auto.
Qed.
Lemma op_step w k r c o w' : winv2 w -> api_cellop w k r c o = Ok w' ->
  quiet k w w' /\ forall r' c', wv w' k r' c' = wv w k r' c'.
Proof.
  intros I H. destruct (cellop_touch _ _ _ _ _ _ I H) as (T & s & x & q & fs' & E & Ex & _ & _ & U). split.
  - eapply touch_quiet; eauto. intros u. cbn. auto 7.
  - intros r' c'. unfold wv. rewrite U, nth_upd, Nat.eqb_refl, E. unfold fv, find_cell. cbn [set_cells sh_cells].
    change (fun x0 : cell => ((c_row x0 =? r') && (c_col x0 =? c'))%bool) with (at_key r' c'). apply replace_vals.
Qed.

Definition mem (r c : Z) (l : list (Z * Z)) : bool := existsb (fun p => ((fst p =? r) && (snd p =? c))%bool) l.
Definition blank_fill (o : option cval) : option cval := match o with None => Some VBlank | _ => o end.
Definition range_step (k : nat) (o : cellop) (w : wb) (rc : Z * Z) : res wb :=
  let* w1 := find_or_blank w k (fst rc) (snd rc) in api_cellop w1 k (fst rc) (snd rc) o.

Lemma range_one w k p o w' : winv2 w -> u32 (fst p) /\ u32 (snd p) -> range_step k o w p = Ok w' ->
  quiet k w w' /\ forall r c, wv w' k r c = if ((fst p =? r) && (snd p =? c))%bool then blank_fill (wv w k r c) else wv w k r c.
Proof.
  intros I [Hr Hc] H. unfold range_step in H. apply bind_ok in H. destruct H as (w1 & H1 & H2).
  destruct (blank_step _ _ _ _ _ I Hr Hc H1) as (Q1 & s & s' & E & E' & F1 & F2).
  destruct (op_step _ _ _ _ _ _ (qu_inv _ _ _ Q1) H2) as (Q2 & L2). split; [eapply quiet_trans; eauto|].
  intros r c. rewrite L2. unfold wv, fv. rewrite E, E'.
  destruct ((fst p =? r) && (snd p =? c))%bool eqn:Q.
  - assert (fst p = r) by lia. assert (snd p = c) by lia. subst. rewrite F1. destruct (find_cell s (fst p) (snd p)); reflexivity.
  - rewrite F2; [reflexivity|]. intro N. injection N as -> ->. rewrite !Z.eqb_refl in Q. discriminate.
Qed.
Lemma range_all k o l : Forall (fun p => u32 (fst p) /\ u32 (snd p)) l -> forall w w', winv2 w -> fold_res (range_step k o) l w = Ok w' ->
  quiet k w w' /\ forall r c, wv w' k r c = if mem r c l then blank_fill (wv w k r c) else wv w k r c.
Proof.
  induction 1 as [|p l Hp F IH]; intros w w' I H; cbn [fold_res] in H.
  - apply ok_inj in H. subst w'. split; [apply quiet_refl, I|]. reflexivity.
  - apply bind_ok in H. destruct H as (w1 & H1 & H2). destruct (range_one _ _ _ _ _ I Hp H1) as (Q1 & L1).
    destruct (IH _ _ (qu_inv _ _ _ Q1) H2) as (Q2 & L2). split; [eapply quiet_trans; eauto|].
    intros r c. rewrite L2, L1. unfold mem. cbn [existsb]. fold (mem r c l).
    destruct ((fst p =? r) && (snd p =? c))%bool, (mem r c l); cbn [orb]; auto. destruct (wv w k r c); reflexivity.
Qed.

Lemma zrange_in a b x : In x (zrange a b) <-> a <= x <= b.
Proof.
  unfold zrange. rewrite in_map_iff. split.
  - intros (i & <- & J). apply in_seq in J. lia.
  - intro H. exists (Z.to_nat (x - a)). split; [lia|]. apply in_seq. lia.
Qed.
Lemma block_in r1 c1 r2 c2 p : In p (block_of r1 c1 r2 c2) <-> r1 <= fst p <= r2 /\ c1 <= snd p <= c2.
Proof.
  unfold block_of. rewrite in_flat_map. split.
  - intros (r & Jr & J). apply in_map_iff in J. destruct J as (c & <- & Jc). rewrite zrange_in in *. cbn. lia.
  - intros [R C]. exists (fst p). rewrite zrange_in. split; [lia|]. apply in_map_iff. exists (snd p). rewrite zrange_in.
    destruct p; auto.
Qed.
Lemma block_mem r1 c1 r2 c2 r c : mem r c (block_of r1 c1 r2 c2) = (inside r1 r2 r && inside c1 c2 c)%bool.
Proof.
  unfold mem, inside. apply eq_true_iff_eq. rewrite existsb_exists. split.
  - intros (p & J & E). apply block_in in J. lia.
  - intro H. exists (r, c). rewrite block_in. cbn. lia.
Qed.

Lemma range_inv w k r1 c1 r2 c2 o w' : api_range w k r1 c1 r2 c2 o = Ok w' ->
  r1 <= r2 /\ c1 <= c2 /\ fold_res (range_step k o) (block_of r1 c1 r2 c2) w = Ok w'.
Proof.
  unfold api_range. destruct (negb _) eqn:E1; [discriminate|]. destruct (_ || _)%bool; [discriminate|]. intro H.
  split; [lia|]. split; [lia|]. exact H.
Qed.
Lemma block_u32 r1 c1 r2 c2 : u32 r1 -> u32 c1 -> u32 r2 -> u32 c2 ->
  Forall (fun p => u32 (fst p) /\ u32 (snd p)) (block_of r1 c1 r2 c2).
Proof. unfold u32. intros. apply Forall_forall. intros p J. apply block_in in J. lia. Qed.

Lemma fold_some_sheet k o l : l <> [] -> forall w w', fold_res (range_step k o) l w = Ok w' -> exists s, nth_error (wb_sheets w) k = Some s.
Proof.
  intros N w w' H. destruct l as [|p l]; [congruence|]. cbn [fold_res] in H. apply bind_ok in H. destruct H as (w1 & H & _).
  unfold range_step in H. apply bind_ok in H. destruct H as (w2 & H & _). unfold find_or_blank in H.
  destruct (nth_error (wb_sheets w) k); [eauto|discriminate].
Qed.

Lemma range_touch w k r1 c1 r2 c2 o w' : winv2 w -> u32 r1 -> u32 c1 -> u32 r2 -> u32 c2 ->
  api_range w k r1 c1 r2 c2 o = Ok w' -> touch (KRange k r1 c1 r2 c2 o) w w'.
Proof.
  intros I U1 U2 U3 U4 H. apply range_inv in H. destruct H as (R & C & H).
  destruct (range_all k o _ (block_u32 _ _ _ _ U1 U2 U3 U4) _ _ I H) as (Q & L). destruct Q as [Q1 Q2 Q3 Q4 Q5].
  constructor; auto. intros j s E. destruct (Nat.eq_dec j k) as [->|N].
  - destruct (Q5 s E) as (s' & E' & ? & ? & ? & ? & ? & ? & ?). exists s'. split; [exact E'|].
    constructor; cbn [merges_step links_step dvs_step cols_step rows_step notes_step map]; rewrite ?app_nil_r; auto.
    intros m M r c. specialize (L r c). specialize (M r c). unfold wv in L. rewrite E, E' in L. rewrite L, block_mem. cbn [cells_step].
    rewrite Nat.eqb_refl. cbn [andb]. destruct (inside r1 r2 r && inside c1 c2 c)%bool; [|exact M].
    destruct (fv s r c), (m r c); cbn [vm blank_fill] in *; auto; try tauto. exists 0. reflexivity.
  - exists s. rewrite Q4 by exact N. split; [exact E|]. apply eff_other. cbn [target]. congruence.
Qed.

(* ------------------------------------------------------------------ *)
(** * The other calls *)

Lemma mark_opt_level fs p : level fs (mark_opt fs p).
Proof. destruct p; [apply xf_mark_level|apply level_refl]. Qed.
Lemma unmark_opt_level fs p : level fs (unmark_opt fs p).
Proof. destruct p; [apply xf_unmark_level|apply level_refl]. Qed.

Ltac eff_fields := constructor;
  cbn [set_cols set_heights set_merged set_links set_dvs set_defaults sheet_merge sheet_hyperlink sheet_validate sheet_colwidth sheet_rowheight
       sh_index sh_merged sh_links sh_dvs sh_cols sh_heights sh_notes merges_step links_step dvs_step cols_step rows_step notes_step map];
  rewrite ?app_nil_r, ?Nat.eqb_refl; cbn [map rng lnk]; auto.

Lemma colwidth_touch w k c v p w' : winv2 w -> api_colwidth w k c v p = Ok w' -> touch (KColwidth k c v p) w w'.
Proof.
  intros [I T] H. apply on_sheet_inv in H. destruct H as (s & w1 & s1 & E & H & ->).
  destruct (xf_valid (wb_fs w) p) eqn:Ev; cbn [negb] in H; [|discriminate]. apply ok_pair in H. destruct H as [Hw Hs].
  destruct (winv_nth _ _ _ I E) as [Is Xs]. pose proof (nth_tight _ _ _ T E) as Ts. destruct Xs as (X1 & X2 & X3).
  assert (L : level (wb_fs w) (wb_fs w1)).
  { rewrite <- Hw. cbn [up_fs wb_fs]. destruct (find _ _); [eapply level_trans; [apply mark_opt_level|apply unmark_opt_level]|apply mark_opt_level]. }
  eapply touch_sheet with (s' := s1); eauto.
  - reflexivity.
  - eapply winv_sheet_plain; eauto; try (rewrite <- Hw; reflexivity).
    + apply level_grows, L.
    + rewrite <- Hs. destruct Is. constructor; cbn; auto. apply col_put_sorted. auto.
    + rewrite <- Hs. reflexivity.
    + apply level_grows in L. rewrite <- Hs. repeat split; cbn [sheet_colwidth set_cols sh_cells sh_cols sh_heights].
      * eapply Forall_impl; [|exact X1]. cbn. intros. eapply valid_grows; eauto.
      * apply Forall_forall. intros y J i Ei. apply col_put_in in J. eapply valid_grows; [exact L|]. destruct J as [->|J].
        -- cbn in Ei. eapply xf_valid_spec; eauto.
        -- rewrite Forall_forall in X2. eapply X2; eauto.
      * eapply Forall_impl; [|exact X3]. cbn. intros. eapply valid_grows; eauto.
    + rewrite <- Hs. reflexivity.
  - rewrite <- Hs. eapply tight_same; [exact Ts| | | | |]; reflexivity.
  - rewrite <- Hw. reflexivity.
  - rewrite <- Hs. eff_fields.
Qed.
Lemma rowheight_touch w k c v p w' : winv2 w -> api_rowheight w k c v p = Ok w' -> touch (KRowheight k c v p) w w'.
Proof.
  intros [I T] H. apply on_sheet_inv in H. destruct H as (s & w1 & s1 & E & H & ->).
  destruct (xf_valid (wb_fs w) p) eqn:Ev; cbn [negb] in H; [|discriminate]. apply ok_pair in H. destruct H as [Hw Hs].
  destruct (winv_nth _ _ _ I E) as [Is Xs]. pose proof (nth_tight _ _ _ T E) as Ts. destruct Xs as (X1 & X2 & X3).
  assert (L : level (wb_fs w) (wb_fs w1)).
  { rewrite <- Hw. cbn [up_fs wb_fs]. destruct (find _ _); [|apply mark_opt_level].
    eapply level_trans; [apply mark_opt_level|]. eapply level_trans; apply unmark_opt_level. }
  eapply touch_sheet with (s' := s1); eauto.
  - reflexivity.
  - eapply winv_sheet_plain; eauto; try (rewrite <- Hw; reflexivity).
    + apply level_grows, L.
    + rewrite <- Hs. destruct Is. constructor; cbn; auto. apply rh_put_sorted. auto.
    + rewrite <- Hs. reflexivity.
    + apply level_grows in L. rewrite <- Hs. repeat split; cbn [sheet_rowheight set_heights sh_cells sh_cols sh_heights].
      * eapply Forall_impl; [|exact X1]. cbn. intros. eapply valid_grows; eauto.
      * eapply Forall_impl; [|exact X2]. cbn. intros. eapply valid_grows; eauto.
      * apply Forall_forall. intros y J i Ei. apply rh_put_in in J. eapply valid_grows; [exact L|]. destruct J as [->|J].
        -- cbn in Ei. eapply xf_valid_spec; eauto.
        -- rewrite Forall_forall in X3. eapply X3; eauto.
    + rewrite <- Hs. reflexivity.
  - rewrite <- Hs. eapply tight_same; [exact Ts| | | | |]; reflexivity.
  - rewrite <- Hw. reflexivity.
  - rewrite <- Hs. eff_fields.
Qed.

Lemma pure_touch q w k f w' : winv2 w -> target q = Some k -> pure_sheet w k f = Ok w' ->
  (forall s, sheet_inv s -> sheet_inv (f s)) -> (forall s, sh_index (f s) = sh_index s) ->
  (forall s, sh_cells (f s) = sh_cells s) -> (forall s, sh_notes (f s) = sh_notes s) -> (forall s, sh_cols (f s) = sh_cols s) -> (forall s, sh_heights (f s) = sh_heights s) ->
  (forall s, sh_minr (f s) = sh_minr s /\ sh_maxr (f s) = sh_maxr s /\ sh_minc (f s) = sh_minc s /\ sh_maxc (f s) = sh_maxc s) ->
  (forall s, eff q k s (f s)) -> touch q w w'.
Proof.
  intros [I T] Tq H F1 F2 F3 F3b F4 F5 F6 F7. apply on_sheet_inv in H. destruct H as (s & w1 & s1 & E & H & ->).
  apply ok_pair in H. destruct H as [<- <-].
  destruct (winv_nth _ _ _ I E) as [Is Xs]. pose proof (nth_tight _ _ _ T E) as Ts.
  eapply touch_sheet with (s' := f s); eauto.
  - eapply winv_sheet_plain; eauto.
    + apply grows_refl.
    + unfold sheet_xfs in *. rewrite F3, F4, F5. exact Xs.
    + unfold slabels. rewrite F3. reflexivity.
  - destruct (F6 s) as (? & ? & ? & ?). eapply tight_same; [exact Ts| | | | |]; auto. unfold places. rewrite F3, F3b. reflexivity.
Qed.

Lemma winv_w1 w v : winv w -> winv (up_w1 w v).
Proof. intro I. apply (winv_other w); auto. apply grows_refl. Qed.
Lemma winv_fs w fs : winv w -> grows (wb_fs w) fs -> winv (up_fs w fs).
Proof. intros I G. apply (winv_other w); auto. Qed.

Lemma sheet_eff w name : winv2 w -> winv2 (api_sheet w name).
Proof.
  intros [I T]. constructor; [apply api_sheet_inv, I|]. cbn. apply Forall_app. split; [exact T|]. constructor; [apply tight_new|constructor].
Qed.

Lemma fs_touch q w fs : target q = None -> winv2 w -> grows (wb_fs w) fs -> touch q w (up_fs w fs).
Proof. intros T [I Ti] G. apply touch_none; [exact T|apply winv_fs; assumption|exact Ti|reflexivity|reflexivity]. Qed.
Lemma w1_touch q w v : target q = None -> winv2 w -> touch q w (up_w1 w v).
Proof. intros T [I Ti]. apply touch_none; [exact T|apply winv_w1; assumption|exact Ti|reflexivity|reflexivity]. Qed.
Lemma merge_touch w k r1 c1 r2 c2 w' : winv2 w -> pure_sheet w k (fun s => sheet_merge s r1 c1 r2 c2) = Ok w' ->
  touch (KMerge k r1 c1 r2 c2) w w'.
Proof.
  intros I H. eapply pure_touch; [exact I|reflexivity|exact H|..]; intros s; try reflexivity; auto; [intros []; constructor; auto|eff_fields].
Qed.
Lemma def_touch q w k (f g h i : sheet -> Z) w' : winv2 w -> target q = Some k ->
  (forall s s', sh_index s' = sh_index s -> sh_merged s' = sh_merged s -> sh_links s' = sh_links s -> sh_dvs s' = sh_dvs s ->
     sh_cols s' = sh_cols s -> sh_heights s' = sh_heights s -> sh_notes s' = sh_notes s -> sh_cells s' = sh_cells s -> eff q k s s') ->
  pure_sheet w k (fun s => set_defaults s (f s) (g s) (h s) (i s)) = Ok w' -> touch q w w'.
Proof.
  intros I T E H. eapply pure_touch; [exact I|exact T|exact H|..]; intros s; try reflexivity; [intros []; constructor; auto|auto|].
  apply E; reflexivity.
Qed.
Lemma same_eff q k s s' : merges_step k q = [] -> links_step k q = [] -> dvs_step k q = [] ->
  (forall l, cols_step k l q = l) -> (forall l, rows_step k l q = l) -> (forall l, notes_step k l q = l) ->
  (forall m r c, cells_step k m q r c = m r c) ->
  sh_index s' = sh_index s -> sh_merged s' = sh_merged s -> sh_links s' = sh_links s -> sh_dvs s' = sh_dvs s ->
     sh_cols s' = sh_cols s -> sh_heights s' = sh_heights s -> sh_notes s' = sh_notes s -> sh_cells s' = sh_cells s -> eff q k s s'.
Proof.
  intros M1 M2 M3 M4 M5 M6 M7 E1 E2 E3 E4 E5 E6 E7 E8. constructor; rewrite ?M1, ?M2, ?M3, ?M4, ?M5, ?M6; cbn [map]; rewrite ?app_nil_r; auto.
  intros m M r c. rewrite M7. unfold fv, find_cell in *. rewrite E8. apply M.
Qed.
Lemma link_touch w k r c u m w' : winv2 w -> pure_sheet w k (fun s => sheet_hyperlink s r c (to16 u) (to16 m)) = Ok w' ->
  touch (KHyperlink k r c u m) w w'.
Proof.
  intros I H. eapply pure_touch; [exact I|reflexivity|exact H|..]; intros s; try reflexivity; auto; [intros []; constructor; auto|eff_fields].
Qed.
Lemma dv_touch w k d w' : winv2 w -> pure_sheet w k (fun s => sheet_validate s d) = Ok w' -> touch (KValidate k d) w w'.
Proof.
  intros I H. eapply pure_touch; [exact I|reflexivity|exact H|..]; intros s; try reflexivity; auto; [intros []; constructor; auto|eff_fields].
Qed.
Lemma color_touch w r g b i : winv2 w -> touch (KSetColor r g b i) w (api_setcolor w r g b i).
Proof.
  intros [I T]. unfold api_setcolor, colors_set. destruct (_ || _)%bool.
  - apply touch_none; auto.
  - apply touch_none; auto. apply (winv_other w); auto; [apply grows_refl|]. cbn [up_pal wb_palette]. apply upd_len.
Qed.

(* Only an order of unfolding for the conversion test. *)
Local Strategy 1000 [wb_new fstate_init wb_xformat wb_fontnum xf_user font_set wb_font add_format].
Lemma xformat_touch w f m w' : winv2 w -> api_call w (KXformat f m) = Ok w' -> touch (KXformat f m) w w'.
Proof.
  intros I H. unfold api_call in H. apply bind_ok in H. destruct H as ([fs i] & H1 & H). apply ok_inj in H. rewrite <- H.
  apply fs_touch; [reflexivity|exact I|]. exact (wb_xformat_grows _ _ _ _ _ H1).
Qed.
Lemma fontnum_touch w n w' : winv2 w -> api_call w (KFontNum n) = Ok w' -> touch (KFontNum n) w w'.
Proof.
  intros I H. unfold api_call in H. apply bind_ok in H. destruct H as ([fs i] & H1 & H). apply ok_inj in H. rewrite <- H.
  apply fs_touch; [reflexivity|exact I|]. exact (wb_fontnum_grows _ _ _ _ H1).
Qed.
Lemma xfset_touch w p o w' : winv2 w -> api_call w (KXfSet p o) = Ok w' -> touch (KXfSet p o) w w'.
Proof.
  intros I H. unfold api_call in H. apply bind_ok in H. destruct H as (fs & H1 & H). apply ok_inj in H. rewrite <- H.
  apply fs_touch; [reflexivity|exact I|]. apply level_grows. exact (xf_user_level _ _ _ _ H1).
Qed.
Lemma fontset_touch w p o w' : winv2 w -> api_call w (KFontSet p o) = Ok w' -> touch (KFontSet p o) w w'.
Proof.
  intros I H. unfold api_call in H. apply bind_ok in H. destruct H as (fs & H1 & H). apply ok_inj in H. rewrite <- H.
  apply fs_touch; [reflexivity|exact I|]. apply level_grows. exact (font_set_level _ _ _ _ H1).
Qed.
Lemma font_touch w n w' : winv2 w -> api_call w (KFont n) = Ok w' -> touch (KFont n) w w'.
Proof.
  intros I H. unfold api_call in H. apply ok_inj in H. rewrite <- H. apply fs_touch; [reflexivity|exact I|]. unfold wb_font. apply add_font_grows.
Qed.
Lemma format_touch w n w' : winv2 w -> api_call w (KFormat n) = Ok w' -> touch (KFormat n) w w'.
Proof.
  intros I H. unfold api_call in H. apply ok_inj in H. rewrite <- H. apply fs_touch; [reflexivity|exact I|]. apply add_format_grows.
Qed.
Lemma hyper_touch w k r c u m w' : winv2 w -> api_call w (KHyperlink k r c u m) = Ok w' -> touch (KHyperlink k r c u m) w w'.
Proof.
  intros I H. unfold api_call in H. destruct (nth_error _ _) as [s0|]; [|discriminate]. destruct (find_cell _ _ _); [|discriminate]. apply link_touch; assumption.
Qed.
Lemma active_touch w k w' : winv2 w -> api_call w (KActive k) = Ok w' -> touch (KActive k) w w'.
Proof.
  intros I H. unfold api_call in H. destruct (nth_error _ _) as [s0|]; [|discriminate]. apply ok_inj in H. rewrite <- H. apply w1_touch; [reflexivity|assumption].
Qed.
Lemma defs_touch w q k w' : winv2 w -> (exists v b, q = KDefRowHeight k v b) \/ (exists v, q = KDefColWidth k v) \/ (exists u v, q = KSplit k u v) ->
  api_call w q = Ok w' -> touch q w w'.
Proof.
  intros I [(v & b & ->)|[[v ->]|(u & v & ->)]] H; unfold api_call in H;
  (eapply def_touch; [exact I|reflexivity| |exact H]); intros s s'; apply same_eff; reflexivity.
Qed.
Lemma win_touch w q w' : winv2 w -> (exists a b, q = KWindPos a b \/ q = KWindSize a b \/ q = KFirstTab a \/ q = KTabBar a) ->
  api_call w q = Ok w' -> touch q w w'.
Proof.
  intros I (a & b & [->|[->|[->| ->]]]) H; unfold api_call in H; apply ok_inj in H; rewrite <- H; (apply w1_touch; [reflexivity|assumption]).
Qed.

Lemma call_touch w q w' : winv2 w -> typed q -> (forall n, q <> KSheet n) -> api_call w q = Ok w' -> touch q w w'.
Proof.
  intros I Ty NS H. destruct q; cbn [typed] in Ty.
  - exfalso. eapply NS; reflexivity.
  - apply (cell_touch _ _ _ _ _ _ _ I) in H; tauto.
  - apply note_touch; tauto.
  - apply cellop_touch in H; tauto.
  - apply range_touch; tauto.
  - apply merge_touch; assumption.
  - apply colwidth_touch; assumption.
  - apply rowheight_touch; assumption.
  - apply (defs_touch _ _ k); eauto.
  - apply (defs_touch _ _ k); eauto.
  - apply (defs_touch _ _ k); eauto.
  - apply hyper_touch; assumption.
  - apply dv_touch; assumption.
  - apply active_touch; assumption.
  - unfold api_call in H. apply ok_inj in H. rewrite <- H. apply color_touch; assumption.
  - apply win_touch; eauto 6.
  - apply win_touch; eauto 6.
  - apply win_touch; [assumption|exists v, 0; auto|assumption].
  - apply win_touch; [assumption|exists v, 0; auto|assumption].
  - apply font_touch; assumption.
  - apply fontnum_touch; assumption.
  - apply format_touch; assumption.
  - apply xformat_touch; assumption.
  - apply xfset_touch; assumption.
  - apply fontset_touch; assumption.
Qed.

(* ------------------------------------------------------------------ *)
(** * Histories *)

Record meaning (k : nat) (calls : list call) (s : sheet) : Prop := {
  me_merged : sh_merged s = map rng (merges_of k calls);
  me_links : sh_links s = map lnk (links_of k calls);
  me_dvs : sh_dvs s = dvs_of k calls;
  me_cols : sh_cols s = fold_left (cols_step k) calls [];
  me_heights : sh_heights s = fold_left (rows_step k) calls [];
  me_notes : sh_notes s = fold_left (notes_step k) calls [];
  me_vals : forall r c, vm (fv s r c) (cells_of k calls r c)
}.
Lemma meaning_step k calls q s s' : meaning k calls s -> eff q k s s' -> meaning k (calls ++ [q]) s'.
Proof.
  intros [] []. unfold merges_of, links_of, dvs_of, cells_of in *.
  constructor; unfold merges_of, links_of, dvs_of, cells_of; rewrite ?flat_map_app, ?fold_left_app, ?map_app; cbn [flat_map fold_left];
    rewrite ?app_nil_r; try congruence.
  apply ef_vals0. assumption.
Qed.
Definition silent (k : nat) (calls : list call) : Prop := Forall (fun q => target q <> Some k) calls.
Lemma silent_meaning k calls i : silent k calls -> meaning k calls (sheet_new i).
Proof.
  induction calls as [|q calls IH] using rev_ind; intro S.
  - constructor; auto; try reflexivity; intros r c; exact Logic.I.
  - apply Forall_app in S. destruct S as [S Sq]. inversion Sq; subst. eapply meaning_step; [apply IH; exact S|]. apply eff_other. assumption.
Qed.

Lemma on_sheet_some w k f w' : on_sheet w k f = Ok w' -> (k < length (wb_sheets w))%nat.
Proof. intro H. apply on_sheet_inv in H. destruct H as (s & _ & _ & E & _). apply nth_error_Some. congruence. Qed.
Lemma call_target w q w' k : api_call w q = Ok w' -> target q = Some k -> (k < length (wb_sheets w))%nat.
Proof.
  intros H T. destruct q; cbn [target] in T; try discriminate T; injection T as ->; cbn [api_call] in H;
    try (exact (on_sheet_some _ _ _ _ H)).
  - unfold api_note in H. apply bind_ok in H. destruct H as (w1 & H & _). exact (on_sheet_some _ _ _ _ H).
  - apply range_inv in H. destruct H as (R & C & H). assert (N : block_of r1 c1 r2 c2 <> []).
    { intro E. assert (J : In (r1, c1) (block_of r1 c1 r2 c2)) by (apply block_in; cbn; lia). rewrite E in J. destruct J. }
    destruct (fold_some_sheet _ _ _ N _ _ H) as (s & E). apply nth_error_Some. congruence.
  - destruct (nth_error (wb_sheets w) k) eqn:E; [|discriminate]. apply nth_error_Some. congruence.
Qed.

Lemma fold_res_app {A S} (f : S -> A -> res S) a b s : fold_res f (a ++ b) s = (let* t := fold_res f a s in fold_res f b t).
Proof.
  revert s. induction a as [|x a IH]; intros s; cbn [app fold_res]; [reflexivity|]. destruct (f s x); cbn [bind]; auto.
Qed.
Lemma document_snoc calls q w' : document (calls ++ [q]) = Ok w' -> exists w, document calls = Ok w /\ api_call w q = Ok w'.
Proof.
  unfold document, api_run. intro H. apply bind_ok in H. destruct H as (w0 & E0 & H). rewrite fold_res_app in H.
  apply bind_ok in H. destruct H as (w & E & H). exists w. rewrite E0. cbn [bind]. split; [exact E|]. cbn [fold_res] in H.
  apply bind_ok in H. destruct H as (u & E2 & H). apply ok_inj in H. congruence.
Qed.
Lemma document_prefix calls more w' : document (calls ++ more) = Ok w' -> exists w, document calls = Ok w.
Proof.
  unfold document, api_run. intro H. apply bind_ok in H. destruct H as (w0 & E0 & H). rewrite fold_res_app in H.
  apply bind_ok in H. destruct H as (w & E & H). exists w. rewrite E0. exact E.
Qed.

Record means (calls : list call) (w : wb) : Prop := {
  mn_inv : winv2 w;
  mn_names : map bs_name (wb_bs w) = map to16 (sheet_names calls);
  mn_len : length (wb_sheets w) = length (sheet_names calls);
  mn_sheet : forall k s, nth_error (wb_sheets w) k = Some s -> meaning k calls s;
  mn_silent : forall k, (length (wb_sheets w) <= k)%nat -> silent k calls
}.
Lemma names_snoc calls q : (forall n, q <> KSheet n) -> sheet_names (calls ++ [q]) = sheet_names calls.
Proof.
  intro N. unfold sheet_names. rewrite flat_map_app. cbn [flat_map]. destruct q; try (exfalso; eapply N; reflexivity); cbn [names_step app]; apply app_nil_r.
Qed.
Lemma wb_new_sheets w : wb_new = Ok w -> wb_sheets w = [] /\ wb_bs w = [] /\ wb_palette w = default_palette.
Proof.
  unfold wb_new. intro H. apply bind_ok in H. destruct H as (fs & _ & H). apply ok_inj in H. rewrite <- H. auto.
Qed.
Lemma sheet_dec q : (exists n, q = KSheet n) \/ (forall n, q <> KSheet n).
Proof. destruct q; try (right; intro; discriminate); left; eauto. Qed.
Lemma document_nil w : document [] = Ok w -> wb_new = Ok w.
Proof. unfold document. intro H. apply bind_ok in H. destruct H as (w0 & H0 & H). apply ok_inj in H. congruence. Qed.
Lemma call_sheet w n w' : api_call w (KSheet n) = Ok w' -> w' = api_sheet w n.
Proof. intro H. unfold api_call in H. apply ok_inj in H. auto. Qed.
Theorem run_means calls w : Forall typed calls -> document calls = Ok w -> means calls w.
Proof.
  revert w. induction calls as [|q calls IH] using rev_ind; intros w Ty H.
  - pose proof (document_nil _ H) as H0. pose proof (new_inv _ H0) as I. destruct (wb_new_sheets _ H0) as (Es & Eb & _).
    constructor; rewrite ?Es, ?Eb; auto.
    + constructor; [exact I|]. rewrite Es. constructor.
    + intros k s E. destruct k; discriminate.
    + intros. constructor.
  - apply Forall_app in Ty. destruct Ty as [Ty Tq]. inversion Tq; subst. apply document_snoc in H. destruct H as (w0 & H0 & H).
    specialize (IH _ Ty H0). destruct IH as [I N L M Si].
    destruct (sheet_dec q) as [[n ->]|NS].
    + apply call_sheet in H. subst w.
      assert (Len : length (wb_sheets (api_sheet w0 n)) = S (length (wb_sheets w0))) by (cbn; rewrite app_length; cbn; lia).
      constructor.
      * apply sheet_eff, I.
      * unfold sheet_names in *. rewrite flat_map_app, map_app, <- N. cbn. rewrite map_app. reflexivity.
      * rewrite Len, L. unfold sheet_names. rewrite flat_map_app, app_length. cbn. lia.
      * intros k s E. assert (E' : nth_error (wb_sheets w0 ++ [sheet_new (zlen (wb_sheets w0) mod 65536)]) k = Some s) by exact E.
        destruct (lt_dec k (length (wb_sheets w0))) as [Lk|Lk].
        -- rewrite nth_error_app1 in E' by exact Lk. eapply meaning_step; [apply M; exact E'|]. apply eff_other. discriminate.
        -- rewrite nth_error_app2 in E' by lia. destruct (k - length (wb_sheets w0))%nat eqn:Ek; cbn in E'; [|destruct n0; discriminate].
           injection E' as <-. apply silent_meaning. apply Forall_app. split; [apply Si; lia|]. constructor; [discriminate|constructor].
      * intros k Lk. rewrite Len in Lk. apply Forall_app. split; [apply Si; lia|]. constructor; [discriminate|constructor].
    + pose proof (call_touch _ _ _ I H2 NS H) as [T1 T2 T3 T4]. constructor.
      * exact T1.
      * rewrite names_snoc, T4 by exact NS. exact N.
      * rewrite names_snoc, T2 by exact NS. exact L.
      * intros k s' E'. destruct (nth_error (wb_sheets w0) k) as [s|] eqn:E.
        -- destruct (T3 k s E) as (s2 & E2 & Ef). assert (s2 = s') by congruence. subst s2. eapply meaning_step; eauto.
        -- apply nth_error_None in E. assert (K : nth_error (wb_sheets w) k <> None) by congruence. apply nth_error_Some in K. lia.
      * intros k Lk. rewrite T2 in Lk. apply Forall_app. split; [apply Si; lia|]. constructor; [|constructor]. intro T.
        pose proof (call_target _ _ _ _ H T). lia.
Qed.
