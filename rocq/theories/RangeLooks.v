(** Histories with cellcolor and boxer are saved like ordinary ones. *)
From Coq Require Import ZArith List Bool Lia ZifyBool ZifyNat.
From Verif Require Import Bytes UnitModel SpecBuf BufProofs RecModel SheetModel XfModel WbModel RecProofs RecFrames SpecXf XfProofs SpecXfOps PropsXf XfInv Looks ApiModel SpecBiff BookRecs ApiInv
  SpecApi ApiEff SheetProofs SheetTrace GlobTrace WbProofs SaveOk SaveRecs SaveRead SpecSaved SaveMeans DocLimits SavedView XfTrace SpecLook LookInv ViewPay RefTrace LookStep FontUse Careful ViewLook FontLook CellLook
  RangeModel RangePaint SpecPaint.
Import ListNotations.
Local Open Scope Z_scope.
Local Notation mem := ApiEff.mem.
Local Notation few := LookInv.few.

(* ------------------------------------------------------------------ *)
(** * The loop bodies *)

Definition color_ops (color : Z) : list fmtop := [FXf (XFg color); FXf (XFill 1)].
Lemma color_ops_some color (t : Z) : color_ops color <> [].
Proof. discriminate. Qed.
Lemma color_pstep color k calls w m rc w' m' : Forall typed calls -> document calls = Ok w -> u32 (fst rc) -> u32 (snd rc) ->
  color_step color k (w, m) rc = Ok (w', m') -> pstep k (fun _ => color_ops color) (fun _ => color_ops color) w m rc w' m'.
Proof.
  intros T D Ur Uc H. destruct rc as [r c]. unfold color_step in H. cbn [fst snd] in *.
  apply bind_ok in H. destruct H as (w0 & Hb & H). apply bind_ok in H. destruct H as (p & Hp & H). apply bind_ok in H. destruct H as (f & Hf & H).
  apply pxf_at in Hp. exists w0, p, f. cbn [fst snd]. split; [exact Hb|]. split; [exact Hp|]. split; [reflexivity|].
  destruct (memo_find m (p mod 65536) f) as [q|] eqn:Mf.
  - left. exists q. split; [reflexivity|]. apply bind_ok in H. destruct H as (w1 & H1 & H). apply ok_pair in H. destruct H as [<- <-]. auto.
  - right. apply bind_ok in H. destruct H as (w1 & H1 & H). apply bind_ok in H. destruct H as (f1 & Hf1 & H). apply bind_ok in H. destruct H as (q & Hq & H). apply ok_pair in H. destruct H as [<- <-].
    apply pxf_at in Hq. exists q. split; [exact H1|]. split; [exact Hq|]. f_equal.
    destruct (blank_call _ _ _ _ _ _ T D Ur Uc Hb) as (fill & Ef & D0 & _).
    assert (T0 : Forall typed (calls ++ fill)) by (apply Forall_app; split; [exact T|]; destruct Ef as [->| ->]; [constructor|constructor; [cbn [typed val_typed]; auto|constructor]]).
    destruct (setters_run (color_ops color) _ _ _ _ _ _ _ T0 D0 Hp H1) as (q0 & _ & K & _).
    unfold xf_flags in Hf, Hf1. destruct (xf_at (wb_fs w0) p) as [x|] eqn:Ex; [|discriminate Hf]. destruct (kp_xf _ _ K _ _ Ex) as (y & Ey & Cy). rewrite Ey in Hf1. apply ok_inj in Hf, Hf1.
    apply (f_equal x_flags) in Cy. unfold core in Cy. destruct x, y. cbn in *. congruence.
Qed.

(** The setters of boxer depend on the edges only. *)
Definition bit_ops (style fill bcolor fg bg b : Z) : list fmtop :=
  edge_ops (Z.testbit b 1) 1 style bcolor ++ edge_ops (Z.testbit b 0) 0 style bcolor
  ++ edge_ops (Z.testbit b 2) 2 style bcolor ++ edge_ops (Z.testbit b 3) 3 style bcolor
  ++ [FXf (XFg fg); FXf (XFg bg); FXf (XFill fill)].
Lemma bits_ops r1 c1 r2 c2 style fill bcolor fg bg r c :
  bit_ops style fill bcolor fg bg (edge_bits r1 c1 r2 c2 r c) = box_ops r1 c1 r2 c2 r c style fill bcolor fg bg.
Proof.
  unfold bit_ops, box_ops, edge_bits. destruct (r =? r1), (r =? r2), (c =? c1), (c =? c2); reflexivity.
Qed.
Lemma bit_ops_some style fill bcolor fg bg b : bit_ops style fill bcolor fg bg b <> [].
Proof. unfold bit_ops, edge_ops. intro H. apply (f_equal (@length fmtop)) in H. rewrite !app_length in H. cbn [length] in H. lia. Qed.
Lemma box_pstep r1 c1 r2 c2 style fill bcolor fg bg k w m rc w' m' : box_step r1 c1 r2 c2 style fill bcolor fg bg k (w, m) rc = Ok (w', m') ->
  pstep k (bit_ops style fill bcolor fg bg) (fun rc => box_ops r1 c1 r2 c2 (fst rc) (snd rc) style fill bcolor fg bg) w m rc w' m'.
Proof.
  intro H. destruct rc as [r c]. unfold box_step in H. cbn [fst snd] in *.
  apply bind_ok in H. destruct H as (w0 & Hb & H). apply bind_ok in H. destruct H as (p & Hp & H).
  apply pxf_at in Hp. exists w0, p, (edge_bits r1 c1 r2 c2 r c). cbn [fst snd]. split; [exact Hb|]. split; [exact Hp|]. split; [apply bits_ops|].
  destruct (memo_find m (p mod 65536) (edge_bits r1 c1 r2 c2 r c)) as [q|] eqn:Mf.
  - left. exists q. split; [reflexivity|]. apply bind_ok in H. destruct H as (w1 & H1 & H). apply ok_pair in H. destruct H as [<- <-]. auto.
  - right. apply bind_ok in H. destruct H as (w1 & H1 & H). apply bind_ok in H. destruct H as (q & Hq & H). apply ok_pair in H. destruct H as [<- <-].
    apply pxf_at in Hq. exists q. rewrite bits_ops. auto.
Qed.

(* ------------------------------------------------------------------ *)
(** * One paint *)

(** The setters a paint runs at a position. *)
Definition paint_ops (x : xcall) (rc : Z * Z) : list fmtop :=
  match x with
  | XCall _ => []
  | XColor _ _ _ _ _ color => color_ops color
  | XBox _ r1 c1 r2 c2 style fill bcolor fg bg => box_ops r1 c1 r2 c2 (fst rc) (snd rc) style fill bcolor fg bg
  end.
Lemma paint_args x rc : xargs x -> ops_args (paint_ops x rc).
Proof.
  destruct x as [q|k r1 c1 r2 c2 color|k r1 c1 r2 c2 style fill bcolor fg bg]; cbn [xargs paint_ops]; [constructor| |].
  - intro A. unfold ops_args, color_ops. repeat (apply Forall_cons; [first [exact A|exact I]|]). apply Forall_nil.
  - intros (A1 & A2 & A3). unfold ops_args, box_ops, edge_ops. rewrite !Forall_app.
    repeat apply conj; try (destruct (_ =? _)); repeat (apply Forall_cons; [first [exact A1|exact A2|exact A3|exact I]|]); apply Forall_nil.
Qed.
Lemma loop_inv step w r1 c1 r2 c2 w' : range_loop step w r1 c1 r2 c2 = Ok w' -> exists m', fold_res step (block_of r1 c1 r2 c2) (w, []) = Ok (w', m').
Proof.
  unfold range_loop. destruct (negb _); [discriminate|]. destruct (_ || _)%bool; [discriminate|]. intro H. apply bind_ok in H. destruct H as ((w1, m1) & H & E). apply ok_inj in E. subst w1. eauto.
Qed.
Definition run_effect (x : xcall) (k : nat) (l : list (Z * Z)) (calls : list call) (w w' : wb) : Prop :=
  exists more, Forall (paint_call k l) more /\ document (calls ++ more) = Ok w' /\ keeps (wb_fs w) (wb_fs w') /\ grows (wb_fs w) (wb_fs w')
    /\ (xargs x -> Forall args more)
    /\ (forall k' r' c', cells_of k' (calls ++ more) r' c' =
          if (Nat.eqb k' k && mem r' c' l)%bool then match cells_of k' calls r' c' with None => Some UBlank | i => i end else cells_of k' calls r' c')
    /\ (forall k' r c, k' <> k \/ mem r c l = false -> xfat w' k' r c = xfat w k' r c)
    /\ (Forall args calls -> xargs x -> few (wb_fs w') -> forall r c a, mem r c l = true ->
        xf_rec (wb_fs w) (match xfat w k r c with Some p => p | None => 15 end) = Some a -> exists q, xfat w' k r c = Some q /\ xf_rec (wb_fs w') q = Some (sets (paint_ops x (r, c)) a)).
Lemma paint_run x k r1 c1 r2 c2 calls w w' : paints x k r1 c1 r2 c2 -> typed (shape x) -> Forall typed calls -> document calls = Ok w -> x_call w x = Ok w' ->
  run_effect x k (block_of r1 c1 r2 c2) calls w w'.
Proof.
  intros P Tx T D H.
  assert (U : Forall (fun p => u32 (fst p) /\ u32 (snd p)) (block_of r1 c1 r2 c2)).
  { destruct P as [(color & ->)|(style & fill & bcolor & fg & bg & ->)]; cbn [shape typed] in Tx; destruct Tx as (A & B & C & E); exact (block_u32 _ _ _ _ A B C E). }
  unfold run_effect. destruct P as [(color & ->)|(style & fill & bcolor & fg & bg & ->)]; cbn [x_call] in H; apply loop_inv in H; destruct H as (m' & H).
  - destruct (loop_run k (fun _ => color_ops color) (fun _ => color_ops color) (color_ops_some color) (color_step color k) (color_pstep color k) _ U (block_nodup _ _ _ _)
      _ _ _ _ _ T D (Forall_nil _) H) as (more & P1 & D1 & K1 & G1 & A1 & C1 & X1 & L1).
    exists more. do 4 (split; [assumption|]). split. { intro Ax. apply A1. intro rc. exact (paint_args _ rc Ax). }
    do 2 (split; [assumption|]). intros Ac Ax F r c a M La. apply (L1 Ac (fun rc => paint_args _ rc Ax) F (Forall_nil _) r c a M La).
  - destruct (loop_run k (bit_ops style fill bcolor fg bg) (fun rc => box_ops r1 c1 r2 c2 (fst rc) (snd rc) style fill bcolor fg bg) (bit_ops_some style fill bcolor fg bg)
      (box_step r1 c1 r2 c2 style fill bcolor fg bg k) (fun _ w m rc w' m' _ _ _ _ => box_pstep r1 c1 r2 c2 style fill bcolor fg bg k w m rc w' m') _ U (block_nodup _ _ _ _)
      _ _ _ _ _ T D (Forall_nil _) H) as (more & P1 & D1 & K1 & G1 & A1 & C1 & X1 & L1).
    exists more. do 4 (split; [assumption|]). split. { intro Ax. apply A1. intro rc. exact (paint_args _ rc Ax). }
    do 2 (split; [assumption|]). intros Ac Ax F r c a M La. apply (L1 Ac (fun rc => paint_args _ rc Ax) F (Forall_nil _) r c a M La).
Qed.

(* ------------------------------------------------------------------ *)
(** * Whole histories *)

Lemma sf_refl a : same_facts a a.
Proof. constructor; reflexivity. Qed.
Lemma sf_snoc a b q : same_facts a b -> same_facts (a ++ [q]) (b ++ [q]).
Proof.
  intros [A1 A2 A3 A4 A5 A6 A7 A8 A9 A10]. constructor; intros;
    unfold sheet_names, cells_of, merges_of, width_of, height_of, note_of, links_of, dvs_of, colour_of in *;
    rewrite ?flat_map_app, ?fold_left_app, ?filter_app; cbn [flat_map fold_left]; try congruence.
  - destruct q; cbn [cells_step]; rewrite ?A2; reflexivity.
Qed.
Lemma silent_flat {A} (f : call -> list A) more : Forall (fun q => f q = []) more -> flat_map f more = [].
Proof. induction 1 as [|q l E _ IH]; [reflexivity|]. cbn [flat_map]. rewrite E. exact IH. Qed.
Lemma silent_fold {A} (f : A -> call -> A) more : Forall (fun q => forall o, f o q = o) more -> forall o, fold_left f more o = o.
Proof. induction 1 as [|q l E _ IH]; intro o; [reflexivity|]. cbn [fold_left]. rewrite E. apply IH. Qed.
Lemma paint_silent k l q : paint_call k l q -> names_step q = [] /\ (forall j, merges_step j q = []) /\ (forall j c o, width_step j c o q = o) /\ (forall j r o, height_step j r o q = o)
  /\ (forall j r c o, note_step j r c o q = o) /\ (forall j, links_step j q = []) /\ (forall j, dvs_step j q = []) /\ (forall i o, colour_step i o q = o) /\ long_label q = false.
Proof. intro P. destruct q; try (destruct P; fail); [destruct v; try (destruct P; fail)|]; repeat split; reflexivity. Qed.
Lemma sf_paint a b k r1 c1 r2 c2 o more : same_facts a b -> Forall (paint_call k (block_of r1 c1 r2 c2)) more ->
  (forall k' r' c', cells_of k' (a ++ more) r' c' =
          if (Nat.eqb k' k && mem r' c' (block_of r1 c1 r2 c2))%bool then match cells_of k' a r' c' with None => Some UBlank | i => i end else cells_of k' a r' c') ->
  same_facts (a ++ more) (b ++ [KRange k r1 c1 r2 c2 o]).
Proof.
  intros [A1 A2 A3 A4 A5 A6 A7 A8 A9 A10] P C.
  assert (S : forall Q : call -> Prop, (forall q, paint_call k (block_of r1 c1 r2 c2) q -> Q q) -> Forall Q more) by (intros Q HQ; eapply Forall_impl; [exact HQ|exact P]).
  constructor; intros.
  2:{ rewrite C, A2. unfold cells_of. rewrite fold_left_app. cbn [fold_left cells_step]. rewrite block_mem, andb_assoc. reflexivity. }
  all: unfold sheet_names, merges_of, width_of, height_of, note_of, links_of, dvs_of, colour_of in *; rewrite ?flat_map_app, ?fold_left_app, ?filter_app; cbn [flat_map fold_left].
  - rewrite (silent_flat _ more) by (apply S; intros q Q; apply paint_silent in Q; apply Q). rewrite A1. reflexivity.
  - rewrite (silent_flat _ more) by (apply S; intros q Q; apply paint_silent in Q; apply Q). rewrite A3. reflexivity.
  - rewrite (silent_fold _ more) by (apply S; intros q Q; apply paint_silent in Q; apply Q). rewrite A4. reflexivity.
  - rewrite (silent_fold _ more) by (apply S; intros q Q; apply paint_silent in Q; apply Q). rewrite A5. reflexivity.
  - rewrite (silent_fold _ more) by (apply S; intros q Q; apply paint_silent in Q; apply Q). rewrite A6. reflexivity.
  - rewrite (silent_flat _ more) by (apply S; intros q Q; apply paint_silent in Q; apply Q). rewrite A7. reflexivity.
  - rewrite (silent_flat _ more) by (apply S; intros q Q; apply paint_silent in Q; apply Q). rewrite A8. reflexivity.
  - rewrite (silent_fold _ more) by (apply S; intros q Q; apply paint_silent in Q; apply Q). rewrite A9. reflexivity.
  - rewrite A10. f_equal. cbn [filter long_label]. clear C S. induction P as [|q l Q _ IH]; [reflexivity|]. cbn [filter]. apply paint_silent in Q.
    destruct Q as (_ & _ & _ & _ & _ & _ & _ & _ & ->). exact IH.
Qed.

Lemma paint_shape x k r1 c1 r2 c2 : paints x k r1 c1 r2 c2 -> exists o, shape x = KRange k r1 c1 r2 c2 (CFormat o).
Proof. intros [(color & ->)|(style & fill & bcolor & fg & bg & ->)]; cbn [shape]; eauto. Qed.
Lemma x_kinds x : (exists q, x = XCall q) \/ exists k r1 c1 r2 c2, paints x k r1 c1 r2 c2.
Proof. destruct x; [left; eauto|right; do 5 eexists; left; eauto|right; do 5 eexists; right; eauto 8]. Qed.
Lemma x_snoc xs x w' : x_document (xs ++ [x]) = Ok w' -> exists w, x_document xs = Ok w /\ x_call w x = Ok w'.
Proof.
  unfold x_document. intro H. apply bind_ok in H. destruct H as (w0 & E0 & H). rewrite fold_res_app in H. apply bind_ok in H. destruct H as (w1 & H1 & H). exists w1. rewrite E0. cbn [bind].
  split; [exact H1|]. cbn [fold_res] in H. apply bind_ok in H. destruct H as (w2 & H2 & H). apply ok_inj in H. subst. exact H2.
Qed.
Record stands (xs : list xcall) (calls : list call) (w : wb) : Prop := {
  st_doc : document calls = Ok w;
  st_typed : Forall typed calls;
  st_facts : same_facts calls (map shape xs);
  st_fits : forall R, Forall (call_fits R) (map shape xs) -> Forall (call_fits R) calls;
  st_args : Forall xargs xs -> Forall args calls }.
Lemma stands_paint xs x k r1 c1 r2 c2 calls w w' more : paints x k r1 c1 r2 c2 -> typed (shape x) -> stands xs calls w ->
  Forall (paint_call k (block_of r1 c1 r2 c2)) more -> document (calls ++ more) = Ok w' -> (xargs x -> Forall args more) ->
  (forall k' r' c', cells_of k' (calls ++ more) r' c' =
          if (Nat.eqb k' k && mem r' c' (block_of r1 c1 r2 c2))%bool then match cells_of k' calls r' c' with None => Some UBlank | i => i end else cells_of k' calls r' c') ->
  stands (xs ++ [x]) (calls ++ more) w'.
Proof.
  intros P Tx [D T F Ft A] Pm Dm Am C. destruct (paint_shape _ _ _ _ _ _ P) as (o & E).
  assert (U : forall r c, In (r, c) (block_of r1 c1 r2 c2) -> u32 r /\ u32 c /\ r <= r2 /\ c <= c2).
  { rewrite E in Tx. cbn [typed] in Tx. intros r c J. destruct Tx as (B1 & B2 & B3 & B4). apply block_in in J. unfold u32 in *. cbn [fst snd] in J. lia. }
  constructor.
  - exact Dm.
  - apply Forall_app. split; [exact T|]. eapply Forall_impl; [|exact Pm]. intros q Q. destruct q; try (destruct Q; fail); [|exact I]. destruct v; try (destruct Q; fail). destruct p; [destruct Q|].
    destruct Q as [_ J]. apply U in J. cbn [typed val_typed]. tauto.
  - rewrite map_app. cbn [map]. rewrite E. apply sf_paint; assumption.
  - intros R H. rewrite map_app in H. cbn [map] in H. rewrite E in H. apply Forall_app in H. destruct H as [H1 H2]. apply Forall_inv in H2. cbn [call_fits] in H2. apply Forall_app. split; [apply Ft, H1|].
    eapply Forall_impl; [|exact Pm]. intros q Q. destruct q; try (destruct Q; fail); cbn [call_fits].
    + destruct v; try (destruct Q; fail). destruct p; [destruct Q|]. destruct Q as [_ J]. apply U in J. cbn [val_fits]. lia.
    + destruct o0; try (destruct Q; fail); exact I.
  - intro H. apply Forall_app in H. destruct H as [H1 H2]. apply Forall_inv in H2. apply Forall_app. auto.
Qed.
Local Strategy 1000 [wb_new fstate_init].
Lemma x_empty w : x_document [] = Ok w -> document [] = Ok w.
Proof. unfold x_document, document, api_run. cbn [fold_res]. intro H. exact H. Qed.
Lemma x_stands xs : forall w, Forall typed (map shape xs) -> x_document xs = Ok w -> exists calls, stands xs calls w.
Proof.
  induction xs as [|x xs IH] using rev_ind; intros w T H.
  - exists []. apply (Build_stands [] []); [exact (x_empty w H)|constructor|apply sf_refl|intros; constructor|intros; constructor].
  - rewrite map_app in T. apply Forall_app in T. destruct T as [T Tx]. apply Forall_inv in Tx. apply x_snoc in H. destruct H as (w0 & H0 & H). destruct (IH _ T H0) as (calls & S). pose proof S as [D Tc F Ft A].
    destruct (x_kinds x) as [(q & ->)|(k & r1 & c1 & r2 & c2 & P)].
    + cbn [x_call shape] in *. exists (calls ++ [q]). constructor.
      * exact (document_step _ _ _ _ D H).
      * apply Forall_app. auto.
      * rewrite map_app. apply sf_snoc. exact F.
      * intros R HR. rewrite map_app in HR. apply Forall_app in HR. apply Forall_app. destruct HR. auto.
      * intro HA. apply Forall_app in HA. destruct HA as [HA Hq]. apply Forall_inv in Hq. apply Forall_app. auto.
    + destruct (paint_run _ _ _ _ _ _ _ _ _ P Tx Tc D H) as (more & Pm & Dm & _ & _ & Am & Cm & _). exists (calls ++ more). eapply stands_paint; eauto.
Qed.

Lemma stands_saved R moves xs s calls w : xsaved_ok R moves xs s -> stands xs calls w -> x_document xs = Ok w -> saved_ok R moves calls s.
Proof.
  intros [HR T [F1 F2 F3 F4] C (w' & after & D & Sv)] [Dc Tc [A1 A2 A3 A4 A5 A6 A7 A8 A9 A10] Ft A] Dx. rewrite D in Dx. apply ok_inj in Dx. subst w'.
  constructor; auto.
  - constructor; [auto|rewrite A1; exact F2|rewrite A10; exact F3|]. intro k. destruct (F4 k) as (rows & L & Hr). exists rows. split; [exact L|]. intros r H. rewrite A5 in H. destruct (Hr r H) as [J|(c & u & J)]; [auto|right; exists c, u; rewrite A2; exact J].
  - exists w, after. split; [exact Dc|exact Sv].
Qed.
Lemma xsaved_doc R moves xs s : xsaved_ok R moves xs s -> exists w, x_document xs = Ok w.
Proof. intros [_ _ _ _ (w & after & D & _)]. eauto. Qed.
