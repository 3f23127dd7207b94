(** Path splitting and root-directory histories (C09-C11). *)
From Coq Require Import ZArith List Lia Bool.
From Coq Require Import ZifyBool ZifyNat.
From Verif Require Import Bytes UnitModel OleModel OleBat SpecCFB OleProofs OleRead.
Import ListNotations.
Local Open Scope Z_scope.
Ltac Zify.zify_post_hook ::= Z.div_mod_to_equations.

Lemma cut_nonnil f s : cut f s <> [].
Proof. destruct s; cbn [cut]; [discriminate|]. destruct (f z); [discriminate|]. destruct (cut f s); discriminate. Qed.

Lemma pieces_skip ws s : pieces (isws ws) (skip_ws ws s) = pieces (isws ws) s.
Proof.
  induction s as [|c t IH]; [reflexivity|]. cbn [skip_ws]. destruct (isws ws c) eqn:E; [|reflexivity].
  rewrite IH. unfold pieces. cbn [cut]. rewrite E. reflexivity.
Qed.

Lemma cut_span ws s : let (w, r) := span_word ws s in
  cut (isws ws) s = match r with [] => [w] | _ :: t => w :: cut (isws ws) t end
  /\ (length r <= length s)%nat.
Proof.
  induction s as [|c t IH]; cbn [span_word]; [split; auto|].
  destruct (isws ws c) eqn:E.
  - cbn [cut]. rewrite E. split; auto.
  - destruct (span_word ws t) as [w r]. destruct IH as [IH1 IH2].
    split; [|cbn [length]; lia]. cbn [cut]. rewrite E, IH1. destruct r; reflexivity.
Qed.

Lemma skip_len ws s : (length (skip_ws ws s) <= length s)%nat.
Proof. induction s; cbn [skip_ws length]; [lia|]. destruct (isws ws a); cbn [length]; lia. Qed.
Lemma skip_head ws s c t : skip_ws ws s = c :: t -> isws ws c = false.
Proof.
  induction s as [|x s IH]; cbn [skip_ws]; [discriminate|]. destruct (isws ws x) eqn:E; [exact IH|].
  intro H. injection H as <- <-. exact E.
Qed.

Lemma stringtok_pieces ws : forall fuel s, (length s < fuel)%nat ->
  stringtok fuel ws s = pieces (isws ws) s.
Proof.
  induction fuel as [|fuel IH]; intros s H; [lia|]. cbn [stringtok].
  rewrite <- pieces_skip. pose proof (skip_len ws s) as Hl.
  destruct (skip_ws ws s) as [|c t] eqn:E; [reflexivity|].
  pose proof (skip_head ws s c t E) as Hc. pose proof (cut_span ws t) as Hs.
  destruct (span_word ws t) as [w r]. destruct Hs as [Hs1 Hs2].
  cbn [length] in Hl. rewrite IH by (destruct r; cbn [tl length] in *; lia).
  unfold pieces. cbn [cut]. rewrite Hc, Hs1.
  destruct r as [|x r]; cbn [filter nonempty tl]; [|reflexivity].
  cbn [cut filter nonempty]. reflexivity.
Qed.

Lemma split_path_pieces s : split_path s = pieces (fun c => (c =? 47) || (c =? 0))%bool s.
Proof.
  unfold split_path. rewrite stringtok_pieces by lia. unfold pieces. f_equal.
  assert (G : forall f g l, (forall c : Z, f c = g c) -> cut f l = cut g l).
  { intros f g l Hfg. induction l; cbn [cut]; [reflexivity|]. rewrite Hfg, IHl. reflexivity. }
  apply G. intro c. unfold isws. cbn [existsb]. rewrite orb_false_r. reflexivity.
Qed.

(** The pieces are separator-free and non-empty, and a path made of one name is one piece. *)
Lemma pieces_clean f s w : In w (pieces f s) -> w <> [] /\ forallb (fun c => negb (f c)) w = true.
Proof.
  intro H. unfold pieces in H. apply filter_In in H. destruct H as [H1 H2].
  split; [destruct w; [discriminate|congruence]|]. clear H2.
  revert w H1. induction s as [|c t IH]; intros w; cbn [cut].
  - intros [<-|[]]. reflexivity.
  - destruct (f c) eqn:E.
    + intros [<-|H]; [reflexivity|auto].
    + destruct (cut f t) as [|w0 r] eqn:Ec; [exfalso; apply (cut_nonnil f t Ec)|].
      intros [<-|H]; [|apply IH; right; exact H].
      cbn [forallb]. rewrite E. cbn [negb andb]. apply IH. left. reflexivity.
Qed.

Definition plain_name (n : list Z) : Prop :=
  n <> [] /\ Forall (fun c => c <> 47 /\ c <> 0) n.
Lemma cut_plain f n : forallb (fun c => negb (f c)) n = true -> cut f n = [n].
Proof.
  induction n as [|c t IH]; [reflexivity|]. cbn [forallb cut]. intro H.
  apply andb_true_iff in H. destruct H as [H1 H2]. apply negb_true_iff in H1. rewrite H1, IH by exact H2. reflexivity.
Qed.
Lemma split_plain n : plain_name n -> split_path n = [n] /\ split_path (47 :: n) = [n].
Proof.
  intros [Hn Hf]. rewrite !split_path_pieces. unfold pieces.
  assert (C : forallb (fun c => negb ((c =? 47) || (c =? 0))%bool) n = true).
  { apply forallb_forall. rewrite Forall_forall in Hf. intros x Hx. specialize (Hf x Hx). lia. }
  cbn [cut]. change ((47 =? 47) || (47 =? 0))%bool with true. cbv iota.
  rewrite cut_plain by exact C. destruct n; [congruence|]. split; reflexivity.
Qed.

(** ** Histories of file additions to the root *)
Notation entry := (list Z * list (list Z))%type (only parsing).

Fixpoint tailkids (i prev : Z) (l : list entry) : list otree :=
  match l with
  | [] => []
  | (n, us) :: r =>
      OT (prop3 i prev (match r with [] => -1 | _ => i + 1 end) 0 n us) [] :: tailkids (i + 1) (-1) r
  end.
Definition kids_of (l : list entry) : list otree :=
  match l with
  | [] => []
  | (n, us) :: r => OT (prop3 1 (-1) (-1) 0 n us) [] :: tailkids 2 1 r
  end.
Definition child_of (l : list entry) : Z := match l with [] => -1 | [_] => 1 | _ => 2 end.
Definition fs_of (l : list entry) : ofs := mkFs (OT (root3 (child_of l)) (kids_of l)) (zlen l).

Lemma tailkids_names l : forall i p, map (fun t => op_name (ot_prop t)) (tailkids i p l) = map fst l.
Proof. induction l as [|[n us] r IH]; intros; cbn [tailkids map]; [reflexivity|]. rewrite IH. reflexivity. Qed.
Lemma kids_names l : map (fun t => op_name (ot_prop t)) (kids_of l) = map fst l.
Proof. destruct l as [|[n us] r]; [reflexivity|]. cbn [kids_of map]. rewrite tailkids_names. reflexivity. Qed.
Lemma tailkids_len l : forall i p, length (tailkids i p l) = length l.
Proof. induction l as [|[n us] r IH]; intros; cbn [tailkids length]; auto. Qed.
Lemma kids_len l : length (kids_of l) = length l.
Proof. destruct l as [|[n us] r]; [reflexivity|]. cbn [kids_of length]. rewrite tailkids_len. reflexivity. Qed.
Lemma tailkids_leaf l : forall i p k, In k (tailkids i p l) -> ot_kids k = [].
Proof. induction l as [|[n us] r IH]; intros i p k; cbn [tailkids]; [intros []|]. intros [<-|H]; [reflexivity|eauto]. Qed.
Lemma kids_leaf l k : In k (kids_of l) -> ot_kids k = [].
Proof. destruct l as [|[n us] r]; [intros []|]. intros [<-|H]; [reflexivity|]. eapply tailkids_leaf; eauto. Qed.

(** The creation node as AddNode leaves it (before AddFile fills it in). *)
Definition raw_child (idx prev : Z) (n : list Z) : otree :=
  OT (set_links (new_prop idx n) prev PLINK_EMPTY PLINK_EMPTY) [].
(** Kids with the new node appended but not yet filled in. *)
Definition kids_raw (l : list entry) (n : list Z) : list otree :=
  match l with
  | [] => [raw_child 1 (-1) n]
  | [_] => kids_of l ++ [raw_child 2 1 n]
  | _ => set_last_next (kids_of l) (zlen l + 1) ++ [raw_child (zlen l + 1) (-1) n]
  end.

Lemma create_fs_of l n : create_child (fs_tree (fs_of l)) n (fs_count (fs_of l))
  = (0, OT (root3 (child_of (l ++ [(n, [])]))) (kids_raw l n), zlen l + 1).
Proof.
  destruct l as [|[n1 us1] [|[n2 us2] r]]; [reflexivity|reflexivity|].
  unfold fs_of. cbn [fs_tree fs_count create_child child_of app kids_raw].
  change (op_type (root3 2)) with PTYPE_ROOT.
  change ((PTYPE_ROOT =? PTYPE_DIRECTORY) || (PTYPE_ROOT =? PTYPE_ROOT))%bool with true. cbv iota.
  cbn [kids_of tailkids]. reflexivity.
Qed.

(** [go] loop of AddNode: not found. *)
Lemma add_node_new base n c : (forall k, In k (ot_kids base) -> op_name (ot_prop k) <> n) ->
  add_node [n] base c = Ok (create_child base n c).
Proof.
  intro H. cbn [add_node]. generalize (@nil otree).
  revert H. generalize (ot_kids base). induction l as [|k ks IH]; intros H pre; [reflexivity|].
  rewrite name_eqb_neq by (apply H; left; reflexivity). apply IH. intros k' Hk'. apply H. right. exact Hk'.
Qed.
(** found: refused, unchanged. *)
Lemma add_node_dup base n c : (forall k, In k (ot_kids base) -> ot_kids k = []) ->
  In n (map (fun k => op_name (ot_prop k)) (ot_kids base)) ->
  add_node [n] base c = Ok (-2, base, c).
Proof.
  intros Hl Hin. cbn [add_node]. 
  assert (G : forall ks pre, (forall k, In k ks -> ot_kids k = []) ->
     In n (map (fun k => op_name (ot_prop k)) ks) ->
     (fix go (pre kids : list otree) {struct kids} : res (Z * otree * Z) :=
        match kids with
        | [] => Ok (create_child base n c)
        | k :: ks0 =>
            if name_eqb (op_name (ot_prop k)) n
            then let* (e, k', c0) := add_node [] k c in Ok (e, OT (ot_prop base) (rev pre ++ k' :: ks0), c0)
            else go (k :: pre) ks0
        end) pre ks = Ok (-2, OT (ot_prop base) (rev pre ++ ks), c)).
  { induction ks as [|k ks IH]; intros pre H1 H2; [destruct H2|].
    destruct (list_eq_dec Z.eq_dec (op_name (ot_prop k)) n) as [E|E].
    - rewrite E, name_eqb_refl. cbn [add_node]. rewrite (H1 k) by (left; reflexivity). reflexivity.
    - rewrite name_eqb_neq by exact E. rewrite IH.
      + cbn [rev]. rewrite <- app_assoc. reflexivity.
      + intros; apply H1; right; assumption.
      + destruct H2; [contradiction|assumption]. }
  etransitivity; [exact (G (ot_kids base) [] Hl Hin)|]. destruct base. reflexivity.
Qed.

Lemma kids_raw_split l n : exists ks p, kids_raw l n = ks ++ [OT p []]
  /\ op_name p = n /\ map (fun t => op_name (ot_prop t)) ks = map fst l /\ length ks = length l
  /\ (forall us, ks ++ [OT (mkProp (op_index p) (op_name p) PTYPE_FILE 1 (op_prev p) (op_next p)
              PLINK_EMPTY (op_start p) (padded_size (zlen (concat us))) (Some (pad_units us))) []]
       = kids_of (l ++ [(n, us)])).
Proof.
  destruct l as [|[n1 us1] [|[n2 us2] r]].
  - exists [], (set_links (new_prop 1 n) (-1) PLINK_EMPTY PLINK_EMPTY). repeat split.
  - exists (kids_of [(n1, us1)]), (set_links (new_prop 2 n) 1 PLINK_EMPTY PLINK_EMPTY). repeat split.
  - cbn [kids_raw].
    exists (set_last_next (kids_of ((n1, us1) :: (n2, us2) :: r)) (zlen ((n1, us1) :: (n2, us2) :: r) + 1)),
      (set_links (new_prop (zlen ((n1, us1) :: (n2, us2) :: r) + 1) n) (-1) PLINK_EMPTY PLINK_EMPTY).
    cbn [kids_of]. set (N := zlen ((n1, us1) :: (n2, us2) :: r)).
    assert (G : forall l i p, l <> [] ->
      map (fun t => op_name (ot_prop t)) (set_last_next (tailkids i p l) (i + zlen l)) = map fst l
      /\ length (set_last_next (tailkids i p l) (i + zlen l)) = length l
      /\ forall us, set_last_next (tailkids i p l) (i + zlen l) ++ [OT (prop3 (i + zlen l) (-1) (-1) 0 n us) []]
                    = tailkids i p (l ++ [(n, us)])).
    { clear. induction l as [|[a ua] [|[b ub] l] IH]; intros i p H; [congruence| |].
      - change (zlen [(a, ua)]) with 1. cbn. repeat split.
      - destruct (IH (i + 1) (-1)) as (I1 & I2 & I3); [discriminate|].
        assert (EN : i + zlen ((a, ua) :: (b, ub) :: l) = i + 1 + zlen ((b, ub) :: l))
          by (rewrite (zlen_cons _ (a, ua)); lia).
        rewrite EN. clear EN. set (N := i + 1 + zlen ((b, ub) :: l)) in *. clearbody N.
        assert (E : forall x, set_last_next (tailkids i p ((a, ua) :: (b, ub) :: l)) x
          = OT (prop3 i p (i + 1) 0 a ua) [] :: set_last_next (tailkids (i + 1) (-1) ((b, ub) :: l)) x).
        { intro. reflexivity. }
        rewrite E. cbn [map length app]. rewrite I1, I2. repeat split.
        intro us. rewrite I3. reflexivity. }
    destruct (G ((n2, us2) :: r) 2 1) as (G1 & G2 & G3); [discriminate|].
    assert (HN : N + 1 = 2 + zlen ((n2, us2) :: r)) by (unfold N; rewrite zlen_cons; lia).
    rewrite <- HN in *.
    assert (E : set_last_next (OT (prop3 1 (-1) (-1) 0 n1 us1) [] :: tailkids 2 1 ((n2, us2) :: r)) (N + 1)
       = OT (prop3 1 (-1) (-1) 0 n1 us1) [] :: set_last_next (tailkids 2 1 ((n2, us2) :: r)) (N + 1)) by reflexivity.
    rewrite E. repeat split.
    + cbn [map]. rewrite G1. reflexivity.
    + cbn [length]. rewrite G2. reflexivity.
    + intro us. specialize (G3 us). cbn [app] in G3. cbn [app kids_of]. f_equal. rewrite <- G3. reflexivity.
Qed.

Lemma find_kid_last n ks p : (forall k, In k ks -> op_name (ot_prop k) <> n) -> op_name p = n ->
  find_kid [n] (ks ++ [OT p []]) = Some (length ks).
Proof.
  intros H Hp. unfold find_kid.
  assert (G : forall ks i, (forall k, In k ks -> op_name (ot_prop k) <> n) ->
    (fix inner (i : nat) (ks : list otree) : option nat :=
          match ks with
          | [] => None
          | k :: ks' => if name_eqb n (op_name (ot_prop k)) then Some i else inner (S i) ks'
          end) i (ks ++ [OT p []]) = Some (i + length ks)%nat).
  { clear ks H. induction ks as [|k ks IH]; intros i H; cbn [app length].
    - cbn [ot_prop]. rewrite Hp, name_eqb_refl. f_equal. lia.
    - rewrite name_eqb_neq by (intro E; apply (H k); [left; reflexivity|auto]).
      rewrite IH by (intros; apply H; right; auto). f_equal. lia. }
  rewrite G by exact H. reflexivity.
Qed.

Lemma upd_last {A} (l : list A) x y : upd (length l) y (l ++ [x]) = l ++ [y].
Proof. induction l; cbn [length app upd]; [reflexivity|]. rewrite IHl. reflexivity. Qed.

Lemma add_file_new l q n us : split_path q = [n] -> ~ In n (map fst l) ->
  add_file (fs_of l) q us = Ok (0, fs_of (l ++ [(n, us)])).
Proof.
  intros Hq Hn. unfold add_file. rewrite Hq.
  assert (Hk : forall k, In k (kids_of l) -> op_name (ot_prop k) <> n).
  { intros k Hk E. apply Hn. rewrite <- (kids_names l), <- E. apply in_map with (f := fun t => op_name (ot_prop t)). exact Hk. }
  rewrite add_node_new by exact Hk. rewrite create_fs_of. cbn [bind].
  change (0 =? FS_NO_ERRORS) with true. cbv iota.
  rewrite units_size_concat, trail_spec by apply zlen_nonneg.
  destruct (kids_raw_split l n) as (ks & p & Er & Hp & Hnm & Hlen & Hfin).
  cbn [modify_at ot_kids ot_prop]. rewrite Er.
  rewrite find_kid_last; auto.
  2:{ intros k Hk' E. apply Hn. rewrite <- Hnm, <- E. apply in_map with (f := fun t => op_name (ot_prop t)). exact Hk'. }
  rewrite nth_error_app2, Nat.sub_diag by lia. cbn [nth_error ot_prop ot_kids]. rewrite upd_last.
  unfold pad_units in Hfin. rewrite (Hfin us).
  unfold fs_of. do 3 f_equal.
  - do 2 f_equal. destruct l as [|? [|? ?]]; reflexivity.
  - rewrite zlen_app. reflexivity.
Qed.

Lemma add_file_dup l q n us : split_path q = [n] -> In n (map fst l) ->
  add_file (fs_of l) q us = Ok (-2, fs_of l).
Proof.
  intros Hq Hn. unfold add_file. rewrite Hq.
  rewrite add_node_dup.
  - reflexivity.
  - cbn [fs_of fs_tree ot_kids]. apply kids_leaf.
  - cbn [fs_of fs_tree ot_kids]. rewrite kids_names. exact Hn.
Qed.

(** A whole history. *)
Fixpoint add_files (fs : ofs) (h : list entry) : res (list Z * ofs) :=
  match h with
  | [] => Ok ([], fs)
  | (q, us) :: t =>
      let* (e, fs1) := add_file fs q us in
      let* (es, fs2) := add_files fs1 t in
      Ok (e :: es, fs2)
  end.
(** Specification: a name is taken by its first addition only. *)
Fixpoint dir_spec (acc : list entry) (h : list entry) : list entry * list Z :=
  match h with
  | [] => (acc, [])
  | (n, us) :: t =>
      if existsb (name_eqb n) (map fst acc)
      then let (r, es) := dir_spec acc t in (r, -2 :: es)
      else let (r, es) := dir_spec (acc ++ [(n, us)]) t in (r, 0 :: es)
  end.

Lemma name_eqb_eq a b : name_eqb a b = true <-> a = b.
Proof. unfold name_eqb. destruct (list_eq_dec Z.eq_dec a b); split; congruence. Qed.

Lemma add_files_spec h : forall acc, Forall (fun p => plain_name (fst p)) h ->
  add_files (fs_of acc) h = Ok (snd (dir_spec acc h), fs_of (fst (dir_spec acc h))).
Proof.
  induction h as [|[n us] t IH]; intros acc Hp; cbn [add_files dir_spec]; [reflexivity|].
  inversion Hp as [|x y Hx Hy]; subst. cbn [fst] in Hx. destruct (split_plain n Hx) as [Hs _].
  destruct (existsb (name_eqb n) (map fst acc)) eqn:E.
  - apply existsb_exists in E. destruct E as (m & Hm & E). apply name_eqb_eq in E. subst m.
    rewrite (add_file_dup acc n n) by auto. cbn [bind]. rewrite IH by exact Hy.
    destruct (dir_spec acc t). reflexivity.
  - rewrite (add_file_new acc n n); [|exact Hs|].
    2:{ intro Hin. assert (existsb (name_eqb n) (map fst acc) = true); [|congruence].
        apply existsb_exists. exists n. split; auto. apply name_eqb_refl. }
    cbn [bind]. rewrite IH by exact Hy. destruct (dir_spec (acc ++ [(n, us)]) t). reflexivity.
Qed.

(** ** The directory table of such a tree and its name search *)
Lemma all_nodes_leaves ks : (forall k, In k ks -> ot_kids k = []) ->
  forall p, all_nodes_list (OT p ks) = map ot_prop ks.
Proof.
  intros H p. cbn [all_nodes_list]. induction ks as [|k r IH]; [reflexivity|].
  cbn [map]. rewrite <- IH by (intros; apply H; right; auto).
  assert (E : all_nodes_list k = []).
  { specialize (H k (or_introl eq_refl)). destruct k as [q kk]. cbn [ot_kids] in H. subst kk. reflexivity. }
  rewrite E. reflexivity.
Qed.

Lemma sort_sorted l : (forall a b r p, l = p ++ a :: b :: r -> op_index a <= op_index b) -> sort_props l = l.
Proof.
  induction l as [|a l IH]; intro H; [reflexivity|]. cbn [sort_props fold_right].
  fold (sort_props l). rewrite IH.
  2:{ intros x y r p E. apply (H x y r (a :: p)). rewrite E. reflexivity. }
  destruct l as [|b l]; [reflexivity|]. cbn [insert_prop].
  specialize (H a b l [] eq_refl). replace (op_index a <=? op_index b) with true by lia. reflexivity.
Qed.

Lemma tailkids_index l : forall i p a b r q, map ot_prop (tailkids i p l) = q ++ a :: b :: r ->
  op_index a <= op_index b.
Proof.
  induction l as [|[n us] l IH]; intros i p a b r q H; cbn [tailkids map] in H.
  - destruct q; discriminate.
  - destruct q as [|x q].
    + cbn [app] in H. injection H as <- H2. destruct l as [|[m um] l]; [discriminate|].
      cbn [tailkids map] in H2. injection H2 as <- _. cbn. lia.
    + cbn [app] in H. injection H as _ H2. eapply IH. exact H2.
Qed.

Lemma nodes_fs_of l : get_all_nodes (fs_of l) = map ot_prop (kids_of l).
Proof.
  unfold get_all_nodes, fs_of. cbn [fs_tree]. rewrite all_nodes_leaves by apply kids_leaf.
  apply sort_sorted. intros a b r p H. destruct l as [|[n us] l]; cbn [kids_of map] in H.
  - destruct p; discriminate.
  - destruct p as [|x p].
    + cbn [app] in H. injection H as <- H2. destruct l as [|[m um] l]; [discriminate|].
      cbn [tailkids map] in H2. injection H2 as <- _. cbn. lia.
    + cbn [app] in H. injection H as _ H2. eapply tailkids_index. exact H2.
Qed.

(** Directory table in index order, as DumpFileSystem writes it (oledoc.cpp 309-328),
    seen through the reader's entry type. *)
Definition dir_table (fs : ofs) : list dentry :=
  map dentry_of (ot_prop (fs_tree fs) :: get_all_nodes fs).

Fixpoint increasing (l : list (list Z)) : Prop :=
  match l with
  | a :: ((b :: _) as r) => name_compare a b = Lt /\ increasing r
  | _ => True
  end.

Lemma increasing_head a l b : increasing (a :: l) -> In b l -> name_compare a b = Lt.
Proof.
  revert a. induction l as [|c l IH]; intros a H Hb; [destruct Hb|].
  destruct H as [H1 H2]. destruct Hb as [<-|Hb]; [exact H1|].
  eapply name_compare_trans; [exact H1|]. apply IH; auto.
Qed.
Lemma increasing_tail a l : increasing (a :: l) -> increasing l.
Proof. destruct l; cbn; tauto. Qed.

Lemma tf_step' ds fuel n name e :
    0 <= n < zlen ds -> nth_error ds (Z.to_nat n) = Some e ->
    tree_find ds (S fuel) n name =
      match name_compare name (de_name e) with
      | Eq => Some e
      | Lt => tree_find ds fuel (de_left e) name
      | Gt => tree_find ds fuel (de_right e) name
      end.
Proof.
  intros Hn He. cbn [tree_find]. replace (n <? 0) with false by lia.
  replace (zlen ds <=? n) with false by lia. cbn [orb]. rewrite He. reflexivity.
Qed.

Lemma nth_error_exact {A} (a : list A) x b n : length a = n -> nth_error (a ++ x :: b) n = Some x.
Proof. intros <-. rewrite nth_error_app2, Nat.sub_diag by lia. reflexivity. Qed.

(** Right-going chain. *)
Lemma find_tail ds : forall l i p pre fuel n us,
  ds = pre ++ map (fun t => dentry_of (ot_prop t)) (tailkids i p l) ->
  zlen pre = i -> increasing (map fst l) -> In (n, us) l -> zlen ds < 4294967290 -> (length l <= fuel)%nat ->
  exists e, tree_find ds fuel i n = Some e /\ de_name e = n
            /\ de_type e = 2 /\ de_size e = u32 (padded_size (zlen (concat us))).
Proof.
  induction l as [|[m um] l IH]; intros i p pre fuel n us Hds Hpre Hinc Hin Hlim Hf; [destruct Hin|].
  destruct fuel; [cbn [length] in Hf; lia|].
  cbn [tailkids map] in Hds. cbn [map fst] in Hinc.
  pose proof (zlen_nonneg _ pre).
  assert (Hlen : zlen ds = i + 1 + zlen l).
  { rewrite Hds, zlen_app, zlen_cons, zlen_map. unfold zlen at 2. rewrite tailkids_len. unfold zlen in *. lia. }
  pose proof (zlen_nonneg _ l).
  erewrite tf_step'; [|lia|].
  2:{ rewrite Hds. apply nth_error_exact. unfold zlen in Hpre. lia. }
  cbn [dentry_of ot_prop prop3 de_name op_name].
  destruct Hin as [Hin|Hin].
  - injection Hin as -> ->. rewrite name_compare_refl. eexists. split; [reflexivity|]. repeat split.
  - assert (Hc : name_compare m n = Lt).
    { eapply increasing_head; [exact Hinc|]. apply (in_map fst) in Hin. exact Hin. }
    rewrite (name_compare_antisym m n), Hc. cbn [CompOpp].
    destruct l as [|x l]; [destruct Hin|].
    change (de_right (dentry_of (prop3 i p (i + 1) 0 m um))) with (u32 (i + 1)).
    assert (E : u32 (i + 1) = i + 1) by (unfold u32; rewrite Z.mod_small; [reflexivity|rewrite zlen_cons in Hlen; pose proof (zlen_nonneg _ l); lia]).
    rewrite E.
    eapply (IH (i + 1) (-1) (pre ++ [dentry_of (prop3 i p (i + 1) 0 m um)]) fuel n us); auto.
    + rewrite Hds, <- app_assoc. reflexivity.
    + rewrite zlen_app, Hpre. reflexivity.
    + eapply increasing_tail. exact Hinc.
    + cbn [length] in *. lia.
Qed.

Lemma dir_find l n us : increasing (map fst l) -> In (n, us) l -> zlen l < 4294967280 ->
  exists e, tree_find (dir_table (fs_of l)) (length (dir_table (fs_of l))) (child_of l) n = Some e
    /\ de_name e = n /\ de_type e = 2 /\ de_size e = u32 (padded_size (zlen (concat us))).
Proof.
  intros Hinc Hin Hlim. unfold dir_table. rewrite nodes_fs_of.
  cbn [map fs_of fs_tree ot_prop].
  assert (Lk : length (map dentry_of (map ot_prop (kids_of l))) = length l)
    by (rewrite !map_length; apply kids_len).
  cbn [length]. rewrite Lk.
  destruct l as [|[n1 us1] [|[n2 us2] r]]; [destruct Hin| |].
  - destruct Hin as [Hin|[]]. injection Hin as -> ->. cbn [child_of kids_of tailkids map length].
    erewrite tf_step'; [|change (zlen _) with 2; lia|reflexivity].
    cbn [dentry_of ot_prop prop3 de_name op_name]. rewrite name_compare_refl.
    eexists. split; [reflexivity|]. repeat split.
  - cbn [child_of].
    set (ds := dentry_of (root3 2) :: map dentry_of (map ot_prop (kids_of ((n1, us1) :: (n2, us2) :: r)))).
    assert (Hds : ds = [dentry_of (root3 2); dentry_of (prop3 1 (-1) (-1) 0 n1 us1)]
       ++ map (fun t => dentry_of (ot_prop t)) (tailkids 2 1 ((n2, us2) :: r))).
    { unfold ds. cbn [kids_of map app]. rewrite map_map. reflexivity. }
    assert (Hz : zlen ds = zlen ((n1, us1) :: (n2, us2) :: r) + 1).
    { unfold ds, zlen. cbn [length]. rewrite Lk. cbn [length]. lia. }
    destruct Hin as [Hin|Hin].
    + injection Hin as -> ->. destruct Hinc as [Hlt _]. cbn [map fst] in Hlt.
      erewrite tf_step'.
      2:{ rewrite Hz, !zlen_cons. pose proof (zlen_nonneg _ r). lia. }
      2:{ rewrite Hds. reflexivity. }
      cbn [dentry_of ot_prop prop3 de_name op_name tailkids]. rewrite Hlt.
      cbn [length].
      match goal with |- context [de_left ?e] => change (de_left e) with 1 end.
      erewrite tf_step'.
      2:{ rewrite Hz, !zlen_cons. pose proof (zlen_nonneg _ r). lia. }
      2:{ rewrite Hds. reflexivity. }
      cbn [dentry_of ot_prop prop3 de_name op_name]. rewrite name_compare_refl.
      eexists. split; [reflexivity|]. repeat split.
    + eapply (find_tail ds ((n2, us2) :: r) 2 1); [exact Hds|reflexivity| |exact Hin| |].
      * eapply increasing_tail. exact Hinc.
      * rewrite Hz. lia.
      * cbn [length]. lia.
Qed.
