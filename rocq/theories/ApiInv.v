(** Invariants of documents built by any history of calls (ApiModel.document). *)
From Coq Require Import ZArith List Bool Lia ZifyBool ZifyNat Sorting.Sorted Sorting.Permutation.
From Verif Require Import Bytes UnitModel RecModel SheetModel XfModel WbModel SheetTrace XfInv ApiModel.
Import ListNotations.
Local Open Scope Z_scope.

(* ------------------------------------------------------------------ *)
(** * The ordered set of cells *)

Definition clt (a b : cell) : Prop := key_lt (c_row a) (c_col a) (c_row b) (c_col b) = true.
Definition csorted (l : list cell) : Prop := StronglySorted clt l.
Definition at_key (r c : Z) (x : cell) : bool := ((c_row x =? r) && (c_col x =? c))%bool.

Lemma ok_inj {A} (u v : A) : Ok u = Ok v -> u = v.
Proof. intro H. exact (f_equal (fun r => match r with Ok x => x | _ => u end) H). Qed.
Lemma bind_ok {A B} (r : res A) (f : A -> res B) b : bind r f = Ok b -> exists a, r = Ok a /\ f a = Ok b.
Proof. destruct r; cbn [bind]; try discriminate. eauto. Qed.

Lemma key_lt_trans a b c d e f : key_lt a b c d = true -> key_lt c d e f = true -> key_lt a b e f = true.
Proof. unfold key_lt. destruct (a =? c) eqn:?, (c =? e) eqn:?, (a =? e) eqn:?; lia. Qed.
Lemma key_lt_irr a b : key_lt a b a b = false.
Proof. unfold key_lt. rewrite Z.eqb_refl. lia. Qed.
Lemma key_tri a b c d : key_lt a b c d = false -> key_lt c d a b = false -> a = c /\ b = d.
Proof. unfold key_lt. destruct (a =? c) eqn:?, (c =? a) eqn:?; lia. Qed.

Lemma csorted_inv x l : csorted (x :: l) -> csorted l /\ Forall (clt x) l.
Proof. apply StronglySorted_inv. Qed.

(** Inserting a new key, or finding it already there. *)
Lemma set_insert_spec x l : csorted l ->
  match set_insert x l with
  | Some l' => exists a b, l = a ++ b /\ l' = a ++ x :: b /\ csorted l' /\ Forall (fun y => clt y x) a /\ Forall (clt x) b
  | None => exists a y b, l = a ++ y :: b /\ c_row y = c_row x /\ c_col y = c_col x
                          /\ Forall (fun z => clt z x) a /\ Forall (clt x) b
  end.
Proof.
  induction l as [|y t IH]; intro S; cbn [set_insert].
  - exists [], []. repeat split; repeat constructor.
  - apply csorted_inv in S. destruct S as [S F].
    destruct (key_lt (c_row x) (c_col x) (c_row y) (c_col y)) eqn:E1.
    + exists [], (y :: t). assert (G : Forall (clt x) (y :: t)).
      { constructor; [exact E1|]. eapply Forall_impl; [|exact F]. intros z H. eapply key_lt_trans; eauto. }
      repeat split; auto. constructor; [constructor; auto|exact G].
    + destruct (key_lt (c_row y) (c_col y) (c_row x) (c_col x)) eqn:E2.
      * specialize (IH S). destruct (set_insert x t) as [t'|].
        -- destruct IH as (a & b & -> & -> & S' & Fa & Fb). exists (y :: a), b.
           apply Forall_app in F. destruct F as [F1 F2].
           repeat split; auto. constructor; [exact S'|]. apply Forall_app. split; [exact F1|]. constructor; [exact E2|exact F2].
        -- destruct IH as (a & z & b & -> & R & C & Fa & Fb). exists (y :: a), z, b. repeat split; auto.
      * destruct (key_tri _ _ _ _ E2 E1) as [R C]. exists [], y, t. repeat split; auto.
        eapply Forall_impl; [|exact F]. intros z H. unfold clt in *. rewrite <- R, <- C. exact H.
Qed.
Lemma set_erase_spec r c a y b : Forall (fun z => key_lt (c_row z) (c_col z) r c = true) a -> c_row y = r -> c_col y = c ->
  set_erase r c (a ++ y :: b) = (Some y, a ++ b).
Proof.
  intros F R C. induction F as [|z a H F IH]; cbn [set_erase app].
  - subst. rewrite !Z.eqb_refl. reflexivity.
  - destruct ((c_row z =? r) && (c_col z =? c))%bool eqn:E.
    + unfold key_lt in H. destruct (c_row z =? r) eqn:?; lia.
    + rewrite IH. reflexivity.
Qed.
Lemma set_insert_mid x a b : Forall (fun y => clt y x) a -> Forall (clt x) b -> set_insert x (a ++ b) = Some (a ++ x :: b).
Proof.
  intros Fa Fb. induction Fa as [|y a H Fa IH]; cbn [set_insert app].
  - destruct b as [|z b]; [reflexivity|]. cbn [set_insert]. inversion Fb; subst. unfold clt in *. rewrite H1. reflexivity.
  - destruct (key_lt (c_row x) (c_col x) (c_row y) (c_col y)) eqn:E.
    { unfold clt in H. pose proof (key_lt_trans _ _ _ _ _ _ E H) as K. rewrite key_lt_irr in K. discriminate. }
    unfold clt in H. rewrite H, IH. reflexivity.
Qed.

Lemma ss_mid {A} (R : A -> A -> Prop) a x b : StronglySorted R (a ++ x :: b) ->
  StronglySorted R (a ++ b) /\ Forall (fun y => R y x) a /\ Forall (R x) b.
Proof.
  induction a as [|y a IH]; cbn [app]; intro S.
  - apply StronglySorted_inv in S. destruct S; auto.
  - apply StronglySorted_inv in S. destruct S as [S F]. destruct (IH S) as (I1 & I2 & I3).
    apply Forall_app in F. destruct F as [F1 F2]. inversion F2; subst. repeat split; auto.
    constructor; auto. apply Forall_app. auto.
Qed.
Lemma ss_put {A} (R : A -> A -> Prop) a x b : (forall u v w, R u v -> R v w -> R u w) -> StronglySorted R (a ++ b) ->
  Forall (fun y => R y x) a -> Forall (R x) b -> StronglySorted R (a ++ x :: b).
Proof.
  intros T. induction a as [|y a IH]; cbn [app]; intros S Fa Fb.
  - constructor; auto.
  - apply StronglySorted_inv in S. destruct S as [S F]. inversion Fa; subst. constructor; [apply IH; auto|].
    apply Forall_app in F. apply Forall_app. split; [tauto|]. constructor; tauto.
Qed.
Lemma clt_trans u v w : clt u v -> clt v w -> clt u w.
Proof. apply key_lt_trans. Qed.

(** AddCell on a sorted sheet: the cell replaces the one at its position, or enters. *)
Definition olist {A} (o : option A) : list A := match o with Some x => [x] | None => [] end.
Lemma add_cell_spec s x : csorted (sh_cells s) ->
  exists old a b, add_cell s x = Ok (old, with_cells s (a ++ x :: b) (c_row x) (c_col x))
    /\ sh_cells s = a ++ olist old ++ b
    /\ (forall y, old = Some y -> c_row y = c_row x /\ c_col y = c_col x)
    /\ csorted (a ++ x :: b)
    /\ Forall (fun y => clt y x) a /\ Forall (clt x) b.
Proof.
  intro S. unfold add_cell. pose proof (set_insert_spec x _ S) as K.
  destruct (set_insert x (sh_cells s)) as [l|].
  - destruct K as (a & b & E & -> & S' & Fa & Fb). exists None, a, b. repeat split; auto; try discriminate.
  - destruct K as (a & y & b & E & R & C & Fa & Fb). rewrite E.
    rewrite set_erase_spec by auto. rewrite set_insert_mid by auto.
    exists (Some y), a, b. split; [reflexivity|]. split; [reflexivity|].
    split. { intros z Hz. injection Hz as <-. auto. }
    split; [|split; auto]. rewrite E in S. apply ss_mid in S. apply ss_put; try tauto. apply clt_trans.
Qed.

(** Looking up a position. *)
Lemma find_mid_same r c a x b : Forall (fun y => key_lt (c_row y) (c_col y) r c = true) a -> c_row x = r -> c_col x = c ->
  find (at_key r c) (a ++ x :: b) = Some x.
Proof.
  intros F R C. induction F as [|z a H F IH]; cbn [find app].
  - unfold at_key. subst. rewrite !Z.eqb_refl. reflexivity.
  - unfold at_key at 1. destruct ((c_row z =? r) && (c_col z =? c))%bool eqn:E; [|exact IH].
    unfold key_lt in H. destruct (c_row z =? r) eqn:?; lia.
Qed.
Lemma find_mid_other r c a (o : list cell) b : Forall (fun y => at_key r c y = false) o ->
  find (at_key r c) (a ++ o ++ b) = find (at_key r c) (a ++ b).
Proof.
  intro F. induction a as [|z a IH]; cbn [find app].
  - induction F as [|y o H F IH]; cbn [find app]; [reflexivity|]. rewrite H. exact IH.
  - destruct (at_key r c z); auto.
Qed.
Lemma find_none_sorted l r c : find (at_key r c) l = None <-> Forall (fun y => at_key r c y = false) l.
Proof.
  induction l as [|y l IH]; cbn [find]; [split; auto|]. destruct (at_key r c y) eqn:E.
  - split; [discriminate|]. intro F. inversion F; congruence.
  - rewrite IH. split; [auto|]. intro F. inversion F; auto.
Qed.
Lemma find_in l r c x : csorted l -> In x l -> c_row x = r -> c_col x = c -> find (at_key r c) l = Some x.
Proof.
  intros S I R C. apply in_split in I. destruct I as (a & b & ->). apply ss_mid in S. destruct S as (_ & F & _).
  apply find_mid_same; auto. eapply Forall_impl; [|exact F]. intros y H. subst. exact H.
Qed.

(* ------------------------------------------------------------------ *)
(** * Reading the state *)

Definition cell_look (w : wb) (k : nat) (r c : Z) : option cell :=
  match nth_error (wb_sheets w) k with Some s => find_cell s r c | None => None end.
Definition look (w : wb) (k : nat) (r c : Z) : option cval := option_map c_val (cell_look w k r c).

Lemma nth_upd {A} k (x : A) : forall l j, nth_error (upd k x l) j =
  if Nat.eqb j k then match nth_error l k with Some _ => Some x | None => None end else nth_error l j.
Proof.
  induction k; intros [|y l] [|j]; cbn; auto. destruct (Nat.eqb j k); reflexivity.
Qed.
Lemma upd_len {A} k (x : A) : forall l, length (upd k x l) = length l.
Proof. induction k; intros [|y l]; cbn; auto. Qed.

Lemma on_sheet_inv w k f w' : on_sheet w k f = Ok w' ->
  exists s w1 s1, nth_error (wb_sheets w) k = Some s /\ f s = Ok (w1, s1) /\ w' = up_sheets w1 (upd k s1 (wb_sheets w)).
Proof.
  unfold on_sheet. destruct (nth_error (wb_sheets w) k) as [s|]; [|discriminate].
  destruct (f s) as [[w1 s1]| |] eqn:E; cbn [bind]; try discriminate. intro H. injection H as <-.
  exists s, w1, s1. auto.
Qed.

(* ------------------------------------------------------------------ *)
(** * Invariants of one sheet *)

Definition nlt (a b : note) : Prop := key_lt (no_row a) (no_col a) (no_row b) (no_col b) = true.
Record sheet_inv (s : sheet) : Prop := {
  si_cells : csorted (sh_cells s);
  si_cache : sh_calc s = false /\ sh_sizes s = [];
  si_notes : StronglySorted nlt (sh_notes s);
  si_ntext : Forall (fun n => zlen (no_author n) <= 54 /\ zlen (no_text n) <= 2048) (sh_notes s);
  si_cols : StronglySorted (fun a b => ci_col a < ci_col b) (sh_cols s);
  si_heights : StronglySorted (fun a b => rh_row a < rh_row b) (sh_heights s);
  si_spid : sh_spid s = 0
}.

Lemma note_put_in x l : forall y, In y (note_put x l) -> y = x \/ In y l.
Proof.
  induction l as [|z t IH]; cbn [note_put]; intros y H.
  - destruct H as [<-|[]]; auto.
  - destruct (key_lt (no_row x) _ _ _). { destruct H as [<-|H]; auto. }
    destruct (key_lt (no_row z) _ _ _); destruct H as [<-|H]; cbn; auto.
    apply IH in H. destruct H; auto.
Qed.
Lemma nlt_trans a b c : nlt a b -> nlt b c -> nlt a c.
Proof. apply key_lt_trans. Qed.
Lemma note_put_sorted x l : StronglySorted nlt l -> StronglySorted nlt (note_put x l).
Proof.
  induction l as [|z t IH]; cbn [note_put]; intro S.
  - repeat constructor.
  - apply StronglySorted_inv in S. destruct S as [S F].
    destruct (key_lt (no_row x) _ _ _) eqn:E1.
    { constructor; [constructor; auto|]. constructor; [exact E1|]. eapply Forall_impl; [|exact F]. intros y H. eapply nlt_trans; [exact E1|exact H]. }
    destruct (key_lt (no_row z) _ _ _) eqn:E2.
    + constructor; [auto|]. apply Forall_forall. intros y H. apply note_put_in in H. destruct H as [->|H]; [exact E2|].
      rewrite Forall_forall in F. auto.
    + constructor; [exact S|]. destruct (key_tri _ _ _ _ E2 E1) as [R C]. eapply Forall_impl; [|exact F]. intros y H. unfold nlt in *.
      rewrite <- R, <- C. exact H.
Qed.
Lemma col_put_in x l : forall y, In y (col_put x l) -> y = x \/ In y l.
Proof.
  induction l as [|z t IH]; cbn [col_put]; intros y H.
  - destruct H as [<-|[]]; auto.
  - destruct (ci_col x <? ci_col z). { destruct H as [<-|H]; auto. }
    destruct (ci_col z <? ci_col x); destruct H as [<-|H]; cbn; auto. apply IH in H. destruct H; auto.
Qed.
Lemma col_put_sorted x l : StronglySorted (fun a b => ci_col a < ci_col b) l ->
  StronglySorted (fun a b => ci_col a < ci_col b) (col_put x l).
Proof.
  induction l as [|z t IH]; cbn [col_put]; intro S.
  - repeat constructor.
  - apply StronglySorted_inv in S. destruct S as [S F]. destruct (ci_col x <? ci_col z) eqn:E1.
    { constructor; [constructor; auto|]. constructor; [lia|]. eapply Forall_impl; [|exact F]. cbn. intros. lia. }
    destruct (ci_col z <? ci_col x) eqn:E2.
    + constructor; [auto|]. apply Forall_forall. intros y H. apply col_put_in in H. destruct H as [->|H]; [lia|].
      rewrite Forall_forall in F. auto.
    + constructor; [exact S|]. eapply Forall_impl; [|exact F]. cbn. intros. lia.
Qed.
Lemma rh_put_in x l : forall y, In y (rh_put x l) -> y = x \/ In y l.
Proof.
  induction l as [|z t IH]; cbn [rh_put]; intros y H.
  - destruct H as [<-|[]]; auto.
  - destruct (rh_row x <? rh_row z). { destruct H as [<-|H]; auto. }
    destruct (rh_row z <? rh_row x); destruct H as [<-|H]; cbn; auto. apply IH in H. destruct H; auto.
Qed.
Lemma rh_put_sorted x l : StronglySorted (fun a b => rh_row a < rh_row b) l ->
  StronglySorted (fun a b => rh_row a < rh_row b) (rh_put x l).
Proof.
  induction l as [|z t IH]; cbn [rh_put]; intro S.
  - repeat constructor.
  - apply StronglySorted_inv in S. destruct S as [S F]. destruct (rh_row x <? rh_row z) eqn:E1.
    { constructor; [constructor; auto|]. constructor; [lia|]. eapply Forall_impl; [|exact F]. cbn. intros. lia. }
    destruct (rh_row z <? rh_row x) eqn:E2.
    + constructor; [auto|]. apply Forall_forall. intros y H. apply rh_put_in in H. destruct H as [->|H]; [lia|].
      rewrite Forall_forall in F. auto.
    + constructor; [exact S|]. eapply Forall_impl; [|exact F]. cbn. intros. lia.
Qed.

Lemma note_author_len a : zlen (note_author a) <= 54.
Proof. unfold note_author. destruct (_ || _)%bool eqn:E; [vm_compute; discriminate|]. lia. Qed.
Lemma note_text_len a : zlen (note_text a) <= 2048.
Proof. unfold note_text. destruct (_ || _)%bool eqn:E; [vm_compute; discriminate|]. lia. Qed.
Lemma note_new_texts r c a t : no_author (note_new r c a t) = note_author a /\ no_text (note_new r c a t) = note_text t
  /\ no_row (note_new r c a t) = r /\ no_col (note_new r c a t) = c.
Proof. unfold note_new. destruct (note_grow _ _ _). auto. Qed.

Lemma sheet_new_inv i : sheet_inv (sheet_new i).
Proof. constructor; cbn; auto; constructor. Qed.

Lemma replace_sorted l r c q : csorted l -> csorted (replace_cell l r c q).
Proof.
  unfold replace_cell. induction 1 as [|x l S IH F]; cbn [map]; constructor; [exact IH|].
  apply Forall_forall. intros y H. apply in_map_iff in H. destruct H as (z & <- & H). rewrite Forall_forall in F. specialize (F z H).
  unfold clt in *. destruct ((c_row z =? r) && _)%bool, ((c_row x =? r) && _)%bool; exact F.
Qed.
Lemma find_replace l r c q r' c' : find (at_key r' c') (replace_cell l r c q) =
  option_map (fun x => if at_key r c x then set_xf x q else x) (find (at_key r' c') l).
Proof.
  unfold replace_cell. induction l as [|x l IH]; cbn [map find option_map]; [reflexivity|].
  fold (at_key r c x). 
  assert (E : at_key r' c' (if at_key r c x then set_xf x q else x) = at_key r' c' x) by (destruct (at_key r c x); reflexivity).
  rewrite E. destruct (at_key r' c' x); [reflexivity|exact IH].
Qed.

(* ------------------------------------------------------------------ *)
(** * Invariants of the document *)

Definition cell_label (c : cell) : labels :=
  match c_val c with VLabel id t => if in_sst t then [(id, t)] else [] | _ => [] end.
Definition slabels (s : sheet) : labels := flat_map cell_label (sh_cells s).
Definition sheet_xfs (fs : fstate) (s : sheet) : Prop :=
  Forall (fun c => valid fs (c_xf c)) (sh_cells s)
  /\ Forall (fun c => forall i, ci_xf c = Some i -> valid fs i) (sh_cols s)
  /\ Forall (fun r => forall i, rh_xf r = Some i -> valid fs i) (sh_heights s).

Record winv (w : wb) : Prop := {
  wi_len : length (wb_bs w) = length (wb_sheets w);
  wi_idx : forall k s, nth_error (wb_sheets w) k = Some s -> sh_index s = Z.of_nat k mod 65536;
  wi_sheets : Forall sheet_inv (wb_sheets w);
  wi_xfs : Forall (sheet_xfs (wb_fs w)) (wb_sheets w);
  wi_labels : Permutation (flat_map slabels (wb_sheets w)) (wb_labels w);
  wi_nodup : NoDup (map fst (wb_labels w));
  wi_fresh : Forall (fun l => fst l < wb_next w) (wb_labels w);
  wi_dfonts : length (fs_dfonts (wb_fs w)) = 5%nat;
  wi_dxfs : length (fs_dxfs (wb_fs w)) = 21%nat;
  wi_palette : length (wb_palette w) = 56%nat
}.

Lemma nth_split_upd {A} k (l : list A) s s1 : nth_error l k = Some s ->
  exists a b, l = a ++ s :: b /\ length a = k /\ upd k s1 l = a ++ s1 :: b.
Proof.
  revert l. induction k; intros [|x l] H; cbn in *; try discriminate.
  - injection H as ->. exists [], l. auto.
  - destruct (IHk l H) as (a & b & -> & E & U). exists (x :: a), b. cbn. rewrite U, E. auto.
Qed.
Lemma sheet_xfs_grows a b s : grows a b -> sheet_xfs a s -> sheet_xfs b s.
Proof.
  intros G (A & B & C). repeat split; (eapply Forall_impl; [|eassumption]); cbn; intros; eauto using valid_grows.
Qed.

Lemma winv_sheet w k s w1 s1 : winv w -> nth_error (wb_sheets w) k = Some s ->
  grows (wb_fs w) (wb_fs w1) -> wb_bs w1 = wb_bs w -> wb_palette w1 = wb_palette w ->
  sheet_inv s1 -> sh_index s1 = sh_index s -> sheet_xfs (wb_fs w1) s1 ->
  (forall rest, Permutation (slabels s ++ rest) (wb_labels w) -> Permutation (slabels s1 ++ rest) (wb_labels w1)) ->
  NoDup (map fst (wb_labels w1)) -> Forall (fun l => fst l < wb_next w1) (wb_labels w1) ->
  winv (up_sheets w1 (upd k s1 (wb_sheets w))).
Proof.
  intros [] E G Eb Ep Is Ei Xs HP ND FR.
  destruct (nth_split_upd k _ s s1 E) as (a & b & El & Lk & U).
  constructor; cbn [up_sheets wb_fs wb_palette wb_labels wb_w1 wb_bs wb_sheets wb_next].
  - rewrite Eb, upd_len. assumption.
  - intros j t. rewrite nth_upd. destruct (Nat.eqb j k) eqn:Ej; [|auto]. apply Nat.eqb_eq in Ej. subst j. rewrite E.
    intro H. injection H as <-. rewrite Ei. auto.
  - rewrite U. rewrite El in wi_sheets0. apply Forall_app in wi_sheets0. destruct wi_sheets0 as [A B]. inversion B; subst.
    apply Forall_app. split; auto.
  - rewrite U. rewrite El in wi_xfs0. apply Forall_app in wi_xfs0. destruct wi_xfs0 as [A B]. inversion B; subst.
    apply Forall_app. split; [|constructor; auto]; (eapply Forall_impl; [|eassumption]); intros t H; eapply sheet_xfs_grows; eauto.
  - rewrite U. rewrite El in wi_labels0. rewrite flat_map_app in *. cbn [flat_map] in *.
    eapply perm_trans; [|apply (HP (flat_map slabels a ++ flat_map slabels b))].
    + rewrite !app_assoc. apply Permutation_app_tail, Permutation_app_comm.
    + eapply perm_trans; [|exact wi_labels0]. rewrite !app_assoc. apply Permutation_app_tail, Permutation_app_comm.
  - exact ND.
  - exact FR.
  - rewrite (gr_dfonts _ _ G). assumption.
  - rewrite (gr_dxfs _ _ G). assumption.
  - rewrite Ep. assumption.
Qed.
(** The same when labels are untouched. *)
Lemma winv_sheet_plain w k s w1 s1 : winv w -> nth_error (wb_sheets w) k = Some s ->
  grows (wb_fs w) (wb_fs w1) -> wb_bs w1 = wb_bs w -> wb_palette w1 = wb_palette w ->
  wb_labels w1 = wb_labels w -> wb_next w1 = wb_next w ->
  sheet_inv s1 -> sh_index s1 = sh_index s -> sheet_xfs (wb_fs w1) s1 -> slabels s1 = slabels s ->
  winv (up_sheets w1 (upd k s1 (wb_sheets w))).
Proof.
  intros I E G Eb Ep El En Is Ei Xs Sl. eapply winv_sheet; eauto.
  - intros rest H. rewrite Sl, El. exact H.
  - rewrite El. apply I.
  - rewrite El, En. apply I.
Qed.
Lemma winv_nth w k s : winv w -> nth_error (wb_sheets w) k = Some s -> sheet_inv s /\ sheet_xfs (wb_fs w) s.
Proof.
  intros I E. split; [pose proof (wi_sheets _ I) as F|pose proof (wi_xfs _ I) as F]; rewrite Forall_forall in F; apply F;
    eapply nth_error_In; eauto.
Qed.
(** Changes outside the sheets. *)
Lemma winv_other w w1 : winv w -> grows (wb_fs w) (wb_fs w1) -> wb_bs w1 = wb_bs w -> wb_sheets w1 = wb_sheets w ->
  wb_labels w1 = wb_labels w -> wb_next w1 = wb_next w -> length (wb_palette w1) = length (wb_palette w) -> winv w1.
Proof.
  intros [] G Eb Es El En Ep. constructor; rewrite ?Eb, ?Es, ?El, ?En, ?Ep, ?(gr_dfonts _ _ G), ?(gr_dxfs _ _ G); auto.
  eapply Forall_impl; [|eassumption]. intros s H. eapply sheet_xfs_grows; eauto.
Qed.

Lemma new_inv w : wb_new = Ok w -> winv w.
Proof.
  unfold wb_new. intro H. apply bind_ok in H. destruct H as (fs & E & H). apply init_sizes in E. destruct E as (A & B & _).
  apply ok_inj in H. subst w. clear - A B.
  constructor; cbn [wb_fs wb_palette wb_labels wb_w1 wb_bs wb_sheets wb_next].
  - reflexivity.
  - intros k s K. destruct k; discriminate.
  - constructor.
  - constructor.
  - apply perm_nil.
  - constructor.
  - constructor.
  - exact A.
  - exact B.
  - reflexivity.
Qed.
Lemma api_sheet_inv w name : winv w -> winv (api_sheet w name).
Proof.
  intros []. unfold api_sheet. constructor; cbn [up_bs up_sheets wb_fs wb_palette wb_labels wb_w1 wb_bs wb_sheets wb_next]; auto.
  - rewrite !app_length. cbn. lia.
  - intros k s H. destruct (lt_dec k (length (wb_sheets w))) as [L|L].
    + rewrite nth_error_app1 in H by exact L. auto.
    + rewrite nth_error_app2 in H by lia. destruct (k - length (wb_sheets w))%nat eqn:E; cbn in H; [|destruct n; discriminate].
      injection H as <-. cbn [sheet_new sh_index]. unfold zlen. f_equal. lia.
  - apply Forall_app. split; [assumption|]. constructor; [apply sheet_new_inv|constructor].
  - apply Forall_app. split; [assumption|]. constructor; [|constructor]. repeat split; constructor.
  - rewrite flat_map_app. change (flat_map slabels [_]) with (@nil (Z * list Z)). rewrite app_nil_r. assumption.
Qed.

Lemma slabels_split s a o b : sh_cells s = a ++ o ++ b ->
  Permutation (slabels s) (flat_map cell_label o ++ flat_map cell_label (a ++ b)).
Proof.
  intro E. unfold slabels. rewrite E, !flat_map_app. rewrite app_assoc. rewrite (app_assoc (flat_map cell_label o)).
  apply Permutation_app_tail, Permutation_app_comm.
Qed.
Lemma drop_perm ls id t : NoDup (map fst ls) -> In (id, t) ls -> Permutation ls ((id, t) :: drop_label ls id).
Proof.
  induction ls as [|[i s] ls IH]; intros ND I; [destruct I|]. cbn [drop_label]. inversion ND; subst.
  destruct (i =? id) eqn:E.
  - assert (i = id) by lia. subst i. destruct I as [I|I]; [injection I as ->; reflexivity|].
    exfalso. apply H1. apply in_map_iff. exists (id, t). auto.
  - destruct I as [I|I]; [injection I as -> ->; lia|]. rewrite (IH H2 I) at 1. apply perm_swap.
Qed.
Lemma perm_nodup_ids (a b : labels) : Permutation a b -> NoDup (map fst a) -> NoDup (map fst b).
Proof. intros P. apply Permutation_NoDup, Permutation_map, P. Qed.

Lemma xf_valid_spec fs p : xf_valid fs p = true -> forall i, p = Some i -> valid fs i.
Proof. intros H i ->. unfold xf_valid in H. unfold valid. destruct (xf_at fs i); congruence. Qed.
Lemma valid15 fs : length (fs_dxfs fs) = 21%nat -> valid fs 15.
Proof. intro H. unfold valid, xf_at. cbn [Z.ltb Z.compare Pos.compare Pos.compare_cont]. apply nth_error_Some. rewrite H. vm_compute. repeat constructor. Qed.

Lemma with_cells_inv s l r c : sheet_inv s -> csorted l -> sheet_inv (with_cells s l r c).
Proof. intros [] S. constructor; cbn [with_cells sh_cells sh_calc sh_sizes sh_notes sh_cols sh_heights sh_spid]; auto. Qed.

Lemma cell_delete_labels w c : wb_labels (cell_delete w c) =
  match cell_label c with [(id, _)] => drop_label (wb_labels w) id | _ => wb_labels w end.
Proof. unfold cell_delete, cell_label. destruct (c_val c); try reflexivity. destruct (in_sst s); reflexivity. Qed.
Lemma sst_add_labels w v r c x : wb_labels (sst_add w v) = wb_labels w ++ cell_label (mkCell r c x v).
Proof. unfold sst_add, cell_label. cbn [c_val]. destruct v; rewrite ?app_nil_r; try reflexivity. destruct (in_sst s); rewrite ?app_nil_r; reflexivity. Qed.
Lemma cell_label_cases c : cell_label c = [] \/ exists id t, cell_label c = [(id, t)] /\ c_val c = VLabel id t /\ in_sst t = true.
Proof. unfold cell_label. destruct (c_val c); auto. destruct (in_sst s) eqn:E; eauto 8. Qed.
Lemma new_label_id n v r c x id t : cell_label (mkCell r c x (make_val n v)) = [(id, t)] -> id = n.
Proof.
  unfold cell_label. cbn [c_val]. destruct v; cbn [make_val]; try discriminate.
  - destruct (_ && _)%bool; discriminate.
  - destruct (_ <=? _); discriminate.
  - destruct (in_sst _); [|discriminate]. intro H. injection H as <- _. reflexivity.
Qed.

Lemma grows_level_l a b : level a b -> grows a b. Proof. apply level_grows. Qed.
Lemma cell_delete_fs w c : level (wb_fs w) (wb_fs (cell_delete w c)).
Proof.
  unfold cell_delete. cbn [up_fs wb_fs]. destruct (c_val c); try apply xf_unmark_level.
  destruct (in_sst s); apply xf_unmark_level.
Qed.
Lemma cell_delete_same w c : wb_bs (cell_delete w c) = wb_bs w /\ wb_palette (cell_delete w c) = wb_palette w
  /\ wb_next (cell_delete w c) = wb_next w /\ wb_w1 (cell_delete w c) = wb_w1 w /\ wb_sheets (cell_delete w c) = wb_sheets w.
Proof. unfold cell_delete. destruct (c_val c); cbn; auto. destruct (in_sst s); cbn; auto 6. Qed.
Lemma sst_add_same w v : wb_bs (sst_add w v) = wb_bs w /\ wb_palette (sst_add w v) = wb_palette w
  /\ wb_next (sst_add w v) = wb_next w /\ wb_fs (sst_add w v) = wb_fs w /\ wb_w1 (sst_add w v) = wb_w1 w
  /\ wb_sheets (sst_add w v) = wb_sheets w.
Proof. unfold sst_add. destruct v; auto 7. destruct (in_sst s); cbn; auto 7. Qed.

(** A written cell: what happens to the sheet, and that the invariants hold. *)
Lemma api_cell_spec w k r c v p w' : winv w -> api_cell w k r c v p = Ok w' ->
  winv w' /\ exists s a b old, nth_error (wb_sheets w) k = Some s
    /\ sh_cells s = a ++ olist old ++ b
    /\ (forall y, old = Some y -> c_row y = r /\ c_col y = c)
    /\ let x := mkCell r c (cell_xf p) (make_val (wb_next w) v) in
       Forall (fun y => clt y x) a /\ Forall (clt x) b
       /\ wb_sheets w' = upd k (with_cells s (a ++ x :: b) r c) (wb_sheets w)
       /\ wb_bs w' = wb_bs w /\ wb_palette w' = wb_palette w /\ wb_w1 w' = wb_w1 w.
Proof.
  intros I H. apply on_sheet_inv in H. destruct H as (s & w1 & s1 & E & H & ->).
  destruct (winv_nth _ _ _ I E) as [Is Xs].
  destruct (xf_valid (wb_fs w) p) eqn:Ev; cbn [negb] in H; [|discriminate].
  set (x := mkCell r c (cell_xf p) (make_val (wb_next w) v)) in *.
  destruct (add_cell_spec s x (si_cells _ Is)) as (old & a & b & Ea & El & Ho & Sx & Fa & Fb).
  rewrite Ea in H. cbn [bind] in H. apply ok_pair in H. destruct H as [Hw Hs]. change (c_row x) with r in *. change (c_col x) with c in *.
  set (w0 := sst_add (bump_next (up_fs w (xf_mark (wb_fs w) (cell_xf p)))) (make_val (wb_next w) v)) in *.
  destruct (sst_add_same (bump_next (up_fs w (xf_mark (wb_fs w) (cell_xf p)))) (make_val (wb_next w) v)) as (B1 & B2 & B3 & B4 & B5 & B6).
  fold w0 in B1, B2, B3, B4, B5, B6. cbn [bump_next up_fs wb_fs wb_bs wb_palette wb_next wb_w1 wb_sheets] in B1, B2, B3, B4, B5, B6.
  assert (L0 : level (wb_fs w) (wb_fs w0)) by (rewrite B4; apply xf_mark_level).
  assert (L1 : level (wb_fs w) (wb_fs w1)).
  { rewrite <- Hw. destruct old as [y|]; [|exact L0]. eapply level_trans; [exact L0|apply cell_delete_fs]. }
  assert (Same : wb_bs w1 = wb_bs w /\ wb_palette w1 = wb_palette w /\ wb_next w1 = wb_next w + 1 /\ wb_w1 w1 = wb_w1 w).
  { rewrite <- Hw. destruct old as [y|]; [|auto]. destruct (cell_delete_same w0 y) as (C1 & C2 & C3 & C4 & _).
    rewrite C1, C2, C3, C4. auto. }
  destruct Same as (S1 & S2 & S3 & S4).
  split.
  - eapply winv_sheet; eauto.
    + apply level_grows, L1.
    + rewrite <- Hs. apply with_cells_inv; auto.
    + rewrite <- Hs. reflexivity.
    + rewrite <- Hs. destruct Xs as (X1 & X2 & X3). pose proof (level_grows _ _ L1) as G. repeat split; cbn [with_cells sh_cells sh_cols sh_heights].
      * rewrite El in X1. apply Forall_app in X1. destruct X1 as [Xa X1]. apply Forall_app in X1. destruct X1 as [_ Xb].
        apply Forall_app. split; [|constructor].
        -- eapply Forall_impl; [|exact Xa]. cbn. intros. eapply valid_grows; eauto.
        -- cbn [x c_xf]. eapply valid_grows; [exact G|]. destruct p as [i|]; cbn [cell_xf].
           ++ eapply xf_valid_spec; eauto.
           ++ apply valid15, I.
        -- eapply Forall_impl; [|exact Xb]. cbn. intros. eapply valid_grows; eauto.
      * eapply Forall_impl; [|exact X2]. cbn. intros. eapply valid_grows; eauto.
      * eapply Forall_impl; [|exact X3]. cbn. intros. eapply valid_grows; eauto.
    + intros rest HP.
      assert (P1 : Permutation (slabels s1 ++ rest) (cell_label x ++ (flat_map cell_label (a ++ b) ++ rest))).
      { rewrite <- Hs. rewrite app_assoc. apply Permutation_app_tail.
        pose proof (slabels_split (with_cells s (a ++ x :: b) r c) a [x] b eq_refl) as P. cbn [flat_map app] in P.
        rewrite app_nil_r in P. exact P. }
      eapply perm_trans; [exact P1|]. clear P1.
      pose proof (slabels_split s a (olist old) b El) as P2.
      assert (P3 : Permutation (wb_labels w) (flat_map cell_label (olist old) ++ (flat_map cell_label (a ++ b) ++ rest))).
      { symmetry. eapply perm_trans; [|exact HP]. rewrite app_assoc. apply Permutation_app_tail. symmetry. exact P2. }
      assert (L2 : wb_labels w0 = wb_labels w ++ cell_label x) by (unfold w0; rewrite (sst_add_labels _ _ r c (cell_xf p)); reflexivity).
      assert (P4 : Permutation (wb_labels w0) (flat_map cell_label (olist old) ++ (cell_label x ++ (flat_map cell_label (a ++ b) ++ rest)))).
      { rewrite L2. eapply perm_trans; [apply Permutation_app_tail, P3|].
        rewrite <- !app_assoc. apply Permutation_app_head. rewrite (app_assoc (flat_map cell_label (a ++ b))). apply Permutation_app_comm. }
      rewrite <- Hw. destruct old as [y|]; cbn [olist flat_map app] in P4.
      * rewrite app_nil_r in P4. rewrite cell_delete_labels. destruct (cell_label_cases y) as [Z|(id & t & Z & _)]; rewrite Z in *; cbn [app] in P4.
        -- symmetry. exact P4.
        -- assert (ND : NoDup (map fst (wb_labels w0))).
           { rewrite L2, map_app. apply (Permutation_NoDup (l := map fst (cell_label x) ++ map fst (wb_labels w))); [apply Permutation_app_comm|].
             destruct (cell_label_cases x) as [Zx|(ix & tx & Zx & _)]; rewrite Zx; cbn [map app fst]; [apply I|].
             constructor; [|apply I]. pose proof (new_label_id _ _ _ _ _ _ _ Zx) as ->. intro J. apply in_map_iff in J.
             destruct J as ([i' t'] & J1 & J2). pose proof (wi_fresh _ I) as F. rewrite Forall_forall in F. specialize (F _ J2). cbn [fst] in *. lia. }
           pose proof (drop_perm (wb_labels w0) id t ND) as D. eapply Permutation_cons_inv with (a := (id, t)).
           eapply perm_trans; [symmetry; exact P4|]. apply D. apply (Permutation_in (l := (id, t) :: (cell_label x ++ flat_map cell_label (a ++ b) ++ rest))).
           ++ symmetry. exact P4.
           ++ left. reflexivity.
      * symmetry. exact P4.
    + assert (L2 : wb_labels w0 = wb_labels w ++ cell_label x) by (unfold w0; rewrite (sst_add_labels _ _ r c (cell_xf p)); reflexivity).
      assert (ND : NoDup (map fst (wb_labels w0))).
      { rewrite L2, map_app. apply (Permutation_NoDup (l := map fst (cell_label x) ++ map fst (wb_labels w))); [apply Permutation_app_comm|].
        destruct (cell_label_cases x) as [Zx|(ix & tx & Zx & _)]; rewrite Zx; cbn [map app fst]; [apply I|].
        constructor; [|apply I]. pose proof (new_label_id _ _ _ _ _ _ _ Zx) as ->. intro J. apply in_map_iff in J.
        destruct J as ([i' t'] & J1 & J2). pose proof (wi_fresh _ I) as F. rewrite Forall_forall in F. specialize (F _ J2). cbn [fst] in *. lia. }
      rewrite <- Hw. destruct old as [y|]; [|exact ND]. rewrite cell_delete_labels. destruct (cell_label_cases y) as [Z|(id & t & Z & Zv & Zs)]; rewrite Z; [exact ND|].
      assert (J : In (id, t) (wb_labels w0)).
      { rewrite L2. apply in_or_app. left. apply (Permutation_in _ (wi_labels _ I)). apply in_flat_map. exists s. split; [eapply nth_error_In; eauto|].
        unfold slabels. rewrite El. rewrite !flat_map_app. apply in_or_app. right. apply in_or_app. left. cbn [olist flat_map]. rewrite Z. left. reflexivity. }
      pose proof (drop_perm _ _ _ ND J) as D. apply (perm_nodup_ids _ _ D) in ND. cbn [map] in ND. inversion ND; assumption.
    + assert (L2 : wb_labels w0 = wb_labels w ++ cell_label x) by (unfold w0; rewrite (sst_add_labels _ _ r c (cell_xf p)); reflexivity).
      assert (F0 : Forall (fun l => fst l < wb_next w + 1) (wb_labels w0)).
      { rewrite L2. apply Forall_app. split.
        - eapply Forall_impl; [|apply (wi_fresh _ I)]. cbn. intros. lia.
        - destruct (cell_label_cases x) as [Zx|(ix & tx & Zx & _)]; rewrite Zx; constructor; [|constructor].
          pose proof (new_label_id _ _ _ _ _ _ _ Zx) as ->. cbn [fst]. lia. }
      rewrite S3. rewrite <- Hw. destruct old as [y|]; [|exact F0]. rewrite cell_delete_labels.
      destruct (cell_label_cases y) as [Z|(id & t & Z & _)]; rewrite Z; [exact F0|]. clear - F0.
      induction (wb_labels w0) as [|[i u] l IH]; cbn [drop_label]; [constructor|]. inversion F0; subst. destruct (i =? id); auto.
  - exists s, a, b, old. split; [exact E|]. split; [exact El|]. split; [exact Ho|]. split; [exact Fa|]. split; [exact Fb|].
    cbn [up_sheets wb_sheets wb_bs wb_palette wb_w1]. rewrite <- Hs. auto.
Qed.
