(** The workbook dump: interleaving of globals, sheets and CONTINUE records. *)
From Coq Require Import ZArith List Bool Lia ZifyBool ZifyNat.
From Verif Require Import Bytes UnitModel SpecBuf BufProofs RecModel SheetModel XfModel WbModel RecProofs RecFrames
  XfProofs SheetProofs SheetTrace GlobTrace.
Import ListNotations.
Local Open Scope Z_scope.

(* ------------------------------------------------------------------ *)
(** * Everything built is bytes *)

Lemma byte_byte v : 0 <= byte_k 0 v < 256.
Proof. rewrite byte_k0. apply Z.mod_pos_bound. lia. Qed.
Lemma map_byte_ok l : bytes_ok (map (byte_k 0) l).
Proof. apply Forall_forall. intros x H. apply in_map_iff in H. destruct H as (y & <- & _). apply byte_byte. Qed.
Lemma bytes_ok_upd i v l : is_byte v -> bytes_ok l -> bytes_ok (upd i v l).
Proof.
  intros Hv H. revert i. induction H; intro i; destruct i; cbn [upd]; constructor; auto. apply IHForall.
Qed.
Lemma aset8_ok v i l : bytes_ok l -> bytes_ok (snd (aset8 v i l)).
Proof. intro H. unfold aset8. destruct (_ <? _); cbn [snd]; auto. apply bytes_ok_upd; auto. apply byte_byte. Qed.
Lemma aset_bytes_ok bs : forall e i l, bytes_ok l -> bytes_ok (snd (aset_bytes e bs i l)).
Proof.
  induction bs; intros e i l H; cbn [aset_bytes]; auto. pose proof (aset8_ok a i l H) as K.
  destruct (aset8 a i l) as [e1 l1]. apply IHbs, K.
Qed.
Lemma ustr_ok s f : bytes_ok (ustr_bytes s f).
Proof.
  assert (F : is_byte (if is_ascii s then 0 else 1)) by (unfold is_byte; destruct (is_ascii s); lia).
  unfold ustr_bytes. apply bytes_ok_app. split.
  - unfold ustr_header. destruct f; repeat apply Forall_cons; try apply Forall_nil; try exact F; apply byte_k_byte; lia.
  - unfold ustr_body. destruct (is_ascii s); [apply map_byte_ok|].
    apply Forall_flat_map, Forall_forall. intros x _. repeat apply Forall_cons; try apply Forall_nil; apply byte_k_byte; lia.
Qed.
Definition opt_ok (a : option (list Z)) : Prop := match a with Some l => bytes_ok l | None => True end.
Lemma arun_op_ok a o e a' : opt_ok a -> arun_op a o = Ok (e, a') -> opt_ok a'.
Proof.
  intros H. destruct o; cbn [arun_op]; destruct a as [l0|]; cbn [amap opt_ok] in *; try discriminate;
    repeat match goal with |- context [aset_bytes ?e ?b ?i ?l] =>
      let K := fresh in pose proof (aset_bytes_ok b e i l H) as K; destruct (aset_bytes e b i l); cbn [snd] in K end;
    repeat match goal with |- context [aset8 ?b ?i ?l] =>
      let K := fresh in pose proof (aset8_ok b i l H) as K; destruct (aset8 b i l); cbn [snd] in K end;
    try (destruct (_ && _)%bool); try (destruct (0 <? _));
    intro E; inversion E; subst; cbn [opt_ok app]; auto;
    try (apply bytes_ok_app; split; auto);
    try apply le16_ok; try apply le32_ok; try apply le64_ok; try apply map_byte_ok; try apply ustr_ok;
    try (apply bytes_ok_repeat, byte_byte).
  all: repeat apply Forall_cons; try apply Forall_nil; apply byte_byte.
Qed.
Lemma arun_ops_ok ops : forall a e a', opt_ok a -> arun_ops a ops = Ok (e, a') -> opt_ok a'.
Proof.
  induction ops as [|o t IH]; intros a e a' H; cbn [arun_ops].
  - intro E; inversion E; subst; auto.
  - destruct (arun_op a o) as [[e1 a1]| |] eqn:E1; cbn [bind]; try discriminate.
    destruct (arun_ops a1 t) as [[es a2]| |] eqn:E2; cbn [bind]; try discriminate.
    intro E; inversion E; subst. eapply IH; [|exact E2]. eapply arun_op_ok; eauto.
Qed.
Lemma build_ok_bytes ops u : build ops = Ok u -> bytes_ok (bu_bytes u).
Proof.
  unfold build. destruct (arun_ops None ops) as [[e [l|]]| |] eqn:E; try discriminate.
  intro H; inversion H; subst. apply (arun_ops_ok ops None e (Some l)); cbn; auto.
Qed.
Lemma ubuild_bytes ops : bytes_ok (bu_bytes (ubuild ops)).
Proof. unfold ubuild. destruct (build ops) eqn:E; try constructor. eapply build_ok_bytes; eauto. Qed.
Lemma cu_bytes ls c : bytes_ok (bu_bytes (cu ls c)).
Proof.
  unfold cu, cell_unit. destruct (cell_ops ls c) as [ops| |]; cbn [bind]; try constructor.
  apply ubuild_bytes.
Qed.

(* ------------------------------------------------------------------ *)
(** * Units as they reach the stream *)

Definition oversized (u : bunit) : bool := (negb (bu_cont u) && (8224 <? bu_size u - 4))%bool.
(** Number of complete 8224-byte chunks. *)
Definition nfull (u : bunit) : Z := (bu_size u - 4) / 8224.
(** How far the position used for sheet records advances. *)
Definition sadv (u : bunit) : Z := if oversized u then bu_size u + 4 * (nfull u - 1) else bu_size u.
Definition M : nat := Z.to_nat 8224.
Fixpoint pieces (fuel : nat) (l : list Z) : list (list Z) :=
  match fuel with
  | O => []
  | S f => match l with [] => [] | _ => firstn M l :: pieces f (skipn M l) end
  end.
Definition continues (l : list Z) : list (list Z) := map (frame RT_CONTINUE) (pieces (S (length l)) l).
Definition expand (u : bunit) : list (list Z) :=
  if oversized u then clip (bu_bytes u) :: continues (skipn (Z.to_nat 8228) (bu_bytes u))
  else [bu_bytes u].

Lemma sadv_small u : bu_size u <= 8228 -> sadv u = bu_size u.
Proof. intro H. unfold sadv, oversized. replace (8224 <? bu_size u - 4) with false by lia. rewrite andb_false_r. reflexivity. Qed.

Lemma M_pos : (0 < M)%nat.
Proof. unfold M. lia. Qed.
Lemma pieces_fuel f : forall g l, (length l < f)%nat -> (length l < g)%nat -> pieces f l = pieces g l.
Proof.
  pose proof M_pos. induction f; intros g l Hf Hg; [lia|]. destruct g; [lia|]. cbn [pieces]. destruct l as [|a t]; [reflexivity|].
  f_equal. apply IHf; rewrite skipn_length; cbn [length] in *; lia.
Qed.
Lemma continues_cons l : l <> [] -> continues l = frame RT_CONTINUE (firstn M l) :: continues (skipn M l).
Proof.
  pose proof M_pos. destruct l as [|a t]; [congruence|]. intros _. unfold continues.
  change (pieces (S (length (a :: t))) (a :: t)) with (firstn M (a :: t) :: pieces (length (a :: t)) (skipn M (a :: t))).
  cbn [map]. f_equal. f_equal. apply pieces_fuel; rewrite skipn_length; cbn [length]; lia.
Qed.
Lemma build_continue l : bytes_ok l -> build (rec_continue l) = Ok (mkBU (frame RT_CONTINUE l) false).
Proof.
  intro H. unfold rec_continue. rewrite build_rec.
  - unfold pl. cbn [appended op_bytes]. rewrite app_nil_r, map_byte_id by exact H. reflexivity.
  - unfold app_only. cbn. discriminate.
Qed.

(* ------------------------------------------------------------------ *)
(** * Runs of the machine *)

Section W.
Variables (moves : nat -> bool) (g : globals) (ac : Z).

Definition push (d : wdump) (l : list Z) : wdump :=
  mkWD (w_state d) (w_prev d) (w_unit d) (w_real d) (w_cidx d) (w_len d) (w_off d)
       (w_cur d) (w_g d) (w_sh d) (w_store d ++ [l]) (w_bs d).
Inductive wreach : nat -> wdump -> wdump -> Prop :=
| wr_refl d : wreach 0 d d
| wr_again n d d1 d2 : w_step moves g ac d = Ok (WAgain, d1) -> wreach n d1 d2 -> wreach (S n) d d2
| wr_give n d l d1 d2 : w_step moves g ac d = Ok (WGive (Some l), d1) -> wreach n (push d1 l) d2 -> wreach (S n) d d2.
Definition reach d d' := exists n, wreach n d d'.
Lemma reach_refl d : reach d d. Proof. exists 0%nat. constructor. Qed.
Lemma reach_again d d1 d2 : w_step moves g ac d = Ok (WAgain, d1) -> reach d1 d2 -> reach d d2.
Proof. intros H [n T]. exists (S n). eapply wr_again; eauto. Qed.
Lemma reach_give d l d1 d2 : w_step moves g ac d = Ok (WGive (Some l), d1) -> reach (push d1 l) d2 -> reach d d2.
Proof. intros H [n T]. exists (S n). eapply wr_give; eauto. Qed.
Lemma wreach_trans n d d1 d2 m : wreach n d d1 -> wreach m d1 d2 -> wreach (n + m) d d2.
Proof. intro T. revert m d2. induction T; intros m e K; cbn [Nat.add]; auto; [eapply wr_again|eapply wr_give]; eauto. Qed.
Lemma reach_trans d d1 d2 : reach d d1 -> reach d1 d2 -> reach d d2.
Proof. intros [n T] [m K]. exists (n + m)%nat. eapply wreach_trans; eauto. Qed.
Lemma wreach_run n d d' f : wreach n d d' -> w_run (n + f) moves g ac d = w_run f moves g ac d'.
Proof.
  induction 1 as [d|n d d1 d2 E T IH|n d l d1 d2 E T IH]; cbn [Nat.add]; auto.
  - cbn [w_run]. rewrite E. exact IH.
  - cbn [w_run]. rewrite E. exact IH.
Qed.
Lemma w_run_done d d' : w_step moves g ac d = Ok (WGive None, d') -> forall f, w_run (S f) moves g ac d = Some (Ok d').
Proof. intros E f. cbn [w_run]. rewrite E. reflexivity. Qed.
Lemma reach_run d d1 d' : reach d d1 -> w_step moves g ac d1 = Ok (WGive None, d') ->
  exists f0, forall f, (f0 <= f)%nat -> w_run f moves g ac d = Some (Ok d').
Proof.
  intros [n T] E. exists (n + 1)%nat. intros f Hf. replace f with (n + S (f - n - 1))%nat by lia.
  rewrite (wreach_run _ _ _ _ T). apply w_run_done, E.
Qed.

Definition hdr (st : wstate) : Z := match st with WSheets => 4 | _ => 0 end.

Lemma continue_run st unit off cur gd sh bs : bytes_ok unit ->
  let real := zlen unit - 4 in real / 8224 < 65536 ->
  forall k store len, 1 <= k <= real / 8224 ->
  (forall n, (length store <= n < length store + length (continues (skipn (Z.to_nat (4 + k * 8224)) unit)))%nat -> moves n = false) ->
  reach (mkWD WContinue st unit real k len off cur gd sh store bs)
        (mkWD st WContinue unit real 0 (len + hdr st * (real / 8224 - k)) off cur gd sh
              (store ++ continues (skipn (Z.to_nat (4 + k * 8224)) unit)) bs).
Proof.
  intros Hb real Hr k. 
  assert (Hreal : real = zlen unit - 4) by reflexivity. clearbody real.
  remember (Z.to_nat (real / 8224 - k)) as m eqn:Em. revert k Em.
  induction m as [|m IH]; intros k Em store len Hk Hm.
  - assert (k = real / 8224) by lia. clear Em.
    assert (Hd : real = 8224 * (real / 8224) + real mod 8224) by (apply Z.div_mod; lia).
    assert (Hmod : 0 <= real mod 8224 < 8224) by (apply Z.mod_pos_bound; lia).
    set (rest := skipn (Z.to_nat (4 + k * 8224)) unit) in *.
    assert (Hl : zlen rest = real mod 8224).
    { unfold rest, zlen. rewrite skipn_length. unfold zlen in *. lia. }
    assert (Hs : w_step moves g ac (mkWD WContinue st unit real k len off cur gd sh store bs) =
       if real - k * 8224 =? 0 then Ok (WAgain, mkWD st WContinue unit real 0 len off cur gd sh store bs)
       else if moves (length store) then UB else
         let* u := build (rec_continue (firstn (Z.to_nat (real - k * 8224)) rest)) in
         Ok (WGive (Some (bu_bytes u)), mkWD st WContinue unit real 0 (len + 0) off cur gd sh store bs)).
    { unfold w_step. cbn [w_state w_cidx w_real w_unit w_prev w_len w_off w_cur w_g w_sh w_store w_bs].
      replace (k =? 0) with false by lia. unfold MAX_RECORD_SIZE, RECORD_HEADER_SIZE in *.
      replace (k <? real / 8224) with false by lia. reflexivity. }
    replace (real / 8224 - k) with 0 by lia. rewrite Z.mul_0_r, Z.add_0_r.
    destruct (real - k * 8224 =? 0) eqn:Ez.
    + assert (rest = []) as -> by (destruct rest; [reflexivity|rewrite zlen_cons in Hl; unfold zlen in Hl; lia]).
      change (continues []) with (@nil (list Z)). rewrite app_nil_r. eapply reach_again; [exact Hs|]. apply reach_refl.
    + assert (Hne : rest <> []) by (intro H0; rewrite H0, zlen_nil in Hl; lia).
      rewrite continues_cons in Hm by exact Hne. rewrite continues_cons by exact Hne.
      assert (Hf : firstn M rest = rest) by (apply firstn_all2; unfold M, zlen in *; lia).
      assert (Hsk : skipn M rest = []) by (apply skipn_all2; unfold M, zlen in *; lia).
      rewrite Hf, Hsk in *. change (continues []) with (@nil (list Z)) in *.
      rewrite Hm in Hs by (cbn [length]; lia).
      assert (Hf2 : firstn (Z.to_nat (real - k * 8224)) rest = rest) by (apply firstn_all2; unfold zlen in *; lia).
      rewrite Hf2 in Hs. rewrite build_continue in Hs.
      2:{ unfold rest. rewrite <- (firstn_skipn (Z.to_nat (4 + k * 8224)) unit) in Hb. apply bytes_ok_app in Hb. tauto. }
      cbn [bind bu_bytes] in Hs. eapply reach_give; [exact Hs|]. unfold push. cbn [w_state w_cidx w_real w_unit w_prev w_len w_off w_cur w_g w_sh w_store w_bs].
      rewrite Z.add_0_r. apply reach_refl.
  - assert (Hlt : k < real / 8224) by lia.
    set (rest := skipn (Z.to_nat (4 + k * 8224)) unit) in *.
    assert (Hd : real = 8224 * (real / 8224) + real mod 8224) by (apply Z.div_mod; lia).
    assert (Hmod : 0 <= real mod 8224 < 8224) by (apply Z.mod_pos_bound; lia).
    assert (Hne : rest <> []).
    { intro H0. assert (length rest = 0%nat) by (rewrite H0; reflexivity). unfold rest in H. rewrite skipn_length in H. unfold zlen in *. lia. }
    rewrite continues_cons in Hm by exact Hne. rewrite continues_cons by exact Hne.
    assert (Hsk : skipn M rest = skipn (Z.to_nat (4 + (k + 1) * 8224)) unit).
    { unfold rest. rewrite skipn_skipn. f_equal. unfold M. lia. }
    rewrite Hsk in *.
    eapply reach_give.
    { unfold w_step. cbn [w_state w_cidx w_real w_unit w_prev w_len w_off w_cur w_g w_sh w_store w_bs].
      replace (k =? 0) with false by lia. unfold MAX_RECORD_SIZE, RECORD_HEADER_SIZE in *.
      replace (k <? real / 8224) with true by lia. rewrite Hm by (cbn [length]; lia). fold M. fold rest.
      rewrite build_continue. 2:{ unfold rest. rewrite <- (firstn_skipn (Z.to_nat (4 + k * 8224)) unit) in Hb. apply bytes_ok_app in Hb. destruct Hb as [_ Hb].
        fold rest in Hb |- *. rewrite <- (firstn_skipn M rest) in Hb. apply bytes_ok_app in Hb. tauto. }
      cbn [bind bu_bytes]. reflexivity. }
    unfold push. cbn [w_state w_cidx w_real w_unit w_prev w_len w_off w_cur w_g w_sh w_store w_bs].
    rewrite Z.mod_small by lia.
    specialize (IH (k + 1) ltac:(lia) (store ++ [frame RT_CONTINUE (firstn M rest)]) (len + hdr st) ltac:(lia)).
    replace (len + hdr st * (real / 8224 - k)) with (len + hdr st + hdr st * (real / 8224 - (k + 1))) by ring.
    rewrite <- app_assoc in IH. cbn [app] in IH. apply IH.
    intros n Hn. apply Hm. rewrite app_length in Hn. cbn [length] in *. lia.
Qed.

(** One unit, produced in state [st]. *)
Lemma emit_reach d st prev unit real cidx len off cur gd sh store bs u :
  bytes_ok (bu_bytes u) -> (oversized u = true -> nfull u < 65536) ->
  (oversized u = true -> forall n, (length store <= n < length store + length (expand u))%nat -> moves n = false) ->
  w_step moves g ac d = w_emit u (mkWD st prev unit real cidx len off cur gd sh store bs) ->
  exists prev' unit' real' cidx',
  reach d (mkWD st prev' unit' real' cidx' (len + hdr st * (if oversized u then nfull u - 1 else 0)) off cur gd sh
                (store ++ expand u) bs).
Proof.
  intros Hb Hn Hm Hs. unfold w_emit in Hs. change (MAX_RECORD_SIZE <? bu_size u - RECORD_HEADER_SIZE) with (8224 <? bu_size u - 4) in Hs.
  fold (oversized u) in Hs. unfold expand in *. destruct (oversized u) eqn:Eo.
  - cbn [w_state w_cidx w_real w_unit w_prev w_len w_off w_cur w_g w_sh w_store w_bs] in Hs.
    do 4 eexists. eapply reach_again; [exact Hs|].
    eapply reach_give.
    { unfold w_step. cbn [w_state w_cidx w_real w_unit w_prev w_len w_off w_cur w_g w_sh w_store w_bs Z.eqb]. reflexivity. }
    unfold push. cbn [w_state w_cidx w_real w_unit w_prev w_len w_off w_cur w_g w_sh w_store w_bs].
    unfold RECORD_HEADER_SIZE. change (Z.to_nat 8228) with (Z.to_nat (4 + 1 * 8224)) in *.
    replace (store ++ clip (bu_bytes u) :: continues (skipn (Z.to_nat (4 + 1 * 8224)) (bu_bytes u)))
      with ((store ++ [clip (bu_bytes u)]) ++ continues (skipn (Z.to_nat (4 + 1 * 8224)) (bu_bytes u))) by (rewrite <- app_assoc; reflexivity).
    apply continue_run; [exact Hb|apply Hn; reflexivity| |].
    + unfold oversized, bu_size in Eo. assert (1 <= (zlen (bu_bytes u) - 4) / 8224); [|lia].
      apply Z.div_le_lower_bound; lia.
    + intros n Hnn. apply Hm; auto. rewrite app_length in Hnn. cbn [length] in *. lia.
  - do 4 eexists. eapply reach_give; [exact Hs|].
    unfold push. cbn [w_state w_cidx w_real w_unit w_prev w_len w_off w_cur w_g w_sh w_store w_bs].
    rewrite Z.mul_0_r, Z.add_0_r. apply reach_refl.
Qed.

Definition unit_ok (u : bunit) : Prop := bytes_ok (bu_bytes u) /\ (oversized u = true -> nfull u < 65536).
Definition stable (N : nat) (us : list bunit) : Prop :=
  (exists u, In u us /\ oversized u = true) -> forall n, (n < N)%nat -> moves n = false.
Lemma stable_sub N us vs : (forall u, In u vs -> In u us) -> stable N us -> stable N vs.
Proof. intros H S (u & I & O). apply S. exists u. auto. Qed.

Lemma stable_tl N u us : stable N (u :: us) -> stable N us.
Proof. apply stable_sub. intros v I. right. exact I. Qed.

Definition total (us : list bunit) : Z := fold_right (fun u n => bu_size u + n) 0 us.
Fixpoint bs_pos (k : nat) (us : list (bunit * bool)) : list nat :=
  match us with
  | [] => []
  | (u, b) :: t => (if b then [k] else []) ++ bs_pos (k + length (expand u)) t
  end.

Ltac wf := cbn [w_state w_cidx w_real w_unit w_prev w_len w_off w_cur w_g w_sh w_store w_bs bind].

Lemma globals_reach N gd us gd' : gtrace g gd us gd' -> Forall unit_ok (map fst us) -> stable N (map fst us) ->
  forall prev unit real cidx len off cur sh store bs,
  (length store + length (flat_map expand (map fst us)) <= N)%nat ->
  exists prev' unit' real' cidx',
  reach (mkWD WGlobals prev unit real cidx len off cur gd sh store bs)
        (mkWD WSheets prev' unit' real' cidx' 0 (len + total (map fst us)) cur gd' sh
              (store ++ flat_map expand (map fst us)) (bs ++ bs_pos (length store) us)).
Proof.
  induction 1 as [gd b gd' E|gd u b gd1 us gd' E T IH]; intros F S prev unit real cidx len off cur sh store bs HN.
  - cbn [map flat_map total fold_right bs_pos]. rewrite !app_nil_r, Z.add_0_r. do 4 eexists.
    eapply reach_again; [|apply reach_refl]. unfold w_step. wf. rewrite E. wf. reflexivity.
  - cbn [map fst flat_map] in *. inversion F as [|? ? [Fb Fn] F']; subst.
    rewrite app_length in HN.
    edestruct (emit_reach (mkWD WGlobals prev unit real cidx len off cur gd sh store bs) WGlobals prev unit real cidx (len + bu_size u) off cur gd1 sh store
      (if b then bs ++ [length store] else bs) u) as (p1 & u1 & r1 & c1 & R1); auto.
    { intros O n Hn. apply S; [|lia]. exists u. split; [left; reflexivity|exact O]. }
    { unfold w_step. wf. rewrite E. wf. reflexivity. }
    cbn [hdr] in R1. rewrite Z.mul_0_l, Z.add_0_r in R1.
    edestruct (IH F' (stable_tl N _ _ S) p1 u1 r1 c1 (len + bu_size u) off cur sh (store ++ expand u)
       (if b then bs ++ [length store] else bs)) as (p2 & u2 & r2 & c2 & R2).
    { rewrite app_length. lia. }
    exists p2, u2, r2, c2. eapply reach_trans; [exact R1|].
    match goal with |- reach _ ?x => match type of R2 with reach _ ?y => replace x with y; [exact R2|] end end.
    f_equal.
    + cbn [total fold_right]. fold (total (map fst us)). lia.
    + rewrite app_assoc. reflexivity.
    + cbn [bs_pos]. rewrite app_length. destruct b; rewrite <- ?app_assoc; reflexivity.
Qed.

Lemma upd_nth_same {A} k (x : A) l : nth_error l k <> None -> nth_error (upd k x l) k = Some x.
Proof. revert l. induction k; intros [|a l] H; cbn in *; try congruence; auto. Qed.
Lemma upd_upd {A} k (x y : A) l : upd k y (upd k x l) = upd k y l.
Proof. revert l. induction k; intros [|a l]; cbn; auto. f_equal. apply IHk. Qed.
Lemma upd_len {A} k (x : A) l : length (upd k x l) = length l.
Proof. revert l. induction k; intros [|a l]; cbn; auto. Qed.
Lemma upd_same {A} k (x : A) l : nth_error l k = Some x -> upd k x l = l.
Proof. revert l. induction k; intros [|a l] H; cbn in *; try congruence. f_equal. apply IHk, H. Qed.

Lemma sadv_hdr u : sadv u = bu_size u + hdr WSheets * (if oversized u then nfull u - 1 else 0).
Proof. unfold sadv. cbn [hdr]. destruct (oversized u); lia. Qed.

Lemma sheet_reach N pos d us pos' d' : strace (g_labels g) ac sadv pos d us pos' d' -> Forall unit_ok us -> stable N us ->
  forall prev unit real cidx len off cur gd sh store bs,
  nth_error sh cur = Some d -> off + len = pos ->
  (length store + length (flat_map expand us) <= N)%nat ->
  exists prev' unit' real' cidx' len' dl,
  reach (mkWD WSheets prev unit real cidx len off cur gd sh store bs)
        (mkWD WSheets prev' unit' real' cidx' len' off cur gd (upd cur dl sh) (store ++ flat_map expand us) bs)
  /\ off + len' = pos' /\ sheet_dump_data (g_labels g) ac pos' dl = Ok (None, d').
Proof.
  induction 1 as [pos d d' E|pos d u d1 us pos' d' E T IH]; intros F S prev unit real cidx len off cur gd sh store bs Hd Hp HN.
  - exists prev, unit, real, cidx, len, d. cbn [flat_map]. rewrite app_nil_r, (upd_same _ _ _ Hd). repeat split; auto. apply reach_refl.
  - cbn [flat_map] in *. inversion F as [|? ? [Fb Fn] F']; subst. rewrite app_length in HN.
    edestruct (emit_reach (mkWD WSheets prev unit real cidx len off cur gd sh store bs) WSheets prev unit real cidx (len + bu_size u) off cur gd (upd cur d1 sh) store bs u)
      as (p1 & u1 & r1 & c1 & R1); auto.
    { intros O n Hn. apply S; [|lia]. exists u. split; [left; reflexivity|exact O]. }
    { unfold w_step. wf. rewrite Hd. rewrite E. wf. reflexivity. }
    edestruct (IH F' (stable_tl N _ _ S) p1 u1 r1 c1
       (len + bu_size u + hdr WSheets * (if oversized u then nfull u - 1 else 0)) off cur gd (upd cur d1 sh) (store ++ expand u) bs)
      as (p2 & u2 & r2 & c2 & l2 & dl & R2 & Hl & He).
    { apply upd_nth_same. rewrite Hd. discriminate. }
    { rewrite sadv_hdr. lia. }
    { rewrite app_length. lia. }
    exists p2, u2, r2, c2, l2, dl. split; [|auto]. eapply reach_trans; [exact R1|].
    rewrite upd_upd in R2. rewrite <- app_assoc in R2. exact R2.
Qed.

(* ------------------------------------------------------------------ *)
(** * All the sheets *)

Lemma patch_bs p q name A R : 
  patch_streampos (A ++ bu_bytes (bs_unit p name) :: R) (length A) q = A ++ bu_bytes (bs_unit q name) :: R.
Proof.
  unfold patch_streampos. rewrite nth_error_mid.
  assert (E : exists es, arun_ops (Some (bu_bytes (bs_unit p name))) [op_streampos q] = Ok (es, Some (bu_bytes (bs_unit q name)))).
  { unfold bs_unit, ubuild. unfold rec_bsheet. rewrite !build_rec by (unfold app_only; cbn; discriminate).
    cbn [bu_bytes]. unfold pl. cbn [appended op_bytes]. unfold op_streampos. cbn [arun_ops arun_op amap].
    set (c := le16 0 ++ ustr_bytes name LEN1 ++ []).
    pose proof (aset_bytes_piece (le16 RT_BOUNDSHEET ++ le16 (zlen (le32 p ++ c))) (le32 p) (le32 q) c NO_ERRORS 4
      (le32_ok q) eq_refl eq_refl ltac:(rewrite zlen_le32; lia)) as K.
    unfold frame. rewrite <- !app_assoc in K.
    destruct (aset_bytes NO_ERRORS (le32 q) 4 (le16 RT_BOUNDSHEET ++ le16 (zlen (le32 p ++ c)) ++ le32 p ++ c)) as [e l].
    cbn [snd] in K. subst l. cbn [bind]. eexists. reflexivity. }
  destruct E as [es ->].
  rewrite BufProofs.upd_split by (rewrite app_length; cbn [length]; lia).
  rewrite firstn_app, Nat.sub_diag, firstn_all, firstn_O, app_nil_r. f_equal. f_equal.
  rewrite skipn_app, skipn_all2 by lia. replace (S (length A) - length A)%nat with 1%nat by lia. reflexivity.
Qed.

(** Start positions of the sheets and all their units. *)
Fixpoint sheet_starts (pos : Z) (ss : list sheet) : list Z :=
  match ss with
  | [] => []
  | s :: t => pos :: sheet_starts (pos + adv_all sadv (sheet_units (g_labels g) ac pos s)) t
  end.
Fixpoint sheets_units (pos : Z) (ss : list sheet) : list bunit :=
  match ss with
  | [] => []
  | s :: t => let us := sheet_units (g_labels g) ac pos s in us ++ sheets_units (pos + adv_all sadv us) t
  end.
Definition bs_bytes (ps : list Z) (names : list (list Z)) : list (list Z) :=
  map (fun pn => bu_bytes (bs_unit (fst pn) (snd pn))) (combine ps names).

Definition sheet_ready (d : shdump) (s : sheet) : Prop :=
  e_state d = SInit /\ e_sheet d = s /\ d_rb (e_rb d) = RBInit.

Lemma combine_app {A B} (a a' : list A) : forall (b b' : list B), length a = length b ->
  combine (a ++ a') (b ++ b') = combine a b ++ combine a' b'.
Proof. induction a; intros [|y b] b' H; cbn in *; try lia; auto. f_equal. apply IHa. lia. Qed.
Lemma upd_mid {A} (a : list A) x y b : upd (length a) y (a ++ x :: b) = a ++ y :: b.
Proof. induction a; cbn; auto. f_equal. exact IHa. Qed.

Lemma sheets_reach N A C : forall todo tds names prev unit real cidx off gd dones dps dnames S0,
  todo <> [] -> Forall2 sheet_ready tds todo ->
  Forall (sheet_ok (g_labels g)) todo -> Forall unit_ok (sheets_units off todo) -> stable N (sheets_units off todo) ->
  length dones = length dps -> length dps = length dnames -> length names = length todo ->
  zlen (dones ++ tds) < 65536 ->
  (length A + length dnames + length names + length C + length S0 + length (flat_map expand (sheets_units off todo)) <= N)%nat ->
  exists prev' unit' real' cidx' len' off' cur' tds',
  reach (mkWD WSheets prev unit real cidx 0 off (length dones) gd (dones ++ tds)
           (A ++ bs_bytes dps dnames ++ map (fun n => bu_bytes (bs_unit 0 n)) names ++ C ++ S0)
           (seq (length A) (length (dones ++ tds))))
        (mkWD WFinish prev' unit' real' cidx' len' off' cur' gd (dones ++ tds')
           (A ++ bs_bytes (dps ++ sheet_starts off todo) (dnames ++ names) ++ C ++ S0 ++ flat_map expand (sheets_units off todo))
           (seq (length A) (length (dones ++ tds))))
  /\ Forall2 sheet_ready tds' (map sheet_after todo).
Proof.
  induction todo as [|s todo IH]; intros tds names prev unit real cidx off gd dones dps dnames S0 Hne F2 Fok Fu Hst L1 L2 L3 Hn HN; [congruence|].
  inversion F2 as [|d ? tds1 ? (Hd1 & Hd2 & Hd3) F2']; subst tds. subst. clear F2.
  inversion Fok as [|? ? Fs Fok']; subst. clear Fok.
  destruct names as [|nm names]; [discriminate|]. cbn [length] in L3.
  cbn [sheets_units] in *. set (us := sheet_units (g_labels g) ac off (e_sheet d)) in *.
  set (pos1 := off + adv_all sadv us) in *.
  apply Forall_app in Fu. destruct Fu as [Fu Fu'].
  assert (Hst1 : stable N us) by (eapply stable_sub; [|exact Hst]; intros v I; apply in_or_app; auto).
  assert (Hst2 : stable N (sheets_units pos1 todo)) by (eapply stable_sub; [|exact Hst]; intros v I; apply in_or_app; auto).
  rewrite flat_map_app, app_length in HN.
  destruct (sheet_trace (g_labels g) ac sadv sadv_small off d (e_sheet d) Hd1 eq_refl Hd3 Fs) as (d' & T & Q1 & Q2 & Q3).
  fold us in T. fold pos1 in T.
  set (st0 := A ++ bs_bytes dps dnames ++ map (fun n => bu_bytes (bs_unit 0 n)) (nm :: names) ++ C ++ S0).
  assert (Lbs : length (bs_bytes dps dnames) = length dps).
  { unfold bs_bytes. rewrite map_length, combine_length. lia. }
  edestruct (sheet_reach N off d us pos1 d' T Fu Hst1 prev unit real cidx 0 off (length dones) gd (dones ++ d :: tds1) st0
     (seq (length A) (length (dones ++ d :: tds1)))) as (p1 & u1 & r1 & c1 & l1 & dl & R1 & Hl1 & He).
  { apply nth_error_mid. } { lia. }
  { unfold st0. rewrite !app_length, Lbs, map_length. cbn [length] in *. lia. }
  rewrite upd_mid in R1.
  (* the end of this sheet *)
  assert (Hbs : nth_error (seq (length A) (length (dones ++ d :: tds1))) (length dones) = Some (length A + length dones)%nat).
  { rewrite nth_error_nth' with (d := 0%nat).
    - f_equal. apply seq_nth. rewrite app_length. cbn [length]. lia.
    - rewrite seq_length, app_length. cbn [length]. lia. }
  assert (Hpatch : patch_streampos (st0 ++ flat_map expand us) (length A + length dones) off =
     A ++ bs_bytes (dps ++ [off]) (dnames ++ [nm]) ++ map (fun n => bu_bytes (bs_unit 0 n)) names ++ C ++ S0 ++ flat_map expand us).
  { unfold st0. cbn [map]. rewrite <- !app_assoc. cbn [app].
    rewrite (app_assoc A). replace (length A + length dones)%nat with (length (A ++ bs_bytes dps dnames)) by (rewrite app_length; lia).
    rewrite patch_bs. unfold bs_bytes. rewrite combine_app by exact L2. rewrite map_app. cbn [combine map fst snd].
    rewrite <- !app_assoc. cbn [app]. reflexivity. }
  assert (Hstep : w_step moves g ac (mkWD WSheets p1 u1 r1 c1 l1 off (length dones) gd (dones ++ dl :: tds1) (st0 ++ flat_map expand us)
       (seq (length A) (length (dones ++ d :: tds1)))) =
     if Z.of_nat (length dones) + 1 <? zlen (dones ++ d' :: tds1) mod 65536
     then Ok (WAgain, mkWD WSheets p1 u1 r1 c1 0 (off + l1) (S (length dones)) gd (dones ++ d' :: tds1)
        (A ++ bs_bytes (dps ++ [off]) (dnames ++ [nm]) ++ map (fun n => bu_bytes (bs_unit 0 n)) names ++ C ++ S0 ++ flat_map expand us)
        (seq (length A) (length (dones ++ d :: tds1))))
     else Ok (WAgain, mkWD WFinish WSheets u1 r1 c1 l1 off (length dones) gd (dones ++ d' :: tds1)
        (A ++ bs_bytes (dps ++ [off]) (dnames ++ [nm]) ++ map (fun n => bu_bytes (bs_unit 0 n)) names ++ C ++ S0 ++ flat_map expand us)
        (seq (length A) (length (dones ++ d :: tds1))))).
  { unfold w_step. wf. rewrite nth_error_mid, Hl1, He. wf. rewrite Hbs, Hpatch, upd_mid.
    replace (zlen (dones ++ dl :: tds1)) with (zlen (dones ++ d' :: tds1)) by (rewrite !zlen_app, !zlen_cons; reflexivity).
    reflexivity. }
  assert (Hz : zlen (dones ++ d' :: tds1) mod 65536 = Z.of_nat (length dones) + 1 + zlen tds1).
  { rewrite zlen_app, zlen_cons in Hn. rewrite Z.mod_small; rewrite ?zlen_app, ?zlen_cons; unfold zlen in *; lia. }
  rewrite Hz in Hstep.
  destruct todo as [|s2 todo].
  - inversion F2'; subst. destruct names; [|cbn in L3; lia].
    change (zlen (@nil shdump)) with 0 in Hstep. replace (Z.of_nat (length dones) + 1 <? Z.of_nat (length dones) + 1 + 0) with false in Hstep by lia.
    cbn [sheets_units sheet_starts map flat_map app] in *.
    exists WSheets, u1, r1, c1, l1, off, (length dones), [d']. split.
    + eapply reach_trans; [exact R1|]. eapply reach_again; [exact Hstep|].
      rewrite !app_nil_r. apply reach_refl.
    + constructor; [|constructor]. repeat split; auto.
  - assert (Hlt : (Z.of_nat (length dones) + 1 <? Z.of_nat (length dones) + 1 + zlen tds1) = true).
    { inversion F2'; subst. rewrite zlen_cons. pose proof (zlen_nonneg _ l). lia. }
    rewrite Hlt in Hstep.
    edestruct (IH tds1 names p1 u1 r1 c1 pos1 gd (dones ++ [d']) (dps ++ [off]) (dnames ++ [nm]) (S0 ++ flat_map expand us))
      as (p2 & u2 & r2 & c2 & l2 & o2 & k2 & tds' & R2 & F3); auto; try discriminate.
    + rewrite !app_length. cbn. lia.
    + rewrite !app_length. cbn. lia.
    + rewrite <- app_assoc. cbn [app]. rewrite zlen_app, zlen_cons in *. lia.
    + rewrite !app_length. cbn [length]. cbn [length] in *. lia.
    + exists p2, u2, r2, c2, l2, o2, k2, (d' :: tds'). split.
      * eapply reach_trans; [exact R1|]. eapply reach_again; [exact Hstep|].
        rewrite <- !app_assoc in R2. cbn [app] in R2. rewrite !app_length in R2. cbn [length] in R2.
        rewrite Nat.add_1_r in R2. rewrite Hl1. cbn [sheet_starts]. fold us. fold pos1.
        rewrite !app_length. cbn [length]. rewrite flat_map_app. exact R2.
      * constructor; auto. repeat split; auto.
Qed.
End W.

(* ------------------------------------------------------------------ *)
(** * The whole stream *)

Definition names_of (g : globals) : list (list Z) := map bs_name (g_bs g).
(** Position at which the first sheet starts, as the machine counts it. *)
Definition g_size (g : globals) : Z :=
  total (g_head g) + total (map (fun n => bs_unit 0 n) (names_of g)) + total (g_tail g).
Definition book_store (g : globals) (ac : Z) (ss : list sheet) : list (list Z) :=
  flat_map expand (g_head g) ++ bs_bytes (sheet_starts g ac (g_size g) ss) (names_of g)
  ++ flat_map expand (g_tail g) ++ flat_map expand (sheets_units g ac (g_size g) ss).
Definition all_units (g : globals) (ac : Z) (ss : list sheet) : list bunit :=
  g_head g ++ g_tail g ++ sheets_units g ac (g_size g) ss.

(** What saving needs: the documented limits of the model. *)
Record book_ok (g : globals) (ac : Z) (ss : list sheet) : Prop := {
  bo_globals : globals_ok g;
  bo_names : Forall (fun b => zlen (bs_name b) <= 4108) (g_bs g);
  bo_len : length (g_bs g) = length ss;
  bo_ne : ss <> [];
  bo_count : zlen ss < 65536;
  bo_sheets : Forall (sheet_ok (g_labels g)) ss;
  bo_sizes : Forall (fun u => bu_size u < 538968000) (all_units g ac ss)
}.

Lemma total_app a b : total (a ++ b) = total a + total b.
Proof. induction a as [|u a IH]; [reflexivity|]. cbn [app total fold_right]. fold (total (a ++ b)) (total a). lia. Qed.
Lemma plain_fst us : map fst (plain us) = us.
Proof. unfold plain. rewrite map_map. cbn [fst]. apply map_id. Qed.
Lemma bs_units_fst l : map fst (bs_units l) = map (fun n => bs_unit 0 n) (map bs_name l).
Proof. unfold bs_units. rewrite !map_map. reflexivity. Qed.
Lemma bs_pos_plain us : forall k, bs_pos k (plain us) = [].
Proof. induction us as [|u t IH]; intro k; cbn [plain map bs_pos app]; [reflexivity|apply IH]. Qed.
Lemma bs_pos_app a b : forall k, bs_pos k (a ++ b) = bs_pos k a ++ bs_pos (k + length (flat_map expand (map fst a))) b.
Proof.
  induction a as [|[u x] t IH]; intro k; cbn [app bs_pos map flat_map length fst].
  - rewrite Nat.add_0_r. reflexivity.
  - rewrite IH, <- app_assoc, app_length. f_equal. f_equal. f_equal. lia.
Qed.
Lemma bs_unit_size p n : bu_size (bs_unit p n) = 10 + unicode_string_length n LEN1.
Proof.
  unfold bs_unit, ubuild, rec_bsheet. rewrite build_rec by (unfold app_only; cbn; discriminate).
  unfold bu_size, pl; cbn [bu_bytes appended op_bytes]. rewrite frame_length, !zlen_app, zlen_le32, zlen_le16.
  rewrite UnitProofs.unicode_length_ok. rewrite zlen_nil. lia.
Qed.
Lemma bs_unit_small p n : zlen n <= 4108 -> oversized (bs_unit p n) = false.
Proof.
  intro H. unfold oversized. rewrite bs_unit_size. unfold unicode_string_length. pose proof (zlen_nonneg _ n).
  replace (8224 <? _) with false; [apply andb_false_r|]. destruct (is_ascii n); lia.
Qed.
Lemma bs_expand ns : Forall (fun n => zlen n <= 4108) ns ->
  flat_map expand (map (fun n => bs_unit 0 n) ns) = map (fun n => bu_bytes (bs_unit 0 n)) ns.
Proof.
  induction 1 as [|n t H F IH]; [reflexivity|]. cbn [map flat_map]. unfold expand at 1. rewrite bs_unit_small by exact H.
  cbn [app]. f_equal. exact IH.
Qed.
Lemma bs_pos_bs l : Forall (fun b => zlen (bs_name b) <= 4108) l -> forall k, bs_pos k (bs_units l) = seq k (length l).
Proof.
  induction 1 as [|b t H F IH]; intro k; [reflexivity|]. cbn [bs_units map bs_pos length seq app]. f_equal.
  unfold expand. rewrite bs_unit_small by exact H. cbn [length]. rewrite Nat.add_1_r. apply IH.
Qed.

Lemma unit_ok_intro u : bytes_ok (bu_bytes u) -> bu_size u < 538968000 -> unit_ok u.
Proof. intros B H. split; auto. intros _. unfold nfull. apply Z.div_lt_upper_bound; lia. Qed.
Lemma ubuilds_bytes {A} (f : A -> list uop) l : Forall (fun u => bytes_ok (bu_bytes u)) (map (fun x => ubuild (f x)) l).
Proof. apply Forall_forall. intros u H. apply in_map_iff in H. destruct H as (x & <- & _). apply ubuild_bytes. Qed.
Ltac ub := repeat (apply Forall_app; split); repeat (apply Forall_cons; [apply ubuild_bytes|]); try apply Forall_nil; try apply ubuilds_bytes.
Lemma g_head_bytes g : Forall (fun u => bytes_ok (bu_bytes u)) (g_head g).
Proof. unfold g_head. ub. Qed.
Lemma g_tail_bytes g : Forall (fun u => bytes_ok (bu_bytes u)) (g_tail g).
Proof.
  unfold g_tail. ub.
  - destruct (noted_sheets _ _); ub.
  - destruct (g_labels g); ub.
Qed.
Lemma drawings_bytes ns sh c : forall i sp, Forall (fun u => bytes_ok (bu_bytes u)) (drawing_units ns sh c i sp).
Proof. induction ns; intros i sp; cbn [drawing_units]; ub. apply IHns. Qed.
Lemma frame_bytes t p : bytes_ok p -> bytes_ok (frame t p).
Proof. intro H. unfold frame. repeat (apply bytes_ok_app; split); auto; apply le16_ok. Qed.
Lemma block_bytes ls b : Forall (fun u => bytes_ok (bu_bytes u)) (block_units ls b).
Proof.
  unfold block_units. repeat (apply Forall_app; split).
  - apply Forall_forall. intros u H. apply in_map_iff in H. destruct H as (x & <- & _). cbn [bu_bytes row_unit].
    apply frame_bytes. unfold row_bytes. repeat (apply bytes_ok_app; split); apply le16_ok.
  - apply Forall_forall. intros u H. apply in_map_iff in H. destruct H as (x & <- & _). apply cu_bytes.
  - apply Forall_cons; [|apply Forall_nil]. unfold dbcell_unit. cbn [bu_bytes]. apply frame_bytes.
    apply bytes_ok_app. split; [apply le32_ok|]. unfold offs16. apply Forall_flat_map, Forall_forall. intros; apply le16_ok.
Qed.
Lemma sheet_bytes ls ac pos s : Forall (fun u => bytes_ok (bu_bytes u)) (sheet_units ls ac pos s).
Proof.
  unfold sheet_units, sheet_head, sheet_tail, index_unit. ub.
  - unfold sheet_body. destruct (sheet_blocks s); [|constructor]. apply Forall_flat_map, Forall_forall. intros; apply block_bytes.
  - apply drawings_bytes.
  - destruct (_ && _)%bool; ub.
  - destruct (sh_dvs s); ub.
Qed.
Lemma sheets_bytes g ac : forall ss pos, Forall (fun u => bytes_ok (bu_bytes u)) (sheets_units g ac pos ss).
Proof. induction ss; intro pos; cbn [sheets_units]; [constructor|]. apply Forall_app. split; [apply sheet_bytes|apply IHss]. Qed.
Lemma Forall_both {A} (P Q R : A -> Prop) l : (forall x, P x -> Q x -> R x) -> Forall P l -> Forall Q l -> Forall R l.
Proof. intros H F1 F2. rewrite Forall_forall in *. intros x I. apply H; auto. Qed.

Lemma Forall2_len {A B} (P : A -> B -> Prop) l m : Forall2 P l m -> length l = length m.
Proof. induction 1; cbn; auto. Qed.

Theorem book_run moves g ac ss prev unit real cidx len off cur gd sh :
  book_ok g ac ss -> gd_state gd = GInit -> Forall2 sheet_ready sh ss ->
  stable moves (length (book_store g ac ss)) (all_units g ac ss) ->
  exists f0 d', (forall f, (f0 <= f)%nat ->
     w_run f moves g ac (mkWD WInit prev unit real cidx len off cur gd sh [] []) = Some (Ok d'))
  /\ w_state d' = WInit /\ w_store d' = book_store g ac ss /\ gd_state (w_g d') = GInit
  /\ Forall2 sheet_ready (w_sh d') (map sheet_after ss).
Proof.
  intros B Eg F2 Hst. destruct B as [Bg Bn Bl Bne Bc Bs Bz].
  destruct (globals_trace g gd Eg Bg) as (gd' & T & Eg').
  set (N := length (book_store g ac ss)) in *.
  assert (Lst : length (sheet_starts g ac (g_size g) ss) = length ss).
  { clear. generalize (g_size g). induction ss; intro z; cbn [sheet_starts length]; auto. }
  assert (Lbs : length (bs_bytes (sheet_starts g ac (g_size g) ss) (names_of g)) = length ss).
  { unfold bs_bytes, names_of. rewrite map_length, combine_length, map_length. lia. }
  assert (HN : N = (length (flat_map expand (g_head g)) + length ss + length (flat_map expand (g_tail g)) +
      length (flat_map expand (sheets_units g ac (g_size g) ss)))%nat).
  { unfold N, book_store. rewrite !app_length, Lbs. lia. }
  assert (Bn' : Forall (fun n => zlen n <= 4108) (names_of g)).
  { unfold names_of. apply Forall_map. exact Bn. }
  assert (Hus : map fst (g_trace_units g) = g_head g ++ map (fun n => bs_unit 0 n) (names_of g) ++ g_tail g).
  { unfold g_trace_units. rewrite !map_app, !plain_fst, bs_units_fst. reflexivity. }
  unfold all_units in Bz. apply Forall_app in Bz. destruct Bz as [Bz1 Bz]. apply Forall_app in Bz. destruct Bz as [Bz2 Bz3].
  assert (Fu : Forall unit_ok (map fst (g_trace_units g))).
  { rewrite Hus. apply Forall_app; split; [|apply Forall_app; split].
    - eapply Forall_both; [apply unit_ok_intro|apply g_head_bytes|exact Bz1].
    - apply Forall_map. rewrite Forall_forall in *. intros n I. split; [apply ubuild_bytes|].
      rewrite bs_unit_small by (apply Bn'; exact I). discriminate.
    - eapply Forall_both; [apply unit_ok_intro|apply g_tail_bytes|exact Bz2]. }
  assert (Sg : stable moves N (map fst (g_trace_units g))).
  { intros (u & I & O). apply Hst. exists u. split; auto. rewrite Hus in I. unfold all_units.
    rewrite !in_app_iff in *. destruct I as [I|[I|I]]; auto.
    apply in_map_iff in I. destruct I as (n & <- & I). rewrite bs_unit_small in O; [discriminate|].
    rewrite Forall_forall in Bn'. auto. }
  assert (Hfm : flat_map expand (map fst (g_trace_units g)) = flat_map expand (g_head g) ++ map (fun n => bu_bytes (bs_unit 0 n)) (names_of g) ++ flat_map expand (g_tail g)).
  { rewrite Hus, !flat_map_app, bs_expand by exact Bn'. reflexivity. }
  assert (Lnm : length (names_of g) = length ss) by (unfold names_of; rewrite map_length; exact Bl).
  edestruct (globals_reach moves g ac N gd _ gd' T Fu Sg WInit unit real cidx 0 0 0%nat sh [] []) as (p1 & u1 & r1 & c1 & R1).
  { rewrite Hfm, !app_length, map_length, Lnm. cbn [length]. lia. }
  rewrite Hfm in R1. cbn [app length] in R1. rewrite Hus, !total_app, Z.add_0_l, Z.add_assoc in R1. fold (g_size g) in R1.
  assert (Hbp : bs_pos 0 (g_trace_units g) = seq (length (flat_map expand (g_head g))) (length ([] ++ sh))).
  { unfold g_trace_units. rewrite bs_pos_app, bs_pos_plain, bs_pos_app, plain_fst, bs_pos_plain, app_nil_r.
    cbn [app Nat.add]. rewrite bs_pos_bs by exact Bn. rewrite Bl. f_equal. symmetry. eapply Forall2_len; eauto. }
  rewrite Hbp in R1.
  edestruct (sheets_reach moves g ac N (flat_map expand (g_head g)) (flat_map expand (g_tail g)) ss sh (names_of g) p1 u1 r1 c1 (g_size g) gd' [] [] [] [])
    as (p2 & u2 & r2 & c2 & l2 & o2 & k2 & sh' & R2 & F3); auto.
  { eapply Forall_both; [apply unit_ok_intro|apply sheets_bytes|exact Bz3]. }
  { eapply stable_sub; [|exact Hst]. intros u I. unfold all_units. rewrite !in_app_iff. auto. }
  { cbn [app]. unfold zlen in *. rewrite (Forall2_len _ _ _ F2). exact Bc. }
  { cbn [length]. lia. }
  cbn [app length] in R2. unfold bs_bytes at 1 in R2. cbn [combine map app] in R2. rewrite !app_nil_r in R2.
  edestruct (reach_run moves g ac (mkWD WInit prev unit real cidx len off cur gd sh [] [])) as (f0 & Hf0).
  { eapply reach_again. { unfold w_step. cbn [w_state w_cidx w_real w_unit w_prev w_len w_off w_cur w_g w_sh w_store w_bs]. reflexivity. }
    eapply reach_trans; [exact R1|exact R2]. }
  { unfold w_step. cbn [w_state w_cidx w_real w_unit w_prev w_len w_off w_cur w_g w_sh w_store w_bs]. reflexivity. }
  exists f0. eexists. split; [exact Hf0|]. cbn [w_state w_store w_g w_sh]. repeat split; auto.
Qed.

(* ------------------------------------------------------------------ *)
(** * Estimating first changes nothing but the size cache *)

Definition sized (s : sheet) : sheet :=
  set_dumped s (sh_notes s) (sh_spid s) (match sh_cells s with [] => sh_calc s | _ => true end)
    (match sh_cells s with [] => sh_sizes s | _ => sblocks (sh_cells s) end).
Definition sheet_est (s : sheet) : Z :=
  let rb := rb_total (sblocks (sh_cells s)) in
  7 + zlen (sh_cols s) + zlen (sh_heights s) + zlen (sh_merged s) + zlen (sh_notes s) * 2
  + zlen (sblocks (sh_cells s)) + (16 * 256 * 2) / MAX_RECORD_SIZE + rb_rows rb + rb_cells rb + rb_cells rb.
Lemma sheet_estimate_ok s : cache_ok s -> sheet_estimate s = Ok (sheet_est s, sized s).
Proof.
  intro H. unfold sheet_estimate. cbv zeta. rewrite num_row_blocks_ok by exact H. cbn [bind]. unfold sheet_est, sized.
  destruct (sh_cells s); reflexivity.
Qed.
Definition sheets_est (ss : list sheet) : Z := fold_right (fun s n => sheet_est s + n) 0 ss.
Lemma sheets_estimate_ok ss : Forall cache_ok ss -> sheets_estimate ss = Ok (sheets_est ss, map sized ss).
Proof.
  induction 1 as [|s t H F IH]; [reflexivity|]. cbn [sheets_estimate]. rewrite sheet_estimate_ok by exact H. cbn [bind].
  rewrite IH. reflexivity.
Qed.
Lemma sized_units ls ac pos s : sheet_units ls ac pos (sized s) = sheet_units ls ac pos s.
Proof. reflexivity. Qed.
Lemma sized_after s : sheet_after (sized s) = sheet_after s.
Proof. unfold sheet_after, sized. destruct s as [? [|c t]]; reflexivity. Qed.
Lemma sized_ok ls s : sheet_ok ls s -> sheet_ok ls (sized s).
Proof.
  intros (A & B & C & D). repeat split; auto. unfold cache_ok, sized in *. cbn [sh_calc sh_sizes sh_cells set_dumped].
  destruct (sh_cells s) eqn:E; [exact D|]. right. repeat split; discriminate.
Qed.
Lemma sized_starts g ac ss : forall pos, sheet_starts g ac pos (map sized ss) = sheet_starts g ac pos ss.
Proof. induction ss as [|s t IH]; intro pos; [reflexivity|]. cbn [map sheet_starts]. rewrite sized_units, IH. reflexivity. Qed.
Lemma sized_all g ac ss : forall pos, sheets_units g ac pos (map sized ss) = sheets_units g ac pos ss.
Proof. induction ss as [|s t IH]; intro pos; [reflexivity|]. cbn [map sheets_units]. rewrite sized_units, IH. reflexivity. Qed.

Definition book_est (b : book) : Z := sheets_est (bk_sheets b) + globals_estimate (bk_g b) + 1000.
Definition bactive (b : book) : Z := w1_active (g_w1 (bk_g b)).
Theorem book_units_ok moves b :
  book_ok (bk_g b) (bactive b) (bk_sheets b) ->
  stable (moves (book_est b)) (length (book_store (bk_g b) (bactive b) (bk_sheets b))) (all_units (bk_g b) (bactive b) (bk_sheets b)) ->
  exists f0, forall f, (f0 <= f)%nat ->
    book_units f moves b = Some (Ok (book_store (bk_g b) (bactive b) (bk_sheets b), map sheet_after (bk_sheets b))).
Proof.
  intros B S. destruct b as [g ss]. cbn [bk_g bk_sheets bactive] in *. unfold bactive in *. cbn [bk_g bk_sheets] in *.
  unfold book_units. cbn [bk_g bk_sheets].
  assert (Fc : Forall cache_ok ss).
  { eapply Forall_impl; [|apply (bo_sheets _ _ _ B)]. intros s H. apply H. }
  rewrite sheets_estimate_ok by exact Fc. fold (book_est (mkBook g ss)).
  change (sheets_est ss + globals_estimate g + 1000) with (book_est (mkBook g ss)).
  assert (Hs : book_store g (w1_active (g_w1 g)) (map sized ss) = book_store g (w1_active (g_w1 g)) ss).
  { unfold book_store. rewrite sized_starts, sized_all. reflexivity. }
  assert (Ha : all_units g (w1_active (g_w1 g)) (map sized ss) = all_units g (w1_active (g_w1 g)) ss).
  { unfold all_units. rewrite sized_all. reflexivity. }
  assert (B' : book_ok g (w1_active (g_w1 g)) (map sized ss)).
  { destruct B as [B1 B2 B3 B4 B5 B6 B7]. constructor; auto.
    - rewrite map_length. exact B3.
    - destruct ss; [congruence|discriminate].
    - rewrite zlen_map. exact B5.
    - apply Forall_map. eapply Forall_impl; [|exact B6]. intros s. apply sized_ok.
    - rewrite Ha. exact B7. }
  edestruct (book_run (moves (book_est (mkBook g ss))) g (w1_active (g_w1 g)) (map sized ss) WFinish [] 0 0 0 0 0%nat gd_new (map sd_new (map sized ss)))
    as (f0 & d' & Hr & H1 & H2 & H3 & H4); auto.
  { clear. induction ss; cbn [map]; constructor; auto. repeat split. }
  { rewrite Hs, Ha. exact S. }
  exists f0. intros f Hf. unfold wd_new. rewrite (Hr f Hf). rewrite H2, Hs. do 3 f_equal.
  rewrite map_map in H4. clear - H4. revert H4. generalize (w_sh d').
  induction ss as [|s t IH]; intros l H; inversion H as [|d ? ? ? (Q1 & Q2 & Q3) F]; subst; [reflexivity|].
  cbn [map]. rewrite Q2, sized_after. f_equal. apply IH. assumption.
Qed.
