(** Record constructors leave a framed byte string: type, length, payload. *)
From Coq Require Import ZArith List Bool Lia.
From Coq Require Import ZifyBool ZifyNat.
From Verif Require Import Bytes UnitModel UnitProofs SpecBuf BufProofs RecModel SheetModel.
Import ListNotations.
Local Open Scope Z_scope.
Ltac Zify.zify_post_hook ::= Z.div_mod_to_equations.

(** Bytes an appending operation adds. *)
Definition op_bytes (o : uop) : option (list Z) :=
  match o with
  | OAdd8 v => Some [byte_k 0 v]
  | OAdd16 v => Some (le16 v)
  | OAdd32 v => Some (le32 v)
  | OAdd64 v => Some (le64 v)
  | OArray x | OAppend x => Some (map (byte_k 0) x)
  | OFixed v n => Some (repeat (byte_k 0 v) (Z.to_nat n))
  | OStr s f => Some (ustr_bytes s f)
  | _ => None
  end.
Fixpoint appended (ops : list uop) : option (list Z) :=
  match ops with
  | [] => Some []
  | o :: t => match op_bytes o, appended t with
              | Some a, Some b => Some (a ++ b)
              | _, _ => None
              end
  end.

(** A framed record. *)
Definition frame (t : Z) (p : list Z) : list Z := le16 t ++ le16 (zlen p) ++ p.
Definition frame_all (rs : list (Z * list Z)) : list Z := flat_map (fun r => frame (fst r) (snd r)) rs.

Lemma frame_length t p : zlen (frame t p) = 4 + zlen p.
Proof. unfold frame. rewrite !zlen_app, !zlen_le16. lia. Qed.
Lemma frame_all_app a b : frame_all (a ++ b) = frame_all a ++ frame_all b.
Proof. apply flat_map_app. Qed.
Lemma frame_all_cons r b : frame_all (r :: b) = frame (fst r) (snd r) ++ frame_all b.
Proof. reflexivity. Qed.

Lemma arun_op_append o b l : op_bytes o = Some b -> arun_op (Some l) o = Ok (NO_ERRORS, Some (l ++ b)).
Proof. destruct o; cbn [op_bytes]; intro H; inversion H; subst; reflexivity. Qed.

Lemma aset8_app_r v i h l : zlen h <= i < 4294967296 ->
  aset8 v i (h ++ l) = (fst (aset8 v (i - zlen h) l), h ++ snd (aset8 v (i - zlen h) l)).
Proof.
  intro Hi. unfold aset8. change (2 ^ 32) with 4294967296. pose proof (zlen_nonneg _ h).
  rewrite !Z.mod_small by lia. rewrite zlen_app.
  destruct (Z.ltb_spec i (zlen h + zlen l)); destruct (Z.ltb_spec (i - zlen h) (zlen l)); try lia; cbn [fst snd].
  - rewrite upd_app_r by (unfold zlen in *; lia). f_equal. f_equal. f_equal. unfold zlen in *. lia.
  - reflexivity.
Qed.

Lemma aset_bytes_app_r bs : forall e i h l, zlen h <= i -> i + zlen bs <= 4294967296 ->
  aset_bytes e bs i (h ++ l) =
  (fst (aset_bytes e bs (i - zlen h) l), h ++ snd (aset_bytes e bs (i - zlen h) l)).
Proof.
  induction bs as [|b t IH]; intros e i h l Hi Hl; cbn [aset_bytes]; [reflexivity|].
  rewrite zlen_cons in Hl. pose proof (zlen_nonneg _ t).
  rewrite aset8_app_r by lia. destruct (aset8 b (i - zlen h) l) as [e1 l1]. cbn [fst snd].
  rewrite IH by lia. replace (i + 1 - zlen h) with (i - zlen h + 1) by lia. reflexivity.
Qed.

Lemma aset_bytes_len bs : forall e i l, zlen (snd (aset_bytes e bs i l)) = zlen l.
Proof.
  induction bs as [|b t IH]; intros e i l; cbn [aset_bytes]; [reflexivity|].
  destruct (aset8 b i l) as [e1 l1] eqn:E. rewrite IH. unfold aset8 in E.
  destruct (_ <? zlen l); inversion E; subst; auto. unfold zlen. rewrite upd_length. reflexivity.
Qed.

(** Overwriting exactly an existing piece. *)
Lemma aset_bytes_piece a old bs c e i : bytes_ok bs -> length old = length bs -> i = zlen a ->
  i + zlen bs <= 4294967296 ->
  snd (aset_bytes e bs i (a ++ old ++ c)) = a ++ bs ++ c.
Proof.
  intros Hb Hl -> Hz. rewrite aset_overwrite; auto; [|apply zlen_nonneg].
  rewrite overwrite_spec by (rewrite !app_length; unfold zlen; lia).
  unfold zlen. rewrite Nat2Z.id. rewrite firstn_app, Nat.sub_diag, firstn_all, firstn_O, app_nil_r.
  f_equal. rewrite skipn_app. rewrite (skipn_all2 a) by lia. cbn [app].
  replace (length a + length bs - length a)%nat with (length bs) by lia.
  rewrite <- Hl, skipn_app, skipn_all, Nat.sub_diag. reflexivity.
Qed.

(** The header and payload of the record under construction. *)
Definition hst := (Z * Z * list Z)%type.
Definition hbytes (h : hst) : list Z := let '(t, l, p) := h in le16 t ++ le16 l ++ p.
Definition hset (bs : list Z) (i : Z) (h : hst) : option hst :=
  let '(t, l, p) := h in
  if ((4 <=? i) && (i <? 4294967280))%bool
  then Some (t, l, snd (aset_bytes NO_ERRORS bs (i - 4) p)) else None.
Definition hstep (h : hst) (o : uop) : option hst :=
  let '(t, l, p) := h in
  match op_bytes o with
  | Some b => Some (t, l, p ++ b)
  | None =>
      match o with
      | OSet16 v i => if i =? 0 then Some (v, l, p) else if i =? 2 then Some (t, v, p)
                      else hset (le16 v) i h
      | OSet32 v i => hset (le32 v) i h
      | OSetSz16 i base => if i =? 2 then Some (t, 4 + zlen p - base, p)
                           else hset (le16 (4 + zlen p - base)) i h
      | OInflate n => if ((0 <? n) && (4 + zlen p <=? n))%bool then Some h else None
      | _ => None
      end
  end.
Fixpoint hrun (h : hst) (ops : list uop) : option hst :=
  match ops with
  | [] => Some h
  | o :: t => match hstep h o with Some h' => hrun h' t | None => None end
  end.

Lemma byte_k0_byte v k : 0 <= k -> byte_k 0 (byte_k k v) = byte_k k v.
Proof. intro. apply byte_k_small, byte_k_byte; auto. Qed.

Lemma aset16_0 v t l p : aset_bytes NO_ERRORS (le16 v) 0 (le16 t ++ l ++ p) = (NO_ERRORS, le16 v ++ l ++ p).
Proof.
  unfold le16. cbn [aset_bytes]. unfold aset8. change (2 ^ 32) with 4294967296. rewrite Z.mod_small by lia.
  cbn [app]. rewrite !zlen_cons. pose proof (zlen_nonneg _ (l ++ p)).
  destruct (Z.ltb_spec 0 (zlen (l ++ p) + 1 + 1)); [|lia]. change (Z.to_nat 0) with 0%nat. cbn [upd].
  rewrite Z.eqb_refl. rewrite Z.mod_small by lia. rewrite !zlen_cons.
  destruct (Z.ltb_spec (0 + 1) (zlen (l ++ p) + 1 + 1)); [|lia]. change (Z.to_nat (0 + 1)) with 1%nat. cbn [upd].
  rewrite Z.eqb_refl. rewrite !byte_k0_byte by lia. reflexivity.
Qed.
Lemma aset16_2 v t l p : aset_bytes NO_ERRORS (le16 v) 2 (le16 t ++ le16 l ++ p) = (NO_ERRORS, le16 t ++ le16 v ++ p).
Proof.
  rewrite aset_bytes_app_r by (rewrite ?zlen_le16; lia). rewrite zlen_le16. change (2 - 2) with 0.
  pose proof (aset16_0 v l [] p) as H. cbn [app] in H. rewrite H. reflexivity.
Qed.

Lemma hstep_ok h o h' : hstep h o = Some h' ->
  exists e, arun_op (Some (hbytes h)) o = Ok (e, Some (hbytes h')).
Proof.
  destruct h as [[t l] p]. unfold hstep. destruct (op_bytes o) as [b|] eqn:Eb.
  - intro H; inversion H; subst; clear H. exists NO_ERRORS. rewrite (arun_op_append _ _ _ Eb).
    unfold hbytes. rewrite <- !app_assoc. reflexivity.
  - assert (G : forall bs i h', zlen bs <= 4 -> hset bs i (t, l, p) = Some h' ->
        exists e, aset_bytes NO_ERRORS bs i (le16 t ++ le16 l ++ p) = (e, hbytes h')).
    { intros bs i h2 Hb H. unfold hset in H.
      destruct ((4 <=? i) && (i <? 4294967280))%bool eqn:E; [|discriminate]. inversion H; subst; clear H.
      exists (fst (aset_bytes NO_ERRORS bs (i - 4) p)). unfold hbytes.
      rewrite app_assoc. rewrite aset_bytes_app_r by (rewrite ?zlen_app, ?zlen_le16; lia).
      rewrite zlen_app, !zlen_le16. change (2 + 2) with 4. rewrite <- app_assoc. reflexivity. }
    assert (Z4 : zlen (hbytes (t, l, p)) = 4 + zlen p).
    { unfold hbytes. rewrite !zlen_app, !zlen_le16. lia. }
    destruct o; cbn [op_bytes] in Eb; try discriminate; cbn [arun_op amap].
    + destruct (Z.eqb_spec i 0) as [->|].
      * intro H; inversion H; subst; clear H. unfold hbytes. rewrite aset16_0. eauto.
      * destruct (Z.eqb_spec i 2) as [->|].
        -- intro H; inversion H; subst; clear H. unfold hbytes. rewrite aset16_2. eauto.
        -- intro H. apply G in H; [|rewrite zlen_le16; lia]. destruct H as [e H]. exists e. unfold hbytes at 1.
           rewrite H. reflexivity.
    + intro H. apply G in H; [|rewrite zlen_le32; lia]. destruct H as [e H]. exists e. unfold hbytes at 1.
      rewrite H. reflexivity.
    + destruct ((0 <? n) && (4 + zlen p <=? n))%bool eqn:E; [|discriminate].
      intro H; inversion H; subst; clear H. rewrite Z4, E. eauto.
    + rewrite Z4. destruct (Z.eqb_spec pos 2) as [->|].
      * intro H; inversion H; subst; clear H. unfold hbytes. rewrite aset16_2. eauto.
      * intro H. apply G in H; [|rewrite zlen_le16; lia]. destruct H as [e H]. exists e. unfold hbytes at 1.
        rewrite H. reflexivity.
Qed.

Lemma hrun_ok ops : forall h h', hrun h ops = Some h' ->
  exists es, arun_ops (Some (hbytes h)) ops = Ok (es, Some (hbytes h')).
Proof.
  induction ops as [|o t IH]; intros h h' H; cbn [hrun] in H.
  - inversion H; subst. exists []. reflexivity.
  - destruct (hstep h o) as [h1|] eqn:E; [|discriminate]. destruct (hstep_ok _ _ _ E) as [e Ee].
    destruct (IH _ _ H) as [es Es]. cbn [arun_ops bind]. rewrite Ee. cbn [bind]. rewrite Es. cbn [bind]. eauto.
Qed.

Lemma hrun_app a : forall h b, hrun h (a ++ b) = match hrun h a with Some h' => hrun h' b | None => None end.
Proof. induction a as [|o t IH]; intros h b; cbn [hrun app]; [reflexivity|]. destruct (hstep h o); auto. Qed.

Lemma hrun_appended ops : forall t l p b, appended ops = Some b -> hrun (t, l, p) ops = Some (t, l, p ++ b).
Proof.
  induction ops as [|o ops IH]; intros t l p b H; cbn [appended] in H.
  - inversion H; subst. cbn [hrun]. rewrite app_nil_r. reflexivity.
  - destruct (op_bytes o) as [x|] eqn:Eo; [|discriminate]. destruct (appended ops) as [y|]; [|discriminate].
    inversion H; subst; clear H. cbn [hrun]. unfold hstep. rewrite Eo. rewrite (IH _ _ _ y) by reflexivity.
    rewrite <- app_assoc. reflexivity.
Qed.

(** Constructors: rec_new first, then anything the header view follows. *)
Lemma build_hrun ops t l p : hrun (0, 0, []) ops = Some (t, l, p) ->
  build (rec_new :: ops) = Ok (mkBU (le16 t ++ le16 l ++ p) false).
Proof.
  intro H. unfold build. cbn [arun_ops rec_new arun_op bind app].
  change (map (byte_k 0) [0; 0; 0; 0]) with (hbytes (0, 0, [])).
  destruct (hrun_ok _ _ _ H) as [es E]. rewrite E. reflexivity.
Qed.
Lemma build_frame ops t p : hrun (0, 0, []) ops = Some (t, zlen p, p) ->
  build (rec_new :: ops) = Ok (mkBU (frame t p) false).
Proof. intro H. rewrite (build_hrun _ _ _ _ H). reflexivity. Qed.

Lemma le16_mod v : le16 (v mod 65536) = le16 v.
Proof. unfold le16. rewrite !byte_k0, !byte_k1. f_equal; [|f_equal]; lia. Qed.

(** hstep of the two header operations. *)
Lemma hstep_set_type t0 l p t : hstep (t0, l, p) (set_type t) = Some (t, l, p).
Proof. reflexivity. Qed.
Lemma hstep_set_len t l p : hstep (t, l, p) set_len = Some (t, zlen p, p).
Proof. unfold hstep, set_len. cbn [op_bytes Z.eqb]. rewrite Z.add_comm, Z.add_simpl_r. reflexivity. Qed.

Lemma build_record t body p : appended body = Some p ->
  build (record t body) = Ok (mkBU (frame t p) false).
Proof.
  intro H. unfold record. apply build_frame. cbn [hrun]. rewrite hstep_set_type, hrun_app.
  rewrite (hrun_appended _ _ _ _ _ H). cbn [hrun app]. rewrite hstep_set_len. reflexivity.
Qed.

(** One frame: appended bytes, with at most header patches in between. *)
Lemma appended_app a b x y : appended a = Some x -> appended b = Some y -> appended (a ++ b) = Some (x ++ y).
Proof.
  revert x. induction a as [|o t IH]; intros x Ha Hb; cbn [appended app] in *.
  - inversion Ha; subst. auto.
  - destruct (op_bytes o); [|discriminate]. destruct (appended t); [|discriminate]. inversion Ha; subst.
    rewrite (IH l0) by auto. rewrite <- app_assoc. reflexivity.
Qed.
Lemma appended_flat {A} (f : A -> list uop) (g : A -> list Z) l :
  (forall x, appended (f x) = Some (g x)) -> appended (flat_map f l) = Some (flat_map g l).
Proof.
  intro H. induction l as [|x t IH]; cbn [flat_map]; [reflexivity|]. apply appended_app; auto.
Qed.
Lemma appended_map {A} (f : A -> uop) (g : A -> list Z) l :
  (forall x, op_bytes (f x) = Some (g x)) -> appended (map f l) = Some (flat_map g l).
Proof.
  intro H. induction l as [|x t IH]; cbn [flat_map map appended]; [reflexivity|]. rewrite H, IH. reflexivity.
Qed.
