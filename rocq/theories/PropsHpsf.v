(** C30: document properties round-trip. *)
From Coq Require Import ZArith List Bool Lia ZifyBool ZifyNat Sorted.
From Verif Require Import Bytes UnitModel SpecBuf UnitProofs BufProofs HpsfModel SpecHpsf SpecCFB OleModel PropsOle.
Import ListNotations.
Local Open Scope Z_scope.
Local Notation cut := SpecHpsf.cut.

(* ------------------------------------------------------------------ *)
(** * The sets *)

Definition canon (f : Z -> option hvalue) (l : list Z) : list hitem :=
  flat_map (fun i => match f i with Some v => [mkItem i v] | None => [] end) l.
Definition update (f : Z -> option hvalue) (id : Z) (v : hvalue) (i : Z) : option hvalue := if i =? id then Some v else f i.
Fixpoint increasing (l : list Z) : Prop := match l with [] => True | x :: t => (forall y, In y t -> x < y) /\ increasing t end.
Lemma canon_ids f l x : In x (canon f l) -> In (hi_id x) l.
Proof. intro H. apply in_flat_map in H. destruct H as (i & J & H). destruct (f i); [|contradiction]. destruct H as [<-|[]]. exact J. Qed.
Lemma canon_ext f g l : (forall i, In i l -> f i = g i) -> canon f l = canon g l.
Proof. induction l as [|i t IH]; intro H; [reflexivity|]. unfold canon in *. cbn [flat_map]. rewrite (H i (or_introl eq_refl)), IH; [reflexivity|]. intros j J. apply H. right. exact J. Qed.
Lemma canon_cons f i t : canon f (i :: t) = match f i with Some v => [mkItem i v] | None => [] end ++ canon f t.
Proof. reflexivity. Qed.
Lemma erase_other id l : (forall x, In x l -> hi_id x <> id) -> set_erase id l = l.
Proof.
  induction l as [|x t IH]; intro H; [reflexivity|]. unfold set_erase in *. cbn [filter]. pose proof (H x (or_introl eq_refl)). replace (hi_id x =? id) with false by lia. cbn [negb].
  rewrite IH; [reflexivity|]. intros y J. apply H. right. exact J.
Qed.
Lemma insert_front x l : (forall y, In y l -> hi_id x < hi_id y) -> set_insert x l = (x :: l, true).
Proof. intro H. destruct l as [|y t]; [reflexivity|]. cbn [set_insert]. pose proof (H y (or_introl eq_refl)). replace (hi_id x <? hi_id y) with true by lia. reflexivity. Qed.
Lemma hp_insert_front x l : (forall y, In y l -> hi_id x < hi_id y) -> hp_insert x l = x :: l.
Proof. intro H. unfold hp_insert. rewrite insert_front by exact H. reflexivity. Qed.
Lemma hp_insert_same x y t : hi_id x = hi_id y -> (forall z, In z t -> hi_id x < hi_id z) -> hp_insert x (y :: t) = x :: t.
Proof.
  intros E H. unfold hp_insert. cbn [set_insert]. replace (hi_id x <? hi_id y) with false by lia. replace (hi_id y <? hi_id x) with false by lia.
  unfold set_erase. cbn [filter]. replace (hi_id y =? hi_id x) with true by lia. cbn [negb]. fold (set_erase (hi_id x) t). rewrite erase_other by (intros z J; specialize (H z J); lia).
  rewrite insert_front by exact H. reflexivity.
Qed.
Lemma hp_insert_behind x y t : hi_id y < hi_id x -> hp_insert x (y :: t) = y :: hp_insert x t.
Proof.
  intro H. unfold hp_insert. cbn [set_insert]. replace (hi_id x <? hi_id y) with false by lia. replace (hi_id y <? hi_id x) with true by lia.
  destruct (set_insert x t) as [t' [|]]; [reflexivity|]. unfold set_erase. cbn [filter]. replace (hi_id y =? hi_id x) with false by lia. cbn [negb set_insert].
  replace (hi_id x <? hi_id y) with false by lia. replace (hi_id y <? hi_id x) with true by lia. fold (set_erase (hi_id x) t). destruct (set_insert x (set_erase (hi_id x) t)). reflexivity.
Qed.
Lemma insert_canon f id v : forall l, increasing l -> In id l -> hp_insert (mkItem id v) (canon f l) = canon (update f id v) l.
Proof.
  induction l as [|i t IH]; intros S J; [contradiction|]. destruct S as [S1 S2]. rewrite !canon_cons.
  destruct (Z.eq_dec i id) as [->|N].
  - assert (E : canon (update f id v) t = canon f t) by (apply canon_ext; intros j Jj; unfold update; specialize (S1 j Jj); replace (j =? id) with false by lia; reflexivity).
    rewrite E. unfold update at 1. rewrite Z.eqb_refl. assert (B : forall z, In z (canon f t) -> hi_id (mkItem id v) < hi_id z) by (intros z Jz; apply S1; apply (canon_ids f); exact Jz).
    destruct (f id) as [w|]; cbn [app]; [apply hp_insert_same; [reflexivity|exact B]|apply hp_insert_front; exact B].
  - destruct J as [J|J]; [contradiction|]. unfold update at 1. replace (i =? id) with false by lia. specialize (S1 id J).
    destruct (f i) as [w|]; cbn [app]; [rewrite hp_insert_behind by (cbn [hi_id]; exact S1); rewrite IH by assumption; reflexivity|apply IH; assumption].
Qed.
Definition ids : list Z := map Z.of_nat (seq 1 19).
Lemma seq_increasing : forall n k, increasing (map Z.of_nat (seq k n)).
Proof.
  induction n as [|n IH]; intro k; [exact I|]. cbn [seq map increasing]. split; [|apply IH].
  intros y J. apply in_map_iff in J. destruct J as (m & <- & J). apply in_seq in J. lia.
Qed.
Lemma ids_increasing : increasing ids.
Proof. apply seq_increasing. Qed.
Lemma ids_in i : 1 <= i <= 19 -> In i ids.
Proof. intro H. unfold ids. apply in_map_iff. exists (Z.to_nat i). split; [lia|]. apply in_seq. lia. Qed.

(** The model's values for those of the specification. *)
Definition hv (v : pvalue) : hvalue := match v with PText s => HStr s | PInt16 n => HInt16 n | PInt32 n => HInt32 n | PBool b => HBool b | PTime t => HInt64 t end.
Definition set_of (d : pset) (st : props) : list hitem := match d with Summary => pr_sum st | DocSummary => pr_doc st end.
Definition run_props (now : Z) (calls : list pcall) : props := fold_left (fun st q => snd (wb_property st (fst q) (snd q))) calls (props_new now).
Definition pcall_typed (q : pcall) : Prop := 0 <= fst q < 4294967296 /\ Forall (fun b => 0 <= b < 256) (snd q).

Lemma place_table p : 0 <= p < 11 -> match place_of p with
  | Some (Summary, i) => nth (Z.to_nat p) property2summary 0 = i /\ 1 <= i <= 19
  | Some (DocSummary, i) => nth (Z.to_nat p) property2summary 0 <= 0 /\ nth (Z.to_nat p) property2docsummary 0 = i /\ 1 <= i <= 19
  | None => nth (Z.to_nat p) property2summary 0 <= 0 /\ nth (Z.to_nat p) property2docsummary 0 <= 0
  end.
Proof.
  intro H. assert (E : p = 0 \/ p = 1 \/ p = 2 \/ p = 3 \/ p = 4 \/ p = 5 \/ p = 6 \/ p = 7 \/ p = 8 \/ p = 9 \/ p = 10) by lia.
  destruct E as [->|[->|[->|[->|[->|[->|[->|[->|[->|[->| ->]]]]]]]]]]; cbv; repeat split; congruence.
Qed.
Lemma place_beyond p : 11 <= p -> place_of p = None.
Proof. intro H. unfold place_of. apply nth_overflow. cbn [length]. lia. Qed.
Lemma no_place (q : pcall) d : place_of (fst q) = None -> forall id, at_place d id (fst q) = false.
Proof. intros H id. unfold at_place. rewrite H. reflexivity. Qed.

Lemma unix_time now : 0 <= now < 1099511627776 -> unix2mstime now = (now + 11644473600) * 10000000.
Proof. intro H. unfold unix2mstime. rewrite (Z.mod_small (now * 1000000 + 11644473600000000)) by lia. rewrite Z.mod_small by lia. lia. Qed.
Lemma value_snoc now calls q d id : value_of now (calls ++ [q]) d id = if at_place d id (fst q) then Some (PText (snd q)) else value_of now calls d id.
Proof. unfold value_of. rewrite fold_left_app. reflexivity. Qed.
Lemma add_at l key v f : 1 <= key <= 19 -> l = canon f ids -> add_item l key v = canon (update f key v) ids.
Proof. intros B ->. unfold add_item. rewrite Z.mod_small by lia. apply insert_canon; [exact ids_increasing|apply ids_in; exact B]. Qed.
Lemma run_snoc now calls q : run_props now (calls ++ [q]) = snd (wb_property (run_props now calls) (fst q) (snd q)).
Proof. unfold run_props. rewrite fold_left_app. reflexivity. Qed.
Lemma props_sets now : 0 <= now < 1099511627776 -> forall calls, Forall pcall_typed calls -> forall d,
  set_of d (run_props now calls) = canon (fun i => option_map hv (value_of now calls d i)) ids.
Proof.
  intros B calls. induction calls as [|q calls IH] using rev_ind; intros T d.
  - unfold run_props. cbn [fold_left]. unfold props_new. rewrite (unix_time now B). destruct d; reflexivity.
  - apply Forall_app in T. destruct T as [T Tq]. inversion Tq as [|? ? [Tp _] _]; subst. rewrite run_snoc.
    specialize (IH T). remember (run_props now calls) as st. unfold wb_property, PROP_LAST. destruct (11 <=? fst q) eqn:E.
    + cbn [snd]. rewrite IH. apply canon_ext. intros i _. rewrite value_snoc, no_place by (apply place_beyond; lia). reflexivity.
    + pose proof (place_table (fst q) ltac:(lia)) as P. destruct (place_of (fst q)) as [[[|] i]|] eqn:Pl.
      * destruct P as [Ps Pi]. rewrite Ps. replace (0 <? i) with true by lia. cbn [snd]. destruct d; cbn [set_of pr_sum pr_doc].
        -- rewrite (add_at (pr_sum st) i (HStr (snd q)) _ Pi (IH Summary)). apply canon_ext. intros j _. unfold update. rewrite value_snoc. unfold at_place. rewrite Pl. cbn [set_eqb andb]. rewrite (Z.eqb_sym i j). destruct (j =? i); reflexivity.
        -- change (pr_doc st) with (set_of DocSummary st). rewrite IH. apply canon_ext. intros j _. rewrite value_snoc. unfold at_place. rewrite Pl. reflexivity.
      * destruct P as (Ps & Pd & Pi). replace (0 <? nth (Z.to_nat (fst q)) property2summary 0) with false by lia. rewrite Pd. replace (0 <? i) with true by lia. cbn [snd]. destruct d; cbn [set_of pr_sum pr_doc].
        -- change (pr_sum st) with (set_of Summary st). rewrite IH. apply canon_ext. intros j _. rewrite value_snoc. unfold at_place. rewrite Pl. reflexivity.
        -- rewrite (add_at (pr_doc st) i (HStr (snd q)) _ Pi (IH DocSummary)). apply canon_ext. intros j _. unfold update. rewrite value_snoc. unfold at_place. rewrite Pl. cbn [set_eqb andb]. rewrite (Z.eqb_sym i j). destruct (j =? i); reflexivity.
      * destruct P as [Ps Pd]. replace (0 <? nth (Z.to_nat (fst q)) property2summary 0) with false by lia. replace (0 <? nth (Z.to_nat (fst q)) property2docsummary 0) with false by lia. cbn [snd].
        rewrite IH. apply canon_ext. intros j _. rewrite value_snoc, no_place by exact Pl. reflexivity.
Qed.
Definition item_of (x : Z * pvalue) : hitem := mkItem (fst x) (hv (snd x)).
Lemma canon_expected now calls d : canon (fun i => option_map hv (value_of now calls d i)) ids = map item_of (expected now calls d).
Proof.
  unfold expected. fold ids. induction ids as [|i t IH]; [reflexivity|]. rewrite canon_cons, IH. cbn [flat_map]. rewrite map_app. destruct (value_of now calls d i); reflexivity.
Qed.

(* ------------------------------------------------------------------ *)
(** * The bytes *)

Lemma land3 x : Z.land x 3 = x mod 4.
Proof. change 3 with (Z.ones 2). rewrite Z.land_ones by lia. reflexivity. Qed.
Lemma land_not3 x : Z.land x (Z.lnot 3) = x / 4 * 4.
Proof. rewrite <- Z.ldiff_land. change 3 with (Z.ones 2). rewrite Z.ldiff_ones_r by lia. rewrite Z.shiftl_mul_pow2, Z.shiftr_div_pow2 by lia. reflexivity. Qed.

Definition vbytes (v : hvalue) : list Z :=
  le32 (variant_of v) ++
  match v with
  | HStr s => le32 (zlen s + 1) ++ s ++ repeat 0 (Z.to_nat (1 + Z.land (4 - (zlen s + 1)) 3))
  | HBool b => le16 (if b then 65535 else 0) ++ [0; 0]
  | HInt16 n => le16 n ++ [0; 0]
  | HInt32 n => le32 n
  | HInt64 n => le64 n
  end.
Fixpoint ents (l : list hitem) (off : Z) : list Z :=
  match l with [] => [] | x :: t => le32 (hi_id x) ++ le32 off ++ ents t (off + item_size (hi_val x)) end.
Definition sizes (l : list hitem) : Z := fold_right (fun x n => item_size (hi_val x) + n) 0 l.
Definition vals (l : list hitem) : list Z := flat_map (fun x => vbytes (hi_val x)) l.
Definition section_bytes (l : list hitem) : list Z :=
  le32 (8 + zlen l * 8 + sizes l) ++ le32 (zlen l) ++ ents l (8 + zlen l * 8) ++ vals l.
Definition header_bytes (fmt : list Z) : list Z :=
  le16 65534 ++ le16 0 ++ le32 2 ++ le32 0 ++ le32 0 ++ le32 0 ++ le32 0 ++ le32 1 ++ flat_map le32 fmt ++ le32 48.

Lemma vbytes_size v : zlen (vbytes v) = item_size v.
Proof.
  unfold vbytes, item_size. destruct v; cbn [variant_of]; rewrite ?zlen_app, ?zlen_le32, ?zlen_le16; try reflexivity.
  rewrite land3, land_not3. unfold zlen at 2. rewrite repeat_length. pose proof (zlen_nonneg _ s). lia.
Qed.
Lemma vals_size l : zlen (vals l) = sizes l.
Proof. induction l as [|x t IH]; [reflexivity|]. unfold vals in *. cbn [flat_map sizes fold_right]. rewrite zlen_app, vbytes_size, IH. reflexivity. Qed.
Lemma ents_size l : forall off, zlen (ents l off) = 8 * zlen l.
Proof. induction l as [|x t IH]; intro off; [reflexivity|]. cbn [ents]. rewrite !zlen_app, !zlen_le32, IH. unfold zlen. cbn [length]. lia. Qed.
Lemma section_size l : zlen (section_bytes l) = 8 + zlen l * 8 + sizes l.
Proof. unfold section_bytes. rewrite !zlen_app, !zlen_le32, ents_size, vals_size. lia. Qed.

Definition abytes (o : uop) : option (list Z) :=
  match o with
  | OAdd16 v => Some (le16 v) | OAdd32 v => Some (le32 v) | OAdd64 v => Some (le64 v)
  | OArray x => Some (map (byte_k 0) x) | OFixed v n => Some (repeat (byte_k 0 v) (Z.to_nat n)) | _ => None
  end.
Inductive adds : list uop -> list Z -> Prop :=
| adds_nil : adds [] []
| adds_cons o b ops bs : abytes o = Some b -> adds ops bs -> adds (o :: ops) (b ++ bs).
Lemma adds_app a x b y : adds a x -> adds b y -> adds (a ++ b) (x ++ y).
Proof. induction 1 as [|o c ops bs E H IH]; intro Hb; [exact Hb|]. cbn [app]. rewrite <- app_assoc. constructor; auto. Qed.
Lemma adds_run ops bs : adds ops bs -> forall l, exists es, arun_ops (Some l) ops = Ok (es, Some (l ++ bs)).
Proof.
  induction 1 as [|o b ops bs E H IH]; intro l; [exists []; rewrite app_nil_r; reflexivity|]. cbn [arun_ops].
  assert (X : arun_op (Some l) o = Ok (NO_ERRORS, Some (l ++ b))) by (destruct o; cbn [abytes] in E; try discriminate E; inversion E; reflexivity).
  rewrite X. cbn [bind]. destruct (IH (l ++ b)) as [es ->]. cbn [bind]. exists (NO_ERRORS :: es). rewrite app_assoc. reflexivity.
Qed.
Lemma arun_app a : forall st b es st', arun_ops st a = Ok (es, st') -> arun_ops st (a ++ b) = let* (es2, st2) := arun_ops st' b in Ok (es ++ es2, st2).
Proof.
  induction a as [|o t IH]; intros st b es st' H; cbn [arun_ops app] in *.
  - injection H as <- <-. destruct (arun_ops st b) as [[? ?]| |]; reflexivity.
  - destruct (arun_op st o) as [[e s1]| |]; try discriminate H. cbn [bind] in *. destruct (arun_ops s1 t) as [[es1 s2]| |] eqn:E; try discriminate H. cbn [bind] in *.
    injection H as <- <-. rewrite (IH _ b _ _ E). destruct (arun_ops s2 b) as [[? ?]| |]; reflexivity.
Qed.
Definition value_typed (v : hvalue) : Prop := match v with HStr s => Forall (fun b => 0 <= b < 256) s | _ => True end.
Lemma adds_value v : value_typed v -> adds (hpsf_value v) (vbytes v).
Proof.
  intro T. unfold hpsf_value, vbytes. constructor; [reflexivity|]. destruct v.
  - constructor; [reflexivity|]. constructor; [cbn [abytes]; rewrite map_byte_id by exact T; reflexivity|]. rewrite <- (app_nil_r (repeat 0 _)). constructor; [reflexivity|constructor].
  - constructor; [reflexivity|]. change [0; 0] with ([0; 0] ++ []). constructor; [reflexivity|constructor].
  - constructor; [reflexivity|]. change [0; 0] with ([0; 0] ++ []). constructor; [reflexivity|constructor].
  - rewrite <- (app_nil_r (le32 v)). constructor; [reflexivity|]. change (@nil Z) with (@nil Z ++ []). constructor; [reflexivity|constructor].
  - rewrite <- (app_nil_r (le64 v)). constructor; [reflexivity|]. change (@nil Z) with (@nil Z ++ []). constructor; [reflexivity|constructor].
Qed.
Lemma adds_vals l : Forall (fun x => value_typed (hi_val x)) l -> adds (flat_map (fun x => hpsf_value (hi_val x)) l) (vals l).
Proof. induction 1 as [|x t Hx H IH]; [constructor|]. unfold vals in *. cbn [flat_map]. apply adds_app; [apply adds_value; exact Hx|exact IH]. Qed.
Lemma list_total l : forall off, snd (hpsf_list l off) = off + sizes l.
Proof.
  induction l as [|x t IH]; intro off; cbn [hpsf_list snd sizes fold_right]; [lia|]. specialize (IH (off + item_size (hi_val x))).
  destruct (hpsf_list t _) as [ops e]. cbn [snd] in *. unfold sizes in *. lia.
Qed.
Lemma adds_list l : forall off, adds (fst (hpsf_list l off)) (ents l off).
Proof.
  induction l as [|x t IH]; intro off; cbn [hpsf_list ents]; [constructor|]. specialize (IH (off + item_size (hi_val x))).
  destruct (hpsf_list t _) as [ops e]. cbn [fst] in *. constructor; [reflexivity|]. constructor; [reflexivity|exact IH].
Qed.
Lemma adds_header fmt : adds (hpsf_header fmt ++ [OAdd32 48]) (header_bytes fmt).
Proof.
  unfold hpsf_header, header_bytes. cbn [app]. repeat (constructor; [reflexivity|]). rewrite <- (app_nil_r (le32 48)). apply adds_app; [|constructor; [reflexivity|constructor]].
  induction fmt as [|x t IH]; cbn [map flat_map]; [constructor|constructor; [reflexivity|exact IH]].
Qed.
Lemma overwrite_field a old new r : length old = length new -> overwrite (a ++ old ++ r) (length a) new = a ++ new ++ r.
Proof.
  intro H. rewrite overwrite_spec by (rewrite !app_length; lia). rewrite firstn_app, firstn_all, Nat.sub_diag. cbn [firstn]. rewrite app_nil_r. f_equal. f_equal.
  rewrite app_assoc, <- H, <- app_length, skipn_app, skipn_all, Nat.sub_diag. reflexivity.
Qed.
Lemma program_bytes fmt l : length fmt = 4%nat -> Forall (fun x => value_typed (hi_val x)) l ->
  exists es, arun_ops None (OInflate SUMMARY_SIZE :: hpsf_ops fmt l) = Ok (es, Some (header_bytes fmt ++ section_bytes l)).
Proof.
  intros Lf T. unfold hpsf_ops. destruct (hpsf_list l (8 + zlen l * 8)) as [ops e] eqn:E.
  assert (Ee : e = 8 + zlen l * 8 + sizes l) by (rewrite <- list_total, E; reflexivity).
  assert (Ao : adds ops (ents l (8 + zlen l * 8))) by (pose proof (adds_list l (8 + zlen l * 8)) as X; rewrite E in X; exact X).
  assert (A : adds ((hpsf_header fmt ++ [OAdd32 48]) ++ [OAdd32 0; OAdd32 (zlen l)] ++ ops) (header_bytes fmt ++ (le32 0 ++ le32 (zlen l) ++ []) ++ ents l (8 + zlen l * 8))).
  { apply adds_app; [apply adds_header|]. apply adds_app; [|exact Ao]. constructor; [reflexivity|]. constructor; [reflexivity|constructor]. }
  destruct (adds_run _ _ A []) as [es1 R1]. cbn [app] in R1.
  replace (hpsf_header fmt ++ [OAdd32 48; OAdd32 0; OAdd32 (zlen l)] ++ ops ++ [OSet32 e 48] ++ flat_map (fun x => hpsf_value (hi_val x)) l)
    with (((hpsf_header fmt ++ [OAdd32 48]) ++ [OAdd32 0; OAdd32 (zlen l)] ++ ops) ++ [OSet32 e 48] ++ flat_map (fun x => hpsf_value (hi_val x)) l)
    by (rewrite <- !app_assoc; reflexivity).
  change (OInflate SUMMARY_SIZE :: ?x) with ([OInflate SUMMARY_SIZE] ++ x). rewrite (arun_app _ None _ [NO_ERRORS] (Some [])) by reflexivity.
  rewrite (arun_app _ (Some []) _ _ _ R1).
  set (B := header_bytes fmt ++ (le32 0 ++ le32 (zlen l) ++ []) ++ ents l (8 + zlen l * 8)) in *.
  assert (R2 : exists es2, arun_ops (Some B) [OSet32 e 48] = Ok (es2, Some (header_bytes fmt ++ le32 e ++ le32 (zlen l) ++ ents l (8 + zlen l * 8)))).
  { destruct (ops_agree [OSet32 e 48] B) as [es2 R2]; [split; [cbn [op_typed]; lia|exact I]|]. exists es2. rewrite R2. cbn [fold_left spec_op]. rewrite digits4. f_equal. f_equal. f_equal.
    assert (Lh : length (header_bytes fmt) = 48%nat) by (destruct fmt as [|f1 [|f2 [|f3 [|f4 [|]]]]]; try discriminate Lf; reflexivity).
    unfold B. rewrite <- !app_assoc. change (Z.to_nat 48) with 48%nat. rewrite <- Lh. rewrite overwrite_field by reflexivity. rewrite app_nil_l. reflexivity. }
  destruct R2 as [es2 R2]. rewrite (arun_app _ (Some B) _ _ _ R2). destruct (adds_run _ _ (adds_vals l T) (header_bytes fmt ++ le32 e ++ le32 (zlen l) ++ ents l (8 + zlen l * 8))) as [es3 R3].
  rewrite R3. cbn [bind]. eexists. f_equal. f_equal. f_equal. unfold section_bytes. rewrite Ee, <- !app_assoc. reflexivity.
Qed.

(** The constructor: the bytes padded to 4096, or an exception if they do not fit. *)
Lemma unit_bytes orc fmt l : (forall k, orc k <> None) -> length fmt = 4%nat -> Forall (fun x => value_typed (hi_val x)) l -> zlen (section_bytes l) < 536870000 ->
  if zlen (section_bytes l) <=? 4048
  then exists u, hpsf_unit orc fmt l = Ok u /\ content u = Some (header_bytes fmt ++ section_bytes l ++ repeat 0 (Z.to_nat (4048 - zlen (section_bytes l))))
  else hpsf_unit orc fmt l = Throw.
Proof.
  intros Ho Lf T Lm. destruct (program_bytes fmt l Lf T) as [es Ra].
  assert (Lh : zlen (header_bytes fmt) = 48) by (destruct fmt as [|f1 [|f2 [|f3 [|f4 [|]]]]]; try discriminate Lf; reflexivity).
  remember (header_bytes fmt ++ section_bytes l) as B eqn:EB. assert (LB : zlen B = 48 + zlen (section_bytes l)) by (rewrite EB, zlen_app; lia).
  pose proof (zlen_nonneg _ (section_bytes l)) as Ns.
  pose proof (ops_sim orc _ unit_new None es (Some B) I Ra) as S. cbn [alen] in S. rewrite LIM_val in S. specialize (S ltac:(lia)).
  cbn [arun_ops] in Ra. unfold arun_op at 1 in Ra. change (0 <? SUMMARY_SIZE) with true in Ra. cbn iota in Ra. cbn [bind] in Ra.
  destruct (arun_ops (Some []) (hpsf_ops fmt l)) as [[es1 a1]| |]; try discriminate Ra. cbn [bind] in Ra. assert (Ees : es = NO_ERRORS :: es1) by congruence.
  cbn [run_ops] in S. unfold hpsf_unit. destruct (run_op orc unit_new (OInflate SUMMARY_SIZE)) as [[e u]| |]; [|exfalso; apply S; exact Ho|contradiction]. cbn [bind] in *.
  destruct (run_ops orc u (hpsf_ops fmt l)) as [[es2 u1]| |]; [|exfalso; apply S; exact Ho|contradiction]. cbn [bind] in S. destruct S as [[Ee|N] SR]; [|exfalso; apply N; exact Ho].
  specialize (SR Ee). rewrite Ees in Ee. assert (E0 : e = NO_ERRORS) by congruence. rewrite E0. change (negb (NO_ERRORS =? NO_ERRORS)) with false. cbn iota. cbn [bind].
  unfold R in SR. destruct (cu_store u1) as [s|] eqn:Es; [|contradiction]. destruct SR as (Si & Nn & Ec).
  assert (Ds : us_dsize s = zlen B) by (rewrite <- Ec; symmetry; apply cont_zlen; assumption). unfold the_store. rewrite Es. cbn [bind].
  assert (G : us_dsize s <=? get_size s = true) by (rewrite get_size_zlen by exact Si; destruct Si as (_ & _ & _ & H); specialize (H Nn); lia). rewrite G. unfold xl_assert. cbn [bind].
  unfold SUMMARY_SIZE. rewrite Ds, LB. destruct (zlen (section_bytes l) <=? 4048) eqn:Fit.
  - replace (48 + zlen (section_bytes l) <=? 4096) with true by lia. cbn [bind].
    assert (R1 : R u1 (Some B)) by (unfold R; rewrite Es; auto).
    assert (A2 : arun_ops (Some B) [OFixed 0 (4096 - (48 + zlen (section_bytes l)))] = Ok ([NO_ERRORS], Some (B ++ repeat (byte_k 0 0) (Z.to_nat (4096 - (48 + zlen (section_bytes l))))))) by reflexivity.
    pose proof (ops_sim orc _ u1 _ _ _ R1 A2) as S. cbn [alen] in S. rewrite LIM_val in S. rewrite zlen_app in S. unfold zlen at 2 in S. rewrite repeat_length in S. specialize (S ltac:(lia)).
    cbn [run_ops] in S. destruct (run_op orc u1 _) as [[e2 u2]| |]; [|exfalso; apply S; exact Ho|contradiction]. cbn [bind] in *. destruct S as [[Ee2|N] SR]; [|exfalso; apply N; exact Ho]. specialize (SR Ee2).
    pose proof (R_content _ _ SR) as C. unfold R in SR. destruct (cu_store u2) as [s2|] eqn:Es2; [|contradiction]. destruct SR as (Si2 & Nn2 & _). cbn [bind].
    assert (G2 : us_dsize s2 <=? get_size s2 = true) by (rewrite get_size_zlen by exact Si2; destruct Si2 as (_ & _ & _ & H); specialize (H Nn2); lia). rewrite G2. cbn [bind].
    exists u2. split; [reflexivity|]. rewrite C, EB, <- app_assoc. change (byte_k 0 0) with 0. replace (4096 - (48 + zlen (section_bytes l))) with (4048 - zlen (section_bytes l)) by lia. reflexivity.
  - replace (48 + zlen (section_bytes l) <=? 4096) with false by lia. reflexivity.
Qed.

(* ------------------------------------------------------------------ *)
(** * The reader *)

Lemma num_at n a v r off : zlen a = off -> length v = n -> num n (a ++ v ++ r) off = Some (le_value v).
Proof.
  intros <- <-. unfold num. rewrite !zlen_app. pose proof (zlen_nonneg _ a). pose proof (zlen_nonneg _ r). replace ((0 <=? zlen a) && (zlen a + Z.of_nat (length v) <=? zlen a + (zlen v + zlen r)))%bool with true by (unfold zlen at 4; lia).
  f_equal. f_equal. unfold zlen. rewrite Nat2Z.id, skipn_app, skipn_all, Nat.sub_diag. cbn [app skipn]. rewrite firstn_app, firstn_all, Nat.sub_diag. cbn [firstn]. apply app_nil_r.
Qed.
Lemma num32 a v r off : zlen a = off -> 0 <= v < 4294967296 -> num 4 (a ++ le32 v ++ r) off = Some v.
Proof. intros L B. rewrite (num_at 4 a (le32 v) r off L) by reflexivity. rewrite le32_value. rewrite Z.mod_small by exact B. reflexivity. Qed.
Lemma num16 a v r off : zlen a = off -> 0 <= v < 65536 -> num 2 (a ++ le16 v ++ r) off = Some v.
Proof. intros L B. rewrite (num_at 2 a (le16 v) r off L) by reflexivity. rewrite le16_value. rewrite Z.mod_small by exact B. reflexivity. Qed.
Lemma num64 a v r off : zlen a = off -> 0 <= v < 18446744073709551616 -> num 8 (a ++ le64 v ++ r) off = Some v.
Proof. intros L B. rewrite (num_at 8 a (le64 v) r off L) by reflexivity. rewrite le64_value. rewrite Z.mod_small by exact B. reflexivity. Qed.
Lemma cut_at a v r off n : zlen a = off -> zlen v = n -> cut (a ++ v ++ r) off n = Some v.
Proof.
  intros <- <-. unfold cut. rewrite !zlen_app. pose proof (zlen_nonneg _ a). pose proof (zlen_nonneg _ v). pose proof (zlen_nonneg _ r).
  replace ((0 <=? zlen a) && (0 <=? zlen v) && (zlen a + zlen v <=? zlen a + (zlen v + zlen r)))%bool with true by lia.
  f_equal. unfold zlen. rewrite !Nat2Z.id, skipn_app, skipn_all, Nat.sub_diag. cbn [app skipn]. rewrite firstn_app, firstn_all, Nat.sub_diag. cbn [firstn]. apply app_nil_r.
Qed.

(** Values as the specification has them. *)
Definition pvalue_typed (v : pvalue) : Prop :=
  match v with
  | PText s => Forall (fun b => 0 <= b < 256) s /\ zlen s < 4294967295
  | PInt16 n => 0 <= n < 65536 | PInt32 n => 0 <= n < 4294967296 | PBool _ => True | PTime t => 0 <= t < 18446744073709551616
  end.
Lemma read_vbytes v r : pvalue_typed v -> read_value (vbytes (hv v) ++ r) = Some v.
Proof.
  intro T. unfold read_value, vbytes. rewrite <- app_assoc. pose proof (num32 [] (variant_of (hv v)) (match hv v with
  | HStr s => le32 (zlen s + 1) ++ s ++ repeat 0 (Z.to_nat (1 + Z.land (4 - (zlen s + 1)) 3))
  | HBool b => le16 (if b then 65535 else 0) ++ [0; 0]
  | HInt16 n => le16 n ++ [0; 0]
  | HInt32 n => le32 n
  | HInt64 n => le64 n
  end ++ r) 0 eq_refl ltac:(destruct v; cbn; lia)) as N. cbn [app] in N. rewrite N. clear N.
  destruct v; cbn [hv variant_of pvalue_typed] in *.
  - change (30 =? 2) with false. change (30 =? 3) with false. change (30 =? 11) with false. change (30 =? 64) with false. change (30 =? 30) with true. cbn iota. destruct T as [Tb Tl].
    pose proof (zlen_nonneg _ bytes) as Nb. rewrite <- !app_assoc. rewrite (num32 (le32 30) (zlen bytes + 1)) by (try reflexivity; lia). cbn iota.
    replace (zlen bytes + 1 - 1) with (zlen bytes) by lia. rewrite (app_assoc (le32 30)). rewrite (cut_at (le32 30 ++ le32 (zlen bytes + 1)) bytes) by reflexivity. cbn iota.
    replace (Z.to_nat (1 + Z.land (4 - (zlen bytes + 1)) 3)) with (S (Z.to_nat (Z.land (4 - (zlen bytes + 1)) 3))) by (rewrite land3; lia). cbn [repeat]. 
    change (0 :: repeat 0 (Z.to_nat (Z.land (4 - (zlen bytes + 1)) 3))) with ([0] ++ repeat 0 (Z.to_nat (Z.land (4 - (zlen bytes + 1)) 3))). rewrite <- (app_assoc [0]), (app_assoc _ bytes).
    rewrite (cut_at ((le32 30 ++ le32 (zlen bytes + 1)) ++ bytes) [0]) by (rewrite ?zlen_app, ?zlen_le32; try reflexivity; lia). reflexivity.
  - change (2 =? 2) with true. cbn iota. rewrite <- app_assoc, (num16 (le32 2) v) by (try reflexivity; exact T). reflexivity.
  - change (3 =? 2) with false. change (3 =? 3) with true. cbn iota. rewrite (num32 (le32 3) v) by (try reflexivity; exact T). reflexivity.
  - change (11 =? 2) with false. change (11 =? 3) with false. change (11 =? 11) with true. cbn iota. rewrite <- app_assoc, (num16 (le32 11) (if b then 65535 else 0)) by (try reflexivity; destruct b; lia). destruct b; reflexivity.
  - change (64 =? 2) with false. change (64 =? 3) with false. change (64 =? 11) with false. change (64 =? 64) with true. cbn iota. rewrite (num64 (le32 64) v) by (try reflexivity; exact T). reflexivity.
Qed.
Lemma size4 v : item_size v mod 4 = 0 /\ 0 <= item_size v.
Proof. unfold item_size. destruct v; try (split; [reflexivity|lia]). rewrite land_not3. pose proof (zlen_nonneg _ s). lia. Qed.
Fixpoint ascending (last : Z) (l : list (Z * pvalue)) : Prop :=
  match l with [] => True | x :: t => last < fst x < 4294967296 /\ ascending (fst x) t end.
Lemma read_section first sec : zlen sec < 4294967296 -> forall l A V pos off last, sec = A ++ ents (map item_of l) off ++ V ++ vals (map item_of l) -> zlen A = pos ->
  zlen (A ++ ents (map item_of l) off ++ V) = off -> off mod 4 = 0 -> first <= off -> 0 <= last -> ascending last l -> Forall (fun x => pvalue_typed (snd x)) l ->
  read_entries sec (length l) pos first last = Some l.
Proof.
  intro Ls. induction l as [|[id v] t IH]; intros A V pos off last Es Lp Lo Al Fo Nl As Ty; [reflexivity|].
  cbn [length read_entries]. cbn [map ents] in Es, Lo. change (hi_id (item_of (id, v))) with id in *. change (hi_val (item_of (id, v))) with (hv v) in *. cbn [ascending fst] in As. destruct As as [[As1 As2] As].
  pose proof (Forall_inv Ty) as Tv. pose proof (Forall_inv_tail Ty) as Tt. cbn [snd] in Tv. pose proof (size4 (hv v)) as [Z4 Zn].
  unfold vals in Es. cbn [flat_map] in Es. change (hi_val (item_of (id, v))) with (hv v) in Es. fold (vals (map item_of t)) in Es.
  remember (ents (map item_of t) (off + item_size (hv v))) as En eqn:EE. remember (vals (map item_of t)) as Vt eqn:EV.
  assert (E1 : sec = A ++ le32 id ++ (le32 off ++ En ++ V ++ vbytes (hv v) ++ Vt)) by (rewrite Es, <- !app_assoc; reflexivity).
  assert (E2 : sec = (A ++ le32 id) ++ le32 off ++ (En ++ V ++ vbytes (hv v) ++ Vt)) by (rewrite E1, <- !app_assoc; reflexivity).
  assert (E3 : sec = (A ++ (le32 id ++ le32 off ++ En) ++ V) ++ (vbytes (hv v) ++ Vt) ++ []) by (rewrite E1, app_nil_r, <- !app_assoc; reflexivity).
  pose proof (f_equal zlen E3) as L3. rewrite zlen_app, Lo, app_nil_r in L3. pose proof (zlen_nonneg _ (vbytes (hv v) ++ Vt)) as N3.
  assert (No : 0 <= off) by (rewrite <- Lo; apply zlen_nonneg).
  rewrite E1 at 1. rewrite (num32 A id _ _ Lp) by lia. rewrite E2 at 1. rewrite (num32 (A ++ le32 id) off) by (rewrite ?zlen_app, ?zlen_le32; lia).
  replace ((last <? id) && (off mod 4 =? 0) && (first <=? off))%bool with true by lia. unfold check.
  rewrite E3 at 1. rewrite (cut_at _ (vbytes (hv v) ++ Vt)) by lia. rewrite read_vbytes by exact Tv.
  rewrite (IH (A ++ le32 id ++ le32 off) (V ++ vbytes (hv v)) _ (off + item_size (hv v))); [reflexivity| | | | | | | |].
  - rewrite <- EE, E1, <- !app_assoc. reflexivity.
  - rewrite !zlen_app, !zlen_le32. lia.
  - rewrite <- EE. rewrite !zlen_app, !zlen_le32, vbytes_size. rewrite !zlen_app, !zlen_le32 in Lo. lia.
  - lia.
  - lia.
  - lia.
  - exact As.
  - exact Tt.
Qed.
Lemma read_stream fmt l id z : length fmt = 4%nat -> flat_map le32 fmt = id -> ascending 0 l -> Forall (fun x => pvalue_typed (snd x)) l ->
  zlen (section_bytes (map item_of l)) < 4294967296 ->
  read_property_set (header_bytes fmt ++ section_bytes (map item_of l) ++ z) = Some (id, l).
Proof.
  intros Lf Ef As Ty Ls. set (sec := section_bytes (map item_of l)) in *.
  assert (Li : zlen id = 16) by (rewrite <- Ef; destruct fmt as [|f1 [|f2 [|f3 [|f4 [|]]]]]; try discriminate Lf; reflexivity).
  assert (Em : length (map item_of l) = length l) by apply map_length.
  pose proof (section_size (map item_of l)) as Sz. fold sec in Sz.
  assert (Esec : sec = le32 (zlen sec) ++ le32 (zlen l) ++ ents (map item_of l) (8 + zlen l * 8) ++ vals (map item_of l)) by (rewrite Sz; unfold sec, section_bytes, zlen; rewrite Em; reflexivity).
  assert (M4 : forall t, sizes t mod 4 = 0 /\ 0 <= sizes t) by (induction t as [|x t IHt]; [split; [reflexivity|reflexivity || (cbn; lia)]|]; cbn [sizes fold_right]; fold (sizes t); pose proof (size4 (hi_val x)); lia).
  pose proof (M4 (map item_of l)) as [M M0]. assert (Zl : zlen (map item_of l) = zlen l) by (unfold zlen; rewrite Em; reflexivity). rewrite Zl in Sz.
  pose proof (zlen_nonneg _ l) as Nl.
  unfold read_property_set, header_bytes. rewrite Ef. rewrite <- !app_assoc.
  match goal with |- context [num 2 ?b 0] => set (str := b) end.
  assert (N1 : num 2 str 0 = Some 65534) by (apply (num16 []); [reflexivity|lia]).
  assert (N2 : num 2 str 2 = Some 0) by (apply (num16 (le16 65534)); [reflexivity|lia]).
  assert (N3 : num 4 str 24 = Some 1) by (apply (num32 (le16 65534 ++ le16 0 ++ le32 2 ++ le32 0 ++ le32 0 ++ le32 0 ++ le32 0)); [reflexivity|lia]).
  assert (N4 : cut str 28 16 = Some id) by (apply (cut_at (le16 65534 ++ le16 0 ++ le32 2 ++ le32 0 ++ le32 0 ++ le32 0 ++ le32 0 ++ le32 1)); [reflexivity|exact Li]).
  assert (P : str = (le16 65534 ++ le16 0 ++ le32 2 ++ le32 0 ++ le32 0 ++ le32 0 ++ le32 0 ++ le32 1 ++ id) ++ le32 48 ++ sec ++ z) by (unfold str; rewrite <- !app_assoc; reflexivity).
  assert (LP : zlen (le16 65534 ++ le16 0 ++ le32 2 ++ le32 0 ++ le32 0 ++ le32 0 ++ le32 0 ++ le32 1 ++ id) = 44) by (rewrite !zlen_app, Li; reflexivity).
  remember (le16 65534 ++ le16 0 ++ le32 2 ++ le32 0 ++ le32 0 ++ le32 0 ++ le32 0 ++ le32 1 ++ id) as P0. clearbody str. clear HeqP0.
  rewrite N1, N2, N3. cbn [check Z.eqb andb]. rewrite N4.
  assert (N5 : num 4 str 44 = Some 48) by (rewrite P; apply num32; [exact LP|lia]). rewrite N5.
  assert (N6 : num 4 str 48 = Some (zlen sec)).
  { assert (P6 : str = (P0 ++ le32 48) ++ le32 (zlen sec) ++ (le32 (zlen l) ++ ents (map item_of l) (8 + zlen l * 8) ++ vals (map item_of l)) ++ z) by (rewrite P; rewrite Esec at 1; rewrite <- !app_assoc; reflexivity).
    rewrite P6 at 1. apply num32; [rewrite zlen_app, LP; reflexivity|]. split; [apply zlen_nonneg|exact Ls]. }
  rewrite N6. replace ((48 mod 4 =? 0) && (zlen sec mod 4 =? 0))%bool with true by lia. cbn [check].
  assert (N7 : cut str 48 (zlen sec) = Some sec) by (rewrite P, (app_assoc P0); apply cut_at; [rewrite zlen_app, LP; reflexivity|reflexivity]). rewrite N7.
  assert (N8 : num 4 sec 4 = Some (zlen l)) by (rewrite Esec; apply (num32 (le32 (zlen sec))); [reflexivity|lia]). rewrite N8.
  replace (Z.to_nat (zlen l)) with (length l) by (unfold zlen; lia).
  rewrite (read_section (8 + 8 * zlen l) sec Ls l (le32 (zlen sec) ++ le32 (zlen l)) [] 8 (8 + zlen l * 8) 0); [reflexivity| | | | | | |exact As|exact Ty].
  - rewrite <- app_assoc. exact Esec.
  - reflexivity.
  - rewrite !zlen_app, !zlen_le32, ents_size, Zl. change (zlen (@nil Z)) with 0. lia.
  - lia.
  - lia.
  - lia.
Qed.

(* ------------------------------------------------------------------ *)
(** * C30 *)

Definition stream_unit (orc : nat -> option (nat -> Z)) (d : pset) (st : props) : res cunit :=
  match d with Summary => summary_unit orc st | DocSummary => docsummary_unit orc st end.
Definition format_words (d : pset) : list Z := match d with Summary => summary_format | DocSummary => docsummary_format end.
Lemma stream_unit_eq orc d st : stream_unit orc d st = hpsf_unit orc (format_words d) (set_of d st).
Proof. destruct d; reflexivity. Qed.
Lemma format_words_id d : length (format_words d) = 4%nat /\ flat_map le32 (format_words d) = format_id d.
Proof. destruct d; split; reflexivity. Qed.
Lemma need_size v : item_size (hv v) = value_need v.
Proof. unfold item_size, value_need. destruct v; cbn [hv]; try reflexivity. rewrite land_not3. unfold up4. pose proof (zlen_nonneg _ bytes). lia. Qed.
Lemma need_section l : need l = 48 + zlen (section_bytes (map item_of l)).
Proof.
  rewrite section_size. induction l as [|x t IH]; [reflexivity|]. cbn [need fold_right map sizes]. fold (need t). fold (sizes (map item_of t)). rewrite IH.
  change (hi_val (item_of x)) with (hv (snd x)). rewrite need_size. unfold zlen. cbn [length]. lia.
Qed.
Lemma value_texts now calls d id : 0 <= now < 1099511627776 -> Forall pcall_typed calls ->
  match value_of now calls d id with Some (PText s) => Forall (fun b => 0 <= b < 256) s | Some v => pvalue_typed v | None => True end.
Proof.
  intros B. induction calls as [|q calls IH] using rev_ind; intro T.
  - unfold value_of, own_value. cbn [fold_left]. destruct d; repeat match goal with |- context [if ?b then _ else _] => destruct b end; cbn [pvalue_typed]; auto; try lia; repeat constructor; lia.
  - apply Forall_app in T. destruct T as [T Tq]. rewrite value_snoc. destruct (at_place d id (fst q)); [|exact (IH T)]. inversion Tq as [|? ? [_ H] _]; subst. exact H.
Qed.
Lemma expected_in now calls d x : In x (expected now calls d) <-> In (fst x) ids /\ value_of now calls d (fst x) = Some (snd x).
Proof.
  unfold expected. fold ids. rewrite in_flat_map. split.
  - intros (i & J & H). destruct (value_of now calls d i) as [v|] eqn:E; [|contradiction]. destruct H as [<-|[]]. auto.
  - intros [J H]. exists (fst x). split; [exact J|]. rewrite H. left. destruct x; reflexivity.
Qed.
Lemma expected_ascending now calls d : ascending 0 (expected now calls d).
Proof.
  unfold expected. generalize (value_of now calls d). intro f. change (map Z.of_nat (seq 1 19)) with ids.
  assert (G : forall l last, increasing l -> (forall i, In i l -> last < i < 4294967296) -> ascending last (flat_map (fun id => match f id with Some v => [(id, v)] | None => [] end) l)).
  { induction l as [|i t IH]; intros last S0 Bd; [exact I|]. cbn [flat_map].
    destruct S0 as [S1 S2]. destruct (f i) as [v|]; cbn [app ascending fst].
    - split; [apply Bd; left; reflexivity|]. apply IH; [exact S2|]. intros j J. specialize (S1 j J). specialize (Bd j (or_intror J)). lia.
    - apply IH; [exact S2|]. intros j J. apply Bd. right. exact J. }
  apply G; [exact ids_increasing|]. intros i J. unfold ids in J. apply in_map_iff in J. destruct J as (m & <- & J). apply in_seq in J. lia.
Qed.
Lemma need_texts l x : In x l -> value_need (snd x) <= need l.
Proof.
  assert (P : forall v, 0 <= value_need v) by (intro v; rewrite <- need_size; apply size4).
  assert (Q : forall t, 0 <= need t) by (induction t as [|y t IHt]; cbn [need fold_right]; [lia|]; fold (need t); pose proof (P (snd y)); lia).
  induction l as [|y t IH]; intro J0; [contradiction|]; destruct J0 as [->|J]; cbn [need fold_right]; fold (need t); [pose proof (Q t); lia|]. specialize (IH J). pose proof (P (snd y)). lia.
Qed.

(** C30: the stream of either property set, as written by a workbook created at [now] after
    any history of property calls, has 4096 bytes, and the reader finds in it exactly the
    properties set, each with its last value. *)
Theorem C30_round_trip orc now calls d : (forall k, orc k <> None) -> 0 <= now < 1099511627776 -> Forall pcall_typed calls ->
  need (expected now calls d) <= 4096 ->
  exists u b, stream_unit orc d (run_props now calls) = Ok u /\ content u = Some b /\ zlen b = 4096
    /\ forall z, read_property_set (b ++ z) = Some (format_id d, expected now calls d).
Proof.
  intros Ho B T N. rewrite stream_unit_eq, (props_sets now B calls T d), canon_expected. destruct (format_words_id d) as [Lf Ef].
  assert (Ty : Forall (fun x => pvalue_typed (snd x)) (expected now calls d)).
  { apply Forall_forall. intros x J. pose proof (need_texts _ _ J) as L. apply expected_in in J. destruct J as [_ J]. pose proof (value_texts now calls d (fst x) B T) as V. rewrite J in V.
    destruct (snd x); cbn [pvalue_typed] in *; try exact V. split; [exact V|]. unfold value_need, up4 in L. lia. }
  assert (Tv : Forall (fun x => value_typed (hi_val x)) (map item_of (expected now calls d))).
  { apply Forall_map. eapply Forall_impl; [|exact Ty]. intros [i v] H. change (hi_val (item_of (i, v))) with (hv v). cbn [snd] in H. destruct v; cbn [hv value_typed]; auto. destruct H. assumption. }
  pose proof (need_section (expected now calls d)) as Sz. pose proof (unit_bytes orc _ _ Ho Lf Tv ltac:(lia)) as U.
  replace (zlen (section_bytes (map item_of (expected now calls d))) <=? 4048) with true in U by lia. destruct U as (u & U & C). exists u. eexists. split; [exact U|]. split; [exact C|]. split.
  - rewrite !zlen_app. unfold zlen at 3. rewrite repeat_length. assert (zlen (header_bytes (format_words d)) = 48) by (destruct d; reflexivity). lia.
  - intro z. rewrite <- !app_assoc. apply read_stream; auto; [apply expected_ascending|lia].
Qed.
Print Assumptions C30_round_trip.

(** A set that does not fit raises an exception; nothing is cut off. *)
Theorem C30_oversize_throws orc now calls d : (forall k, orc k <> None) -> 0 <= now < 1099511627776 -> Forall pcall_typed calls ->
  4096 < need (expected now calls d) < 536870000 -> stream_unit orc d (run_props now calls) = Throw.
Proof.
  intros Ho B T N. rewrite stream_unit_eq, (props_sets now B calls T d), canon_expected. destruct (format_words_id d) as [Lf Ef].
  assert (Tv : Forall (fun x => value_typed (hi_val x)) (map item_of (expected now calls d))).
  { apply Forall_map. apply Forall_forall. intros x J. apply expected_in in J. destruct J as [_ J]. pose proof (value_texts now calls d (fst x) B T) as V. rewrite J in V.
    change (hi_val (item_of x)) with (hv (snd x)). destruct (snd x); cbn [hv value_typed]; auto. }
  pose proof (need_section (expected now calls d)) as Sz. pose proof (unit_bytes orc _ _ Ho Lf Tv ltac:(lia)) as U.
  replace (zlen (section_bytes (map item_of (expected now calls d))) <=? 4048) with false in U by lia. exact U.
Qed.
Print Assumptions C30_oversize_throws.

(** The call returns true exactly for the ten properties. *)
Theorem C30_accepted st prop content : 0 <= prop -> fst (wb_property st prop content) = match place_of prop with Some _ => true | None => false end.
Proof.
  intro B. unfold wb_property, PROP_LAST. destruct (11 <=? prop) eqn:E; [rewrite place_beyond by lia; reflexivity|]. pose proof (place_table prop ltac:(lia)) as P. destruct (place_of prop) as [[[|] i]|].
  - destruct P as [-> P]. replace (0 <? i) with true by lia. reflexivity.
  - destruct P as (P1 & -> & P). replace (0 <? nth (Z.to_nat prop) property2summary 0) with false by lia. replace (0 <? i) with true by lia. reflexivity.
  - destruct P as [P1 P2]. replace (0 <? nth (Z.to_nat prop) property2summary 0) with false by lia. replace (0 <? nth (Z.to_nat prop) property2docsummary 0) with false by lia. reflexivity.
Qed.
Print Assumptions C30_accepted.

(** What a lookup in the expected set finds: the last content given for the property, or,
    if there was none, the library's own value. *)
Lemma lookup_expected now calls d id : 1 <= id <= 19 -> lookup id (expected now calls d) = value_of now calls d id.
Proof.
  intro B. unfold lookup. destruct (find (fun x => fst x =? id) (expected now calls d)) as [x|] eqn:E.
  - apply find_some in E. destruct E as [J E]. apply Z.eqb_eq in E. apply expected_in in J. destruct J as [_ J]. rewrite E in J. cbn [option_map]. symmetry. exact J.
  - cbn [option_map]. destruct (value_of now calls d id) as [v|] eqn:V; [|reflexivity]. exfalso.
    assert (J : In (id, v) (expected now calls d)) by (apply expected_in; split; [apply ids_in; exact B|exact V]). pose proof (find_none _ _ E _ J) as F. cbn [fst] in F. lia.
Qed.
Lemma place_inj p p' x : 0 <= p -> 0 <= p' -> place_of p = Some x -> place_of p' = Some x -> p = p'.
Proof.
  intros B B' H H'. assert (L : p < 11) by (destruct (Z_lt_ge_dec p 11); [lia|rewrite place_beyond in H by lia; discriminate H]).
  assert (L' : p' < 11) by (destruct (Z_lt_ge_dec p' 11); [lia|rewrite place_beyond in H' by lia; discriminate H']).
  assert (K : forallb (fun a => forallb (fun b => match place_of (Z.of_nat a), place_of (Z.of_nat b) with
    | Some (d, i), Some (e, j) => (negb (set_eqb d e && (i =? j)) || Nat.eqb a b)%bool | _, _ => true end) (seq 0 11)) (seq 0 11) = true) by (vm_compute; reflexivity).
  rewrite forallb_forall in K. specialize (K (Z.to_nat p) ltac:(apply in_seq; lia)). cbv beta in K. rewrite forallb_forall in K. specialize (K (Z.to_nat p') ltac:(apply in_seq; lia)). cbv beta in K.
  rewrite !Z2Nat.id, H, H' in K by lia. destruct x as [d i]. rewrite Z.eqb_refl in K. assert (set_eqb d d = true) by (destruct d; reflexivity). rewrite H0 in K. cbn [andb negb orb] in K. lia.
Qed.
Theorem C30_last_value now earlier prop content later d id : Forall pcall_typed (earlier ++ (prop, content) :: later) -> place_of prop = Some (d, id) ->
  Forall (fun q => fst q <> prop) later -> lookup id (expected now (earlier ++ (prop, content) :: later) d) = Some (PText content).
Proof.
  intros T P L. assert (B : 0 <= prop) by (apply Forall_app in T; destruct T as [_ T]; inversion T as [|? ? [Tp _] _]; cbn [fst] in Tp; lia).
  assert (Bp : prop < 11) by (destruct (Z_lt_ge_dec prop 11); [lia|rewrite place_beyond in P by lia; discriminate P]).
  assert (Bi : 1 <= id <= 19) by (pose proof (place_table prop ltac:(lia)) as Q; rewrite P in Q; destruct d; lia).
  rewrite lookup_expected by exact Bi. induction later as [|q later IH] using rev_ind.
  - rewrite value_snoc. cbn [fst snd]. unfold at_place. rewrite P, Z.eqb_refl. destruct d; reflexivity.
  - change (earlier ++ (prop, content) :: later ++ [q]) with (earlier ++ ((prop, content) :: later) ++ [q]) in *. rewrite app_assoc in *. apply Forall_app in T. destruct T as [T Tq]. apply Forall_app in L. destruct L as [L Lq].
    rewrite value_snoc. inversion Lq as [|? ? Nq _]. inversion Tq as [|? ? [Tq' _] _]. subst. unfold at_place. destruct (place_of (fst q)) as [[d' i]|] eqn:Pq; [|apply IH; assumption].
    destruct (set_eqb d d' && (i =? id))%bool eqn:E; [|apply IH; assumption]. exfalso. apply Nq. apply (place_inj (fst q) prop (d, id)); auto; [lia|]. rewrite Pq.
    destruct d, d'; cbn [set_eqb andb] in E; try discriminate E; apply Z.eqb_eq in E; subst i; reflexivity.
Qed.
Print Assumptions C30_last_value.
Theorem C30_own_values now calls d id : 1 <= id <= 19 -> Forall (fun q => place_of (fst q) <> Some (d, id)) calls -> lookup id (expected now calls d) = own_value now d id.
Proof.
  intros B N. rewrite lookup_expected by exact B. induction calls as [|q calls IH] using rev_ind; [reflexivity|]. apply Forall_app in N. destruct N as [N Nq]. inversion Nq as [|? ? Hq _]. subst. rewrite value_snoc.
  unfold at_place. destruct (place_of (fst q)) as [[d' i]|]; [|apply IH; exact N]. destruct (set_eqb d d' && (i =? id))%bool eqn:E; [|apply IH; exact N]. exfalso. apply Hq.
  destruct d, d'; cbn [set_eqb andb] in E; try discriminate E; apply Z.eqb_eq in E; subst i; reflexivity.
Qed.
Print Assumptions C30_own_values.

(** In the saved file: the reader of compound files finds both streams, and the reader of
    property sets their properties. *)
Theorem C30_in_file orc orc' now calls us : (forall k, orc k <> None) -> (forall k, orc' k <> None) -> 0 <= now < 1099511627776 -> Forall pcall_typed calls ->
  need (expected now calls Summary) <= 4096 -> need (expected now calls DocSummary) <= 4096 -> zlen (concat us) <= 4294946000 ->
  exists u2 u3 b2 b3 f s2 s3, stream_unit orc Summary (run_props now calls) = Ok u2 /\ content u2 = Some b2
    /\ stream_unit orc' DocSummary (run_props now calls) = Ok u3 /\ content u3 = Some b3
    /\ ole_image us [b2] [b3] = Ok f
    /\ cfb_read f name_summary = Some s2 /\ read_property_set s2 = Some (format_id Summary, expected now calls Summary)
    /\ cfb_read f name_docsummary = Some s3 /\ read_property_set s3 = Some (format_id DocSummary, expected now calls DocSummary).
Proof.
  intros Ho Ho' B T N2 N3 Lu. destruct (C30_round_trip orc now calls Summary Ho B T N2) as (u2 & b2 & U2 & C2 & L2 & R2). destruct (C30_round_trip orc' now calls DocSummary Ho' B T N3) as (u3 & b3 & U3 & C3 & L3 & R3).
  destruct (C07_compound_file_reads_back us [b2] [b3]) as (f & s1 & s2 & s3 & Ef & _ & _ & E2 & (k2 & P2 & _) & E3 & (k3 & P3 & _) & _); [cbn [concat]; rewrite !app_nil_r; lia|].
  cbn [concat] in P2, P3. rewrite app_nil_r in P2, P3. exists u2, u3, b2, b3, f, s2, s3. rewrite P2, P3. repeat (split; [first [assumption|apply R2|rewrite <- P2; exact E2]|]).
  split; [rewrite <- P3; exact E3|apply R3].
Qed.
Print Assumptions C30_in_file.

(** A title set twice, an author, an empty company, an unknown property. *)
Definition some_calls : list pcall := [(10, [65; 66]); (1, [67; 68; 69]); (4, []); (10, [70]); (11, [71])].
Lemma some_calls_typed : Forall pcall_typed some_calls.
Proof. repeat (apply Forall_cons; [split; [cbn [fst]; lia|cbn [snd]; repeat (constructor; [lia|]); constructor]|]). apply Forall_nil. Qed.
Example C30_case : Forall pcall_typed some_calls /\ need (expected 1700000000 some_calls Summary) <= 4096 /\ need (expected 1700000000 some_calls DocSummary) <= 4096
  /\ expected 1700000000 some_calls Summary = [(1, PInt16 1200); (2, PText [70]); (4, PText [67; 68; 69]); (12, PTime 133444736000000000); (13, PTime 133444736000000000); (18, PText [120; 108; 115; 108; 105; 98]); (19, PInt32 0)]
  /\ expected 1700000000 some_calls DocSummary = [(1, PInt16 1200); (15, PText [])].
Proof. split; [exact some_calls_typed|]. vm_compute. repeat split; congruence. Qed.
Example C30_oversize_case : Forall pcall_typed [(10, repeat 65 4000)] /\ 4096 < need (expected 0 [(10, repeat 65 4000)] Summary) < 536870000.
Proof. split; [apply Forall_cons; [split; [cbn [fst]; lia|cbn [snd]; apply Forall_forall; intros x J; apply repeat_spec in J; lia]|apply Forall_nil]|]. vm_compute. split; reflexivity. Qed.

(** The sets declare code page 1200, UTF-16, but hold strings of bytes: a reader that heeds
    the code page does not find the title. *)
Theorem C30_code_page_refuted : exists now calls u b l, stream_unit (fun _ => Some (fun _ => 0)) Summary (run_props now calls) = Ok u /\ content u = Some b
  /\ read_property_set b = Some (format_id Summary, l) /\ lookup 2 l = Some (PText [65]) /\ text_in_code_page l 2 = None.
Proof.
  assert (T : Forall pcall_typed [(10, [65])]) by (apply Forall_cons; [split; [cbn [fst]; lia|cbn [snd]; repeat constructor; lia]|apply Forall_nil]).
  destruct (C30_round_trip (fun _ => Some (fun _ => 0)) 0 [(10, [65])] Summary) as (u & b & U & C & _ & R); [discriminate|lia|exact T|vm_compute; discriminate|].
  specialize (R []). rewrite app_nil_r in R. exists 0, [(10, [65])], u, b. eexists. split; [exact U|]. split; [exact C|]. split; [exact R|]. split; vm_compute; reflexivity.
Qed.
Print Assumptions C30_code_page_refuted.
