(** C27, operand classes: the tokens of a formula carry the class (reference, value or array)
    that the program asked for. *)
From Coq Require Import ZArith List Bool Lia ZifyBool ZifyNat.
From Verif Require Import Bytes UnitModel UnitProofs SpecBuf BufProofs RecModel SheetModel XfModel WbModel XfInv ApiModel SpecBiff BookRecs ApiInv SpecApi ApiEff
  RecFrames RecProofs SheetProofs SheetTrace GlobTrace WbProofs SaveOk SaveRecs SaveRead SpecSaved SaveMeans DocLimits SavedView Lookups DemoDoc ViewPay
  PropsSheet RowBlocks PropsRows SpecObj PropsObj
  PropsCells FormulaModel SpecFormula PropsFormula.
Import ListNotations.
Local Open Scope Z_scope.

(* ------------------------------------------------------------------ *)
(** * Specification: a scanner of token arrays *)

(** What follows the bytes that belong to the token [t]. *)
Definition behind (t : Z) (p : list Z) : option (list Z) :=
  let skip n := olet (_, r) := take n p in Some r in
  if ((3 <=? t) && (t <=? 22))%bool then Some p
  else if t =? 23 then olet (_, r) := read_string 1 p in Some r
  else if t =? 28 then skip 1%nat
  else if t =? 29 then skip 1%nat
  else if t =? 30 then skip 2%nat
  else if t =? 31 then skip 8%nat
  else if ((32 <=? t) && (t <? 128))%bool then
    let k := t mod 32 in
    if k =? 0 then skip 7%nat else if k =? 1 then skip 2%nat else if k =? 2 then skip 3%nat
    else if k =? 4 then skip 4%nat else if k =? 5 then skip 8%nat
    else if k =? 26 then skip 6%nat else if k =? 27 then skip 10%nat else None
  else None.
Inductive oclass := AsReference | AsValue | AsArray.
(** Bits 5 and 6 of a classed token. *)
Definition class_at (t : Z) : list oclass :=
  if t / 32 =? 1 then [AsReference] else if t / 32 =? 2 then [AsValue] else if t / 32 =? 3 then [AsArray] else [].
(** The classes of the classed tokens, in their order. *)
Fixpoint scan (fuel : nat) (p : list Z) : option (list oclass) :=
  match p, fuel with
  | [], _ => Some []
  | t :: q, S n => olet r := behind t q in olet l := scan n r in Some (class_at t ++ l)
  | _, O => None
  end.
Definition token_classes (p : list Z) : option (list oclass) := scan (length p) p.

(** What a call returns when the program leaves it to the library: INDEX, OFFSET, CHOOSE and
    INDIRECT return references; LINEST, TREND, LOGEST, GROWTH, TRANSPOSE, MINVERSE, MMULT and
    FREQUENCY arrays; all others values. *)
Definition result_class (f : Z) : oclass :=
  if existsb (Z.eqb f) [29; 78; 100; 148] then AsReference
  else if existsb (Z.eqb f) [49; 50; 51; 52; 83; 164; 165; 252] then AsArray else AsValue.
Definition named_class (cls : Z) : oclass := if cls =? CELLOP_AS_REFER then AsReference else if cls =? CELLOP_AS_VALUE then AsValue else AsArray.
(** The classes asked for, operands before the operations on them. *)
Fixpoint asked (x : expr) : list oclass :=
  match x with
  | ERef _ _ _ _ cls | EArea _ _ _ _ _ _ _ cls => [named_class cls]
  | EUnary _ a => asked a
  | EBinary _ a b => asked a ++ asked b
  | EFunction f cls args => flat_map asked args ++ [if cls =? CELL_DEFAULT then result_class f else named_class cls]
  | _ => []
  end.

(* ------------------------------------------------------------------ *)
(** * Proofs *)

Definition scans (ops : list uop) (ks : list oclass) : Prop :=
  exists b k, appended ops = Some b /\ (k <= length b)%nat /\
    forall fuel p, scan (k + fuel) (b ++ p) = olet l := scan fuel p in Some (ks ++ l).
Lemma scans_nil : scans [] [].
Proof. exists [], 0%nat. repeat split; auto. intros. cbn [app Nat.add]. destruct (scan fuel p); reflexivity. Qed.
Lemma scans_app o1 o2 k1 k2 : scans o1 k1 -> scans o2 k2 -> scans (o1 ++ o2) (k1 ++ k2).
Proof.
  intros (b1 & n1 & E1 & L1 & R1) (b2 & n2 & E2 & L2 & R2). exists (b1 ++ b2), (n1 + n2)%nat.
  split; [apply appended_app; auto|]. split; [rewrite app_length; lia|].
  intros fuel p. rewrite <- app_assoc, <- Nat.add_assoc, R1, R2. destruct (scan fuel p); [rewrite app_assoc; reflexivity|reflexivity].
Qed.
Lemma scans_one o c q : appended o = Some (c :: q) -> (forall p, behind c (q ++ p) = Some p) -> scans o (class_at c).
Proof.
  intros E T. exists (c :: q), 1%nat. split; [exact E|]. split; [cbn [length]; lia|]. intros fuel p. cbn [app Nat.add scan]. rewrite T. reflexivity.
Qed.
Lemma skip_app n a p : length a = n -> (olet (_, r) := take n (a ++ p) in Some r) = Some p.
Proof. intro L. rewrite take_app by exact L. reflexivity. Qed.
Lemma class_lor base k : class_given k -> base = 36 \/ base = 58 \/ base = 37 \/ base = 59 \/ base = 33 \/ base = 34 ->
  class_at (Z.lor (Z.land base 159) k) = [named_class k].
Proof. intros G B. destruct B as [-> | [-> | [-> | [-> | [-> | ->]]]]]; pattern k; apply class_cases; auto; reflexivity. Qed.
Lemma behind_ref k p : class_given k -> behind (Z.lor (Z.land 36 159) k) p = olet (_, r) := take 4 p in Some r.
Proof. intro G. revert p. pattern k. apply class_cases; auto; reflexivity. Qed.
Lemma behind_ref3 k p : class_given k -> behind (Z.lor (Z.land 58 159) k) p = olet (_, r) := take 6 p in Some r.
Proof. intro G. revert p. pattern k. apply class_cases; auto; reflexivity. Qed.
Lemma behind_area k p : class_given k -> behind (Z.lor (Z.land 37 159) k) p = olet (_, r) := take 8 p in Some r.
Proof. intro G. revert p. pattern k. apply class_cases; auto; reflexivity. Qed.
Lemma behind_area3 k p : class_given k -> behind (Z.lor (Z.land 59 159) k) p = olet (_, r) := take 10 p in Some r.
Proof. intro G. revert p. pattern k. apply class_cases; auto; reflexivity. Qed.
Lemma behind_func k p : class_given k -> behind (Z.lor (Z.land 33 159) k) p = olet (_, r) := take 2 p in Some r.
Proof. intro G. revert p. pattern k. apply class_cases; auto; reflexivity. Qed.
Lemma behind_funcv k p : class_given k -> behind (Z.lor (Z.land 34 159) k) p = olet (_, r) := take 3 p in Some r.
Proof. intro G. revert p. pattern k. apply class_cases; auto; reflexivity. Qed.

(** The class table of the model agrees with [result_class] on every function in use. *)
Definition class_ok (f : Z) : bool :=
  match counts_of f with Nil => true | _ => match named_class (fst (property_of f)), result_class f with AsReference, AsReference | AsValue, AsValue | AsArray, AsArray => true | _, _ => false end end.
Lemma classes_ok : forallb (fun k => class_ok (Z.of_nat k)) (seq 0 485) = true.
Proof. vm_compute. reflexivity. Qed.
Lemma default_class f n : 0 <= f -> takes f n -> named_class (fst (property_of f)) = result_class f.
Proof.
  intros H T. destruct (Z_lt_ge_dec f 485) as [L|G].
  - pose proof (proj1 (forallb_forall _ _) classes_ok (Z.to_nat f)) as Q. cbv beta in Q. rewrite Z2Nat.id in Q by lia. specialize (Q ltac:(apply in_seq; lia)).
    unfold class_ok in Q. unfold takes in T. destruct (counts_of f); [| |contradiction]; destruct (named_class _), (result_class f); congruence.
  - unfold property_of. rewrite nth_overflow by (replace (length function_properties) with 485%nat by (vm_compute; reflexivity); lia).
    cbn [fst]. unfold result_class. cbn [existsb]. assert (N : forall j, j < 485 -> (f =? j) = false) by (intros; lia). rewrite !N by lia. reflexivity.
Qed.
Lemma asked_class f n cls : 0 <= f -> takes f n -> cls = CELL_DEFAULT \/ class_given cls ->
  named_class (class_of f cls) = if cls =? CELL_DEFAULT then result_class f else named_class cls.
Proof. intros H T _. unfold class_of. destruct (cls =? CELL_DEFAULT); [apply (default_class f n); auto|reflexivity]. Qed.

Section Main.
  Variable own : Z.
  Notation main := (main_of (Some own)).
  Ltac one := eapply scans_one; [apply appended_add8; [reflexivity|try lia; try (apply class_byte; auto 7)]|].
  Ltac cls := rewrite <- (class_lor _ _ ltac:(eassumption) ltac:(auto 7)).
  Lemma scan_postfix :
    (forall l x, postfix l x -> sane own x -> scans (main l) (asked x))
    /\ (forall l xs, postfix_all l xs -> sane_all (sane own) xs -> scans (main l) (flat_map asked xs)).
  Proof.
    apply postfix_both.
    - intros b _. rewrite main_one. cbn [push_ops fst snd asked]. change (@nil oclass) with (class_at 29). one. intro p. cbn [app]. reflexivity.
    - intros n _. rewrite main_one. cbn [push_ops asked]. destruct (_ && _)%bool; cbn [fst snd].
      + change (@nil oclass) with (class_at 30). one. intro p. rewrite app_nil_r. exact (skip_app 2 (le16 n) p eq_refl).
      + change (@nil oclass) with (class_at 31). one. intro p. rewrite app_nil_r. exact (skip_app 8 (le64 (double_of_int n)) p eq_refl).
    - intros d _. rewrite main_one. cbn [push_ops fst snd asked]. change (@nil oclass) with (class_at 31). one. intro p. rewrite app_nil_r. exact (skip_app 8 (le64 d) p eq_refl).
    - intros e _. rewrite main_one. cbn [push_ops fst snd asked]. change (@nil oclass) with (class_at 28). one. intro p. reflexivity.
    - intros _. rewrite main_one. cbn [push_ops fst snd asked]. change (@nil oclass) with (class_at 22). one. reflexivity.
    - intros s [F L]. rewrite main_one. cbn [push_ops fst snd asked]. change (@nil oclass) with (class_at 23). one.
      intro p. rewrite app_nil_r. change (behind 23 (ustr_bytes s LEN1 ++ p)) with (olet (n, p1) := read_string 1 (ustr_bytes s LEN1 ++ p) in Some p1). rewrite str1_read by auto. reflexivity.
    - intros r c i o k [_ Hk]. rewrite main_one. cbn [push_ops asked]. destruct (same_sheet (Some own) i); cbn [fst snd].
      + rewrite <- (class_lor 36 k) by auto. one. intro p. rewrite behind_ref by exact Hk. apply skip_app. reflexivity.
      + rewrite <- (class_lor 58 k) by auto. one. intro p. rewrite behind_ref3 by exact Hk. apply skip_app. reflexivity.
    - intros r1 c1 i1 r2 c2 i2 o k (_ & _ & _ & Hk). rewrite main_one. cbn [push_ops asked]. destruct (same_sheet (Some own) i1); cbn [fst snd].
      + rewrite <- (class_lor 37 k) by auto. one. intro p. rewrite behind_area by exact Hk. apply skip_app. reflexivity.
      + rewrite <- (class_lor 59 k) by auto. one. intro p. rewrite behind_area3 by exact Hk. apply skip_app. reflexivity.
    - intros o a l _ IH [Ho Ha]. rewrite main_app, main_one. cbn [push_ops fst snd asked]. rewrite <- (app_nil_r (asked a)). apply scans_app; [exact (IH Ha)|].
      replace (@nil oclass) with (class_at (op_code o)) by (destruct o; reflexivity). eapply scans_one; [apply appended_add8; [reflexivity|destruct o; cbn; lia]|]. intro p. destruct o; reflexivity.
    - intros o a b l m _ IHa _ IHb (Ho & Ha & Hb). rewrite !main_app, main_one, app_assoc. cbn [push_ops fst snd asked]. rewrite <- (app_nil_r (asked a ++ asked b)). apply scans_app; [apply scans_app; auto|].
      replace (@nil oclass) with (class_at (op_code o)) by (destruct o; reflexivity). eapply scans_one; [apply appended_add8; [reflexivity|destruct o; cbn; lia]|]. intro p. destruct o; reflexivity.
    - intros f k args l _ IH Hc Hs (Hf & Hn & Ht & Hk & Ha). rewrite main_app, main_one. cbn [asked]. apply scans_app; [exact (IH Ha)|].
      unfold push in Hs. cbn [push_ops] in *. cbv zeta in *. destruct (_ || _)%bool; cbn [fst snd] in *; [|discriminate Hs].
      pose proof (class_of_given f k ltac:(lia) Hk) as G. rewrite <- (asked_class f (zlen args) k) by (auto; lia). rewrite <- (class_lor 33) by auto 7.
      one. intro p. rewrite behind_func by exact G. apply skip_app. reflexivity.
    - intros f k args l _ IH (Hf & Hn & Ht & Hk & Ha). rewrite main_app, main_one. cbn [asked]. apply scans_app; [exact (IH Ha)|]. pose proof (zlen_nonneg _ args).
      pose proof (asked_class f (zlen args) k ltac:(lia) Ht Hk) as AC. apply accepts_takes in Ht; [|lia|lia]. unfold accepts_n in Ht. cbn [push_ops]. cbv zeta. rewrite Ht. cbn [fst snd].
      pose proof (class_of_given f k ltac:(lia) Hk) as G. rewrite <- AC. rewrite <- (class_lor 34) by auto 7.
      one. intro p. rewrite behind_funcv by exact G. apply skip_app. reflexivity.
    - intros _. apply scans_nil.
    - intros x xs l m _ IHx _ IHxs [Hx Hxs]. rewrite main_app. cbn [flat_map]. apply scans_app; auto.
  Qed.
End Main.
Lemma scans_reads ops ks : scans ops ks -> exists b, appended ops = Some b /\ token_classes b = Some ks.
Proof.
  intros (b & k & E & L & R). exists b. split; [exact E|]. unfold token_classes. replace (length b) with (k + (length b - k))%nat by lia.
  rewrite <- (app_nil_r b) at 2. rewrite R. destruct (length b - k)%nat; cbn [scan]; rewrite app_nil_r; reflexivity.
Qed.

(* ------------------------------------------------------------------ *)
(** * C27 *)

Theorem C27_pushes_keep_classes own l x : postfix l x -> sane own x ->
  exists toks, formula_bytes (pushes (Some own) l formula_new) = Ok toks /\ token_classes toks = Some (asked x).
Proof.
  intros P S. destruct (scans_reads _ _ (proj1 (scan_postfix own) l x P S)) as (b & E & R). exists b. split; [|exact R].
  rewrite pushes_parts. cbn [f_main f_aux formula_new app]. rewrite (proj1 (aux_postfix (Some own)) l x P). apply bytes_appended, E.
Qed.
Print Assumptions C27_pushes_keep_classes.
Theorem C27_tree_keeps_classes own x : sane own x -> nosix x ->
  exists F toks, dump (Some own) x formula_new = Ok (NO_ERRORS, F) /\ formula_bytes F = Ok toks /\ token_classes toks = Some (asked x).
Proof.
  intros S H6. destruct (dump_postfix own x S H6) as (l & P & D). destruct (C27_pushes_keep_classes own l x P S) as (toks & B & T). exists (pushes (Some own) l formula_new), toks. auto.
Qed.
Print Assumptions C27_tree_keeps_classes.
(** In a saved document. *)
Theorem C27_saved_classes R moves calls stream k globals body r c arr x v : saved_ok R moves calls stream ->
  globals_in stream globals -> sheet_in stream k body -> cells_of k calls r c = Some v ->
  tree_value (Z.of_nat k) arr x = Ok v -> sane (Z.of_nat k) x -> nosix x ->
  exists sst cells y f, read_sst globals = Some sst /\ read_cells sst body = Some cells /\ In y cells /\ rc_row y = r /\ rc_col y = c
    /\ rc_val y = RFormula f /\ token_classes (rf_toks f) = Some (asked x).
Proof.
  intros H Hg Hk Hc Hv S H6. destruct (C19_cell_reads_back _ _ _ _ _ _ _ _ _ _ H Hg Hk Hc) as (sst & cells & y & E1 & E2 & J & Er & Ec & Rd & _).
  destruct (C27_tree_keeps_classes (Z.of_nat k) x S H6) as (F & toks & D & B & T).
  unfold tree_value in Hv. rewrite D in Hv. cbn [bind] in Hv. rewrite B in Hv. cbn [bind] in Hv.
  destruct (expr_size x) as [n| |]; cbn [bind] in Hv; [|discriminate Hv|discriminate Hv].
  destruct (expr_guess x) as [g| |]; cbn [bind] in Hv; [|discriminate Hv|discriminate Hv].
  assert (Ev : v = UFormula arr toks n g) by congruence. subst v. cbn [reads_as] in Rd.
  exists sst, cells, y, (mkRF (fe_enc g) (fe_flags g) arr toks (fe_str g)). cbn [rf_toks]. repeat (split; auto).
Qed.
Print Assumptions C27_saved_classes.

Example C27_classes_case : sane 0 sample /\ nosix sample /\ asked sample = [AsValue; AsReference; AsValue; AsValue; AsValue; AsValue].
Proof. destruct C27_case as (S & _ & N & _). split; [exact S|]. split; [exact N|]. reflexivity. Qed.
(** A reference function inside an array function. *)
Example C27_classes_case2 : asked (EFunction 83 CELL_DEFAULT [EFunction 78 CELL_DEFAULT [ERef 0 0 0 RELATIVE_A1 CELLOP_AS_REFER; EInt 1; EInt 1]]) = [AsReference; AsReference; AsArray].
Proof. reflexivity. Qed.
