(** Formulas: the saved tokens read back as the tree (C27), argument counts (C28) and
    references to cells of other sheets (C29). *)
From Coq Require Import ZArith List Bool Lia ZifyBool ZifyNat.
From Verif Require Import Bytes UnitModel UnitProofs SpecBuf BufProofs RecModel SheetModel XfModel WbModel XfInv ApiModel SpecBiff BookRecs ApiInv SpecApi ApiEff
  RecFrames RecProofs SheetProofs SheetTrace GlobTrace WbProofs SaveOk SaveRecs SaveRead SpecSaved SaveMeans DocLimits SavedView Lookups DemoDoc ViewPay
  PropsSheet RowBlocks PropsRows SpecObj PropsObj
  PropsCells FormulaModel SpecFormula.
Import ListNotations.
Local Open Scope Z_scope.
Ltac Zify.zify_post_hook ::= Z.div_mod_to_equations.

(* ------------------------------------------------------------------ *)
(** * What an expression says *)

Definition bin_name (o : opname) : option binop :=
  match o with
  | OP_ADD => Some Add | OP_SUB => Some Sub | OP_MUL => Some Mul | OP_DIV => Some Div | OP_POWER => Some Power
  | OP_CONCAT => Some Concat | OP_LT => Some Lt | OP_LE => Some Le | OP_EQ => Some Eq | OP_GE => Some Ge
  | OP_GT => Some Gt | OP_NE => Some Ne | OP_ISECT => Some Isect | OP_UNION => Some Union | OP_RANGE => Some Range
  | _ => None
  end.
Definition un_name (o : opname) : option unop :=
  match o with OP_UPLUS => Some Plus | OP_UMINUS => Some Minus | OP_PERCENT => Some Percent | OP_PAREN => Some Paren | _ => None end.
(** The addressing modes: A1, A$1 (row fixed), $A1 (column fixed) and $A$1. *)
Definition cell_says (m : amode) (row col : Z) : corner :=
  match m with
  | RELATIVE_A1 => mkCorner row col true true
  | ABSOLUTE_As1 => mkCorner row col false true
  | ABSOLUTE_sA1 => mkCorner row col true false
  | ABSOLUTE_sAs1 => mkCorner row col false false
  end.
(** The sheet a reference names, for a formula on sheet [own]: none for its own sheet and
    for cells that are on no sheet. *)
Definition sheet_says (own idx : Z) : option Z := if ((idx =? invalidIndex) || (idx =? own))%bool then None else Some idx.

(** The tree the reader should find.  [md] is the identity in the property; the theorems
    below also use it to say what happens to the mixed modes. *)
Section Says.
  Variables (md : amode -> amode) (own : Z).
  Section List.
    Variable says : expr -> ftree -> Prop.
    Fixpoint says_all (l : list expr) (ts : list ftree) : Prop :=
      match l, ts with
      | [], [] => True
      | x :: l, t :: ts => says x t /\ says_all l ts
      | _, _ => False
      end.
  End List.
  Fixpoint says (x : expr) (t : ftree) {struct x} : Prop :=
    match x, t with
    | EBool b, FBool b' => b' = b
    | EInt n, FInt n' => n' = n
    | EInt n, FNum bits => denotes (NDouble bits) n
    | ENum bits, FNum bits' => bits' = bits
    | EErr e, FErr e' => e' = e
    | EMissing, FMissing => True
    | EText s, FText s' => s' = s
    | ERef row col idx opt _, FRef sh c => sh = sheet_says own idx /\ c = cell_says (md opt) row col
    | EArea r1 c1 i1 r2 c2 i2 opt _, FArea sh a b =>
        sh = sheet_says own i1 /\ a = cell_says (md opt) r1 c1 /\ b = cell_says (md opt) r2 c2
    | EUnary o a, FUn o' a' => un_name o = Some o' /\ says a a'
    | EBinary o a b, FBin o' a' b' => bin_name o = Some o' /\ says a a' /\ says b b'
    | EFunction f _ args, FCall f' args' => f' = f /\ says_all says args args'
    | _, _ => False
    end.
End Says.

(** Expressions as a program can build them: values in the range of their types, strings of
    at most 255 units, rows and columns the format can hold, references with an operand
    class, operators used with the right number of operands, functions with an argument
    count they take. *)
Definition class_given (cls : Z) : Prop := cls = CELLOP_AS_REFER \/ cls = CELLOP_AS_VALUE \/ cls = CELLOP_AS_ARRAY.
Definition place_ok (own row col idx : Z) : Prop :=
  0 <= row < 65536 /\ (0 <= idx < 65536 \/ idx = invalidIndex)
  /\ 0 <= col < match sheet_says own idx with None => 16384 | Some _ => 256 end.
Section Sane.
  Variable own : Z.
  Section List.
    Variable sane : expr -> Prop.
    Fixpoint sane_all (l : list expr) : Prop := match l with [] => True | x :: l => sane x /\ sane_all l end.
  End List.
  Fixpoint sane (x : expr) : Prop :=
    match x with
    | EBool _ | EMissing => True
    | EInt n => -2147483648 <= n < 2147483648
    | ENum bits => 0 <= bits < 2 ^ 64
    | EErr e => 0 <= e < 256
    | EText s => Forall (fun c => 0 <= c < 65536) s /\ zlen s <= 255
    | ERef row col idx _ cls => place_ok own row col idx /\ class_given cls
    | EArea r1 c1 i1 r2 c2 i2 _ cls => place_ok own r1 c1 i1 /\ place_ok own r2 c2 i2 /\ i2 = i1 /\ class_given cls
    | EUnary o a => un_name o <> None /\ sane a
    | EBinary o a b => bin_name o <> None /\ sane a /\ sane b
    | EFunction f cls args =>
        0 <= f < 32768 /\ zlen args <= 127 /\ takes f (zlen args) /\ (cls = CELL_DEFAULT \/ class_given cls) /\ sane_all sane args
    end.
End Sane.
(** Only the modes A1 and $A$1 occur. *)
Section Plain.
  Section List.
    Variable plain : expr -> Prop.
    Fixpoint plain_all (l : list expr) : Prop := match l with [] => True | x :: l => plain x /\ plain_all l end.
  End List.
  Fixpoint plain (x : expr) : Prop :=
    match x with
    | ERef _ _ _ opt _ | EArea _ _ _ _ _ _ opt _ => opt = RELATIVE_A1 \/ opt = ABSOLUTE_sAs1
    | EUnary _ a => plain a
    | EBinary _ a b => plain a /\ plain b
    | EFunction _ _ args => plain_all plain args
    | _ => True
    end.
End Plain.
(** No function is used that takes exactly six arguments. *)
Section NoSix.
  Section List.
    Variable nosix : expr -> Prop.
    Fixpoint nosix_all (l : list expr) : Prop := match l with [] => True | x :: l => nosix x /\ nosix_all l end.
  End List.
  Fixpoint nosix (x : expr) : Prop :=
    match x with
    | EUnary _ a => nosix a
    | EBinary _ a b => nosix a /\ nosix b
    | EFunction f _ args => counts_of f <> To 6 6 /\ nosix_all nosix args
    | _ => True
    end.
End NoSix.

(** The calls that push an expression in postfix order: operands first, then the operator
    or function; a function with a single possible count may be pushed in either form, provided the call
    without a count reports success. *)
Inductive postfix : list fop -> expr -> Prop :=
| px_bool b : postfix [PBool b] (EBool b)
| px_int n : postfix [PInteger n] (EInt n)
| px_num d : postfix [PNumber d] (ENum d)
| px_err e : postfix [PError e] (EErr e)
| px_missing : postfix [PMissing] EMissing
| px_text s : postfix [PText s] (EText s)
| px_ref r c i o k : postfix [PReference r c i o k] (ERef r c i o k)
| px_area r1 c1 i1 r2 c2 i2 o k : postfix [PArea r1 c1 i1 r2 c2 i2 o k] (EArea r1 c1 i1 r2 c2 i2 o k)
| px_unary o a l : postfix l a -> postfix (l ++ [POperator (op_code o)]) (EUnary o a)
| px_binary o a b l m : postfix l a -> postfix m b -> postfix (l ++ m ++ [POperator (op_code o)]) (EBinary o a b)
| px_fixed f k args l : postfix_all l args -> counts_of f = To (zlen args) (zlen args) ->
    fst (push None formula_new (PFunction f k)) = NO_ERRORS ->
    postfix (l ++ [PFunction f k]) (EFunction f k args)
| px_counted f k args l : postfix_all l args -> postfix (l ++ [PFunctionN f (zlen args) k]) (EFunction f k args)
with postfix_all : list fop -> list expr -> Prop :=
| pa_nil : postfix_all [] []
| pa_cons x xs l m : postfix l x -> postfix_all m xs -> postfix_all (l ++ m) (x :: xs).
Scheme postfix_mind := Minimality for postfix Sort Prop
  with postfix_all_mind := Minimality for postfix_all Sort Prop.
Combined Scheme postfix_both from postfix_mind, postfix_all_mind.

(* ------------------------------------------------------------------ *)
(** * Proofs *)

Lemma expr_ind' (P : expr -> Prop) :
  (forall b, P (EBool b)) -> (forall n, P (EInt n)) -> (forall d, P (ENum d)) -> (forall e, P (EErr e)) -> P EMissing ->
  (forall s, P (EText s)) -> (forall r c i o k, P (ERef r c i o k)) ->
  (forall r1 c1 i1 r2 c2 i2 o k, P (EArea r1 c1 i1 r2 c2 i2 o k)) ->
  (forall o a, P a -> P (EUnary o a)) -> (forall o a b, P a -> P b -> P (EBinary o a b)) ->
  (forall f k args, Forall P args -> P (EFunction f k args)) -> forall x, P x.
Proof.
  intros H1 H2 H3 H4 H5 H6 H7 H8 H9 H10 H11. fix IH 1. intro x. destruct x; [apply H1|apply H2|apply H3|apply H4|apply H5|apply H6|apply H7|apply H8|apply H9|apply H10|apply H11]; try apply IH.
  induction args as [|a l IHl]; constructor; [apply IH|exact IHl].
Qed.

Definition swap (m : amode) : amode :=
  match m with ABSOLUTE_As1 => ABSOLUTE_sA1 | ABSOLUTE_sA1 => ABSOLUTE_As1 | m => m end.

Lemma mask_small n k : 0 <= k -> 0 <= n < 2 ^ k -> Z.land n (Z.ones k) = n.
Proof. intros Hk H. rewrite Z.land_ones by exact Hk. apply Z.mod_small. exact H. Qed.
Lemma col_field col m mask : 0 <= col < mask + 1 -> mask = 16383 \/ mask = 255 ->
  let v := Z.lor (Z.land col mask) (mode_bits m) in
  0 <= v < 65536 /\ v mod 16384 = col /\ Z.testbit v 15 = co_row_rel (cell_says (swap m) 0 0) /\ Z.testbit v 14 = co_col_rel (cell_says (swap m) 0 0).
Proof.
  intros Hc Hm. cbv zeta.
  assert (E : Z.land col mask = col).
  { destruct Hm as [-> | ->]; [apply (mask_small col 14)|apply (mask_small col 8)]; cbn; lia. }
  rewrite E. assert (C : 0 <= col < 2 ^ 14) by (destruct Hm as [-> | ->]; cbn; lia).
  assert (N : 0 <= Z.lor col (mode_bits m)) by (apply Z.lor_nonneg; split; [lia|destruct m; cbn; lia]).
  assert (B : forall i, 14 <= i -> Z.testbit col i = false).
  { intros i Hi. destruct (Z.eq_dec col 0) as [->|Z0]; [apply Z.bits_0|]. apply Z.bits_above_log2; [lia|].
    apply Z.log2_lt_pow2; [lia|]. apply Z.lt_le_trans with (2 ^ 14); [lia|]. apply Z.pow_le_mono_r; lia. }
  repeat split; auto.
  - assert (M : Z.land (Z.lor col (mode_bits m)) (Z.ones 16) = Z.lor col (mode_bits m)).
    { rewrite Z.land_lor_distr_l. rewrite (mask_small col 16) by (cbn; cbn in C; lia).
      rewrite (mask_small (mode_bits m) 16) by (destruct m; cbn; lia). reflexivity. }
    rewrite <- M, Z.land_ones by lia. change (2 ^ 16) with 65536. apply Z.mod_pos_bound. lia.
  - change 16384 with (2 ^ 14). rewrite <- Z.land_ones by lia. rewrite Z.land_lor_distr_l, (mask_small col 14) by lia.
    replace (Z.land (mode_bits m) (Z.ones 14)) with 0 by (destruct m; reflexivity). apply Z.lor_0_r.
  - rewrite Z.lor_spec, B by lia. destruct m; reflexivity.
  - rewrite Z.lor_spec, B by lia. destruct m; reflexivity.
Qed.
Lemma corner_read row col m mask : 0 <= col < mask + 1 -> mask = 16383 \/ mask = 255 ->
  corner_at row (Z.lor (Z.land col mask) (mode_bits m)) = cell_says (swap m) row col.
Proof.
  intros Hc Hm. destruct (col_field col m mask Hc Hm) as (_ & A & B & C). cbv zeta in *. unfold corner_at. rewrite A, B, C.
  destruct m; reflexivity.
Qed.
Lemma take8b v r : 0 <= v < 256 -> take_num 1 (byte_k 0 v :: r) = Some (v, r).
Proof. intro H. unfold take_num. change (byte_k 0 v :: r) with ([byte_k 0 v] ++ r). rewrite take_app by reflexivity. cbn [le_value]. rewrite byte_k0, Z.mod_small by lia. f_equal. f_equal. lia. Qed.
Lemma take64 v r : 0 <= v < 2 ^ 64 -> take_num 8 (le64 v ++ r) = Some (v, r).
Proof. intro H. unfold take_num. rewrite take_app by reflexivity. rewrite le64_value, Z.mod_small by exact H. reflexivity. Qed.
Lemma str1_read s r : Forall (fun c => 0 <= c < 65536) s -> zlen s <= 255 -> read_string 1 (ustr_bytes s LEN1 ++ r) = Some (s, r).
Proof. intros F L. rewrite ustr_spec by exact F. apply read_spec_string; auto. Qed.


(** The tables agree: the masks of the model and the ranges of the specification. *)
Definition fixed_mask (m : Z) : bool :=
  ((m =? 1) || (m =? 2) || (m =? 4) || (m =? 8) || (m =? 16) || (m =? 32) || (m =? A_UNKNOWN))%bool.
Definition table_ok (f : Z) : bool :=
  let m := args_mask f in
  let c := fst (property_of f) in
  ((c =? 32) || (c =? 64) || (c =? 96))%bool &&
  match counts_of f with
  | Any => m =? A_UNKNOWN
  | Nil => m =? 0
  | To a b =>
      (negb (m =? A_UNKNOWN) && (0 <=? a) && (a <=? b) && (b <=? 30)
       && forallb (fun k => let n := Z.of_nat k in
            Bool.eqb (negb (Z.land m (Z.shiftl 1 n) =? 0)) ((a <=? n) && (n <=? b))%bool
            && Bool.eqb (Z.land m (4294967295 - Z.shiftl 1 n) =? 0) (m =? Z.shiftl 1 n)) (seq 0 31)
       && (negb (fixed_mask m) || ((a =? b) && (a <=? 5))%bool)
       && forallb (fun k => negb (m =? Z.shiftl 1 (Z.of_nat k)) || ((a =? Z.of_nat k) && (b =? Z.of_nat k) && (a <=? 6))%bool) (seq 0 31))%bool
  end.
Lemma tables_ok : forallb (fun k => table_ok (Z.of_nat k)) (seq 0 485) = true.
Proof. vm_compute. reflexivity. Qed.
Lemma tables f : 0 <= f -> table_ok f = true.
Proof.
  intro H. destruct (Z_lt_ge_dec f 485) as [L|G].
  - pose proof (proj1 (forallb_forall _ _) tables_ok (Z.to_nat f)) as T. cbv beta in T. rewrite Z2Nat.id in T by lia. apply T. apply in_seq. lia.
  - assert (E : args_mask f = A_UNKNOWN /\ fst (property_of f) = 64 /\ counts_of f = Any).
    { unfold args_mask, property_of, counts_of. rewrite !nth_overflow; [auto| |].
      - replace (length argument_counts) with 485%nat by (vm_compute; reflexivity). lia.
      - replace (length function_properties) with 485%nat by (vm_compute; reflexivity). lia. }
    destruct E as (A & B & C). unfold table_ok. cbv zeta. rewrite A, B, C. reflexivity.
Qed.
Lemma class_of_given f cls : 0 <= f -> cls = CELL_DEFAULT \/ class_given cls -> class_given (class_of f cls).
Proof.
  intros H [->|G].
  - pose proof (tables f H) as T. unfold table_ok in T. cbv zeta in T. apply andb_prop in T. destruct T as [T _].
    unfold class_of. change (CELL_DEFAULT =? CELL_DEFAULT) with true. cbv iota. unfold class_given, CELLOP_AS_REFER, CELLOP_AS_VALUE, CELLOP_AS_ARRAY. lia.
  - unfold class_of. replace (cls =? CELL_DEFAULT) with false; [exact G|]. unfold class_given, CELLOP_AS_REFER, CELLOP_AS_VALUE, CELLOP_AS_ARRAY, CELL_DEFAULT in *. lia.
Qed.
(** What the two push forms accept. *)
Definition accepts_n (f n : Z) : bool :=
  ((args_mask f =? A_UNKNOWN) || ((n <=? 30) && negb (Z.land (args_mask f) (Z.shiftl 1 n) =? 0)))%bool.
Lemma accepts_takes f n : 0 <= f -> 0 <= n -> accepts_n f n = true <-> takes f n.
Proof.
  intros Hf Hn. pose proof (tables f Hf) as T. unfold table_ok in T. cbv zeta in T. apply andb_prop in T. destruct T as [_ T].
  unfold accepts_n, takes. destruct (counts_of f) as [a b| |].
  - apply andb_prop in T. destruct T as [T _]. apply andb_prop in T. destruct T as [T _]. apply andb_prop in T. destruct T as [T1 T2].
    assert (N : (args_mask f =? A_UNKNOWN) = false) by (destruct (args_mask f =? A_UNKNOWN); [discriminate T1|reflexivity]).
    rewrite N. cbn [orb]. destruct (Z_le_gt_dec n 30) as [L|G].
    + pose proof (proj1 (forallb_forall _ _) T2 (Z.to_nat n)) as X. cbv beta zeta in X. rewrite Z2Nat.id in X by lia.
      specialize (X ltac:(apply in_seq; lia)). apply andb_prop in X. destruct X as [X _]. apply eqb_prop in X. rewrite X.
      replace (n <=? 30) with true by lia. cbn [andb]. lia.
    + replace (n <=? 30) with false by lia. cbn [andb]. split; [discriminate|]. lia.
  - rewrite T. cbn [orb]. tauto.
  - replace (args_mask f) with 0 by lia. rewrite Z.land_0_l. change (0 =? A_UNKNOWN) with false. cbn [orb]. change (0 =? 0) with true. rewrite andb_false_r. split; [discriminate|tauto].
Qed.
Lemma variadic_takes f n : 0 <= f -> 0 <= n -> takes f n -> counts_of f <> To 6 6 ->
  variadic f n = Ok true \/ variadic f n = Ok false /\ counts_of f = To n n /\ fixed_mask (args_mask f) = true.
Proof.
  intros Hf Hn Ht H6. pose proof (tables f Hf) as T. unfold table_ok in T. cbv zeta in T. apply andb_prop in T. destruct T as [_ T].
  unfold variadic, takes in *. cbv zeta. destruct (counts_of f) as [a b| |] eqn:C.
  - apply andb_prop in T. destruct T as [T T4]. apply andb_prop in T. destruct T as [T T3]. apply andb_prop in T. destruct T as [T1 T2].
    assert (N : (args_mask f =? A_UNKNOWN) = false) by (destruct (args_mask f =? A_UNKNOWN); [discriminate T1|reflexivity]).
    rewrite N. replace (32 <=? n) with false by lia.
    destruct (Z.land (args_mask f) (4294967295 - Z.shiftl 1 n) =? 0) eqn:E; [right|left; reflexivity].
    pose proof (proj1 (forallb_forall _ _) T2 (Z.to_nat n)) as X. cbv beta zeta in X. rewrite Z2Nat.id in X by lia.
    specialize (X ltac:(apply in_seq; lia)). apply andb_prop in X. destruct X as [_ X]. apply eqb_prop in X. rewrite E in X. symmetry in X. apply Z.eqb_eq in X.
    pose proof (proj1 (forallb_forall _ _) T4 (Z.to_nat n)) as Y. cbv beta in Y. rewrite Z2Nat.id in Y by lia.
    specialize (Y ltac:(apply in_seq; lia)). rewrite X, Z.eqb_refl in Y. cbn [negb orb] in Y.
    assert (En : a = n /\ b = n /\ a <= 6) by lia. destruct En as (-> & -> & L). split; [reflexivity|]. split; [reflexivity|].
    assert (L5 : n <= 5). { destruct (Z.eq_dec n 6) as [->|]; [congruence|lia]. }
    rewrite X. assert (D : n = 0 \/ n = 1 \/ n = 2 \/ n = 3 \/ n = 4 \/ n = 5) by lia.
    destruct D as [-> | [-> | [-> | [-> | [-> | ->]]]]]; reflexivity.
  - rewrite T. left. reflexivity.
  - contradiction.
Qed.

(** One push read back. *)
Section Read.
  Variables (own : Z) (arity : Z -> option Z) (A : agrees arity).
  (** [ops] leaves bytes that make the reader push [ts] (given in push order). *)
  Definition leaves (ops : list uop) (ts : list ftree) : Prop :=
    exists b k, appended ops = Some b /\ (k <= length b)%nat /\ Forall (fun x => 0 <= x < 256) b /\
      forall fuel p st, run_tokens (k + fuel) arity (b ++ p) st = run_tokens fuel arity p (rev ts ++ st).
  Lemma leaves_nil : leaves [] [].
  Proof. exists [], 0%nat. repeat split; auto. Qed.
  Lemma leaves_app o1 o2 t1 t2 : leaves o1 t1 -> leaves o2 t2 -> leaves (o1 ++ o2) (t1 ++ t2).
  Proof.
    intros (b1 & k1 & E1 & L1 & V1 & R1) (b2 & k2 & E2 & L2 & V2 & R2). exists (b1 ++ b2), (k1 + k2)%nat.
    split; [apply appended_app; auto|]. split; [rewrite app_length; lia|]. split; [apply Forall_app; auto|].
    intros fuel p st. rewrite <- app_assoc, <- Nat.add_assoc, R1, R2, rev_app_distr, app_assoc. reflexivity.
  Qed.
  (** A token that consumes the operands [ts] and leaves [t]. *)
  Lemma leaves_token ops ts o t c q : leaves ops ts ->
    appended o = Some (c :: q) -> 0 <= c < 256 -> Forall (fun x => 0 <= x < 256) q ->
    (forall p st, token arity c (q ++ p) (rev ts ++ st) = Some (t :: st, p)) -> leaves (ops ++ o) [t].
  Proof.
    intros (b1 & k1 & E1 & L1 & V1 & R1) Eo Hc Hq T. exists (b1 ++ c :: q), (k1 + 1)%nat.
    split; [apply appended_app; auto|]. split; [rewrite app_length; cbn [length]; lia|]. split; [apply Forall_app; auto|].
    intros fuel p st. rewrite <- app_assoc, <- Nat.add_assoc, R1. cbn [app Nat.add run_tokens]. rewrite T. reflexivity.
  Qed.
  Lemma leaves_leaf o t c q : appended o = Some (c :: q) -> 0 <= c < 256 -> Forall (fun x => 0 <= x < 256) q ->
    (forall p st, token arity c (q ++ p) st = Some (t :: st, p)) -> leaves o [t].
  Proof. intros. apply (leaves_token [] [] o t c q); auto using leaves_nil. Qed.
End Read.

Definition main_of (own : option Z) (l : list fop) : list uop := flat_map (fun o => snd (fst (push_ops own o))) l.
Definition aux_of (own : option Z) (l : list fop) : list uop := flat_map (fun o => snd (push_ops own o)) l.
Lemma pushes_parts own l : forall F, pushes own l F = mkFormula (f_main F ++ main_of own l) (f_aux F ++ aux_of own l).
Proof.
  unfold pushes. induction l as [|o l IH]; intro F; cbn [fold_left].
  - unfold main_of, aux_of. cbn [flat_map]. rewrite !app_nil_r. destruct F; reflexivity.
  - rewrite IH. unfold push, main_of, aux_of. cbn [flat_map]. destruct (push_ops own o) as [[e m] a]. cbn [fst snd f_main f_aux].
    rewrite !app_assoc. reflexivity.
Qed.
Lemma main_app own l m : main_of own (l ++ m) = main_of own l ++ main_of own m.
Proof. apply flat_map_app. Qed.
Lemma main_one own o : main_of own [o] = snd (fst (push_ops own o)).
Proof. unfold main_of. cbn [flat_map]. apply app_nil_r. Qed.
Lemma operands_rev ts st : operands (length ts) (rev ts ++ st) = Some (ts, st).
Proof.
  unfold operands. replace (Nat.leb _ _) with true by (rewrite app_length, rev_length; lia).
  rewrite <- (rev_length ts), firstn_app, skipn_app, firstn_all, skipn_all, Nat.sub_diag, firstn_O, skipn_O, app_nil_r, rev_involutive. reflexivity.
Qed.
Lemma says_all_length (S : expr -> ftree -> Prop) xs : forall ts, says_all S xs ts -> length ts = length xs.
Proof. induction xs as [|x xs IH]; intros [|t ts]; cbn [says_all length]; try tauto. intros [_ H]. f_equal. auto. Qed.
Lemma le16_b v : Forall (fun x => 0 <= x < 256) (le16 v).
Proof. repeat constructor; apply byte_k_byte; lia. Qed.
Lemma le64_b v : Forall (fun x => 0 <= x < 256) (le64 v).
Proof. repeat constructor; apply byte_k_byte; lia. Qed.
Lemma ustr1_b s : Forall (fun x => 0 <= x < 256) (ustr_bytes s LEN1).
Proof.
  unfold ustr_bytes, ustr_header, ustr_body. apply Forall_app. split.
  - constructor; [apply byte_k_byte; lia|]. constructor; [|constructor]. destruct (is_ascii s); lia.
  - destruct (is_ascii s).
    + apply Forall_map, Forall_forall. intros x _. apply byte_k_byte. lia.
    + apply Forall_flat_map, Forall_forall. intros x _. repeat constructor; apply byte_k_byte; lia.
Qed.
Lemma class_cases (P : Z -> Prop) cls : class_given cls -> P 32 -> P 64 -> P 96 -> P cls.
Proof. intros [-> | [-> | ->]]; auto. Qed.
Lemma same_sheet_says own idx : same_sheet (Some own) idx = match sheet_says own idx with None => true | Some _ => false end.
Proof. unfold same_sheet, sheet_says. destruct (_ || _)%bool; reflexivity. Qed.
Lemma appended_add8 v ops q : appended ops = Some q -> 0 <= v < 256 -> appended (OAdd8 v :: ops) = Some (v :: q).
Proof. intros E H. cbn [appended op_bytes]. rewrite E, byte_k0, Z.mod_small by lia. reflexivity. Qed.

Lemma class_byte base k : class_given k -> base = 36 \/ base = 58 \/ base = 37 \/ base = 59 \/ base = 33 \/ base = 34 ->
  0 <= Z.lor (Z.land base 159) k < 256.
Proof. intros G B. destruct B as [-> | [-> | [-> | [-> | [-> | ->]]]]]; apply class_cases with (cls := k); auto; cbn; lia. Qed.
Section Tokens.
  Variable arity : Z -> option Z.
  Ltac each := intros k p st G; apply class_cases with (cls := k); auto; reflexivity.
  Lemma tok_ref : forall k p st, class_given k -> token arity (Z.lor (Z.land 36 159) k) p st =
    olet (c, p1) := ref_cell p in Some (FRef None c :: st, p1).
  Proof. intros k p st G. revert p st. pattern k. apply class_cases; auto; reflexivity. Qed.
  Lemma tok_ref3 : forall k p st, class_given k -> token arity (Z.lor (Z.land 58 159) k) p st =
    olet (i, p1) := take_num 2 p in olet (c, p2) := ref_cell p1 in Some (FRef (Some i) c :: st, p2).
  Proof. intros k p st G. revert p st. pattern k. apply class_cases; auto; reflexivity. Qed.
  Lemma tok_area : forall k p st, class_given k -> token arity (Z.lor (Z.land 37 159) k) p st =
    olet (c1, c2, p1) := ref_area p in Some (FArea None c1 c2 :: st, p1).
  Proof. intros k p st G. revert p st. pattern k. apply class_cases; auto; reflexivity. Qed.
  Lemma tok_area3 : forall k p st, class_given k -> token arity (Z.lor (Z.land 59 159) k) p st =
    olet (i, p1) := take_num 2 p in olet (c1, c2, p2) := ref_area p1 in Some (FArea (Some i) c1 c2 :: st, p2).
  Proof. intros k p st G. revert p st. pattern k. apply class_cases; auto; reflexivity. Qed.
  Lemma tok_func : forall k p st, class_given k -> token arity (Z.lor (Z.land 33 159) k) p st =
    olet (f, p1) := take_num 2 p in olet n := arity f in
    olet (args, st') := operands (Z.to_nat n) st in Some (FCall f args :: st', p1).
  Proof. intros k p st G. revert p st. pattern k. apply class_cases; auto; reflexivity. Qed.
  Lemma tok_funcv : forall k p st, class_given k -> token arity (Z.lor (Z.land 34 159) k) p st =
    olet (n, p1) := take_num 1 p in olet (f, p2) := take_num 2 p1 in
    olet (args, st') := operands (Z.to_nat (n mod 128)) st in Some (FCall (f mod 32768) args :: st', p2).
  Proof. intros k p st G. revert p st. pattern k. apply class_cases; auto; reflexivity. Qed.
End Tokens.

Section Main.
  Variables (own : Z) (arity : Z -> option Z) (A : agrees arity).
  Notation leaves := (leaves arity).
  Notation main := (main_of (Some own)).
  Ltac parts := repeat first [apply ustr1_b | apply le16_b | apply le64_b | apply Forall_app; split | apply Forall_nil | apply Forall_cons].
  Lemma sheet_some i j : sheet_says own i = Some j -> (0 <= i < 65536 \/ i = invalidIndex) -> j = i /\ 0 <= i < 65536.
  Proof. unfold sheet_says, invalidIndex. destruct (_ || _)%bool eqn:Q; [discriminate|]. intros S H. injection S as <-. lia. Qed.
  Lemma read_ref r c i o k : sane own (ERef r c i o k) -> exists t, leaves (main [PReference r c i o k]) [t] /\ says swap own (ERef r c i o k) t.
  Proof.
    intros [(Hr & Hi & Hc) Hk]. exists (FRef (sheet_says own i) (cell_says (swap o) r c)). split; [|split; reflexivity].
    rewrite main_one. cbn [push_ops]. rewrite !same_sheet_says.
    pose proof (fun m => corner_read r c o m) as CR. pose proof (fun m => col_field c o m) as CF. cbv zeta in CF.
    destruct (sheet_says own i) as [j|] eqn:S; cbn [fst snd].
    - destruct (sheet_some _ _ S Hi) as [-> Hi'].
      destruct (CF 255 ltac:(lia) ltac:(lia)) as [U _]. specialize (CR 255 ltac:(lia) ltac:(lia)).
      eapply leaves_leaf; [apply appended_add8; [reflexivity|apply class_byte; auto]|apply class_byte; auto| |].
      + cbn [app]. parts.
      + intros p st. rewrite tok_ref3 by exact Hk. rewrite app_nil_r, <- !app_assoc. rewrite take16 by (unfold SpecApi.u16; lia).
        unfold ref_cell. rewrite !take16 by (unfold SpecApi.u16; lia). rewrite CR. reflexivity.
    - destruct (CF 16383 ltac:(lia) ltac:(lia)) as [U _]. specialize (CR 16383 ltac:(lia) ltac:(lia)).
      eapply leaves_leaf; [apply appended_add8; [reflexivity|apply class_byte; auto]|apply class_byte; auto| |].
      + cbn [app]. parts.
      + intros p st. rewrite tok_ref by exact Hk. rewrite app_nil_r, <- !app_assoc.
        unfold ref_cell. rewrite !take16 by (unfold SpecApi.u16; lia). rewrite CR. reflexivity.
  Qed.
  Lemma read_area r1 c1 i1 r2 c2 i2 o k : sane own (EArea r1 c1 i1 r2 c2 i2 o k) ->
    exists t, leaves (main [PArea r1 c1 i1 r2 c2 i2 o k]) [t] /\ says swap own (EArea r1 c1 i1 r2 c2 i2 o k) t.
  Proof.
    intros ((Hr & Hi & Hc) & (Hr2 & _ & Hc2) & -> & Hk). exists (FArea (sheet_says own i1) (cell_says (swap o) r1 c1) (cell_says (swap o) r2 c2)).
    split; [|repeat split]. rewrite main_one. cbn [push_ops]. rewrite !same_sheet_says.
    pose proof (fun r c m => corner_read r c o m) as CR. pose proof (fun c m => col_field c o m) as CF. cbv zeta in CF.
    destruct (sheet_says own i1) as [j|] eqn:S; cbn [fst snd].
    - destruct (sheet_some _ _ S Hi) as [-> Hi'].
      destruct (CF c1 255 ltac:(lia) ltac:(lia)) as [U1 _]. destruct (CF c2 255 ltac:(lia) ltac:(lia)) as [U2 _].
      eapply leaves_leaf; [apply appended_add8; [reflexivity|apply class_byte; auto]|apply class_byte; auto| |].
      + cbn [app]. parts.
      + intros p st. rewrite tok_area3 by exact Hk. rewrite app_nil_r, <- !app_assoc. rewrite take16 by (unfold SpecApi.u16; lia).
        unfold ref_area. rewrite !take16 by (unfold SpecApi.u16; lia). rewrite !CR by lia. reflexivity.
    - destruct (CF c1 16383 ltac:(lia) ltac:(lia)) as [U1 _]. destruct (CF c2 16383 ltac:(lia) ltac:(lia)) as [U2 _].
      eapply leaves_leaf; [apply appended_add8; [reflexivity|apply class_byte; auto]|apply class_byte; auto| |].
      + cbn [app]. parts.
      + intros p st. rewrite tok_area by exact Hk. rewrite app_nil_r, <- !app_assoc.
        unfold ref_area. rewrite !take16 by (unfold SpecApi.u16; lia). rewrite !CR by lia. reflexivity.
  Qed.
  Lemma read_postfix :
    (forall l x, postfix l x -> sane own x -> exists t, leaves (main l) [t] /\ says swap own x t)
    /\ (forall l xs, postfix_all l xs -> sane_all (sane own) xs -> exists ts, leaves (main l) ts /\ says_all (says swap own) xs ts).
  Proof.
    apply postfix_both.
    - intros b _. exists (FBool b). split; [|reflexivity]. rewrite main_one. cbn [push_ops fst snd].
      eapply leaves_leaf; [apply appended_add8; [reflexivity|lia]|lia| |].
      + cbn [app]. parts. apply byte_k_byte. lia.
      + destruct b; reflexivity.
    - intros n Hn. cbn [sane] in Hn. rewrite main_one. cbn [push_ops]. destruct (_ && _)%bool eqn:E; cbn [fst snd].
      + exists (FInt n). split; [|reflexivity]. eapply leaves_leaf; [apply appended_add8; [reflexivity|lia]|lia| |].
        * cbn [app]. parts.
        * intros p st. rewrite app_nil_r. change (token arity 30 (le16 n ++ p) st) with (olet (n, p1) := take_num 2 (le16 n ++ p) in Some (FInt n :: st, p1)).
          rewrite take16 by (unfold SpecApi.u16; lia). reflexivity.
      + exists (FNum (double_of_int n)). split; [|apply double_of_int_denotes; lia].
        eapply leaves_leaf; [apply appended_add8; [reflexivity|lia]|lia| |].
        * cbn [app]. parts.
        * intros p st. rewrite app_nil_r. change (token arity 31 (le64 (double_of_int n) ++ p) st) with (olet (n, p1) := take_num 8 (le64 (double_of_int n) ++ p) in Some (FNum n :: st, p1)).
          rewrite take64 by (apply double_of_int_range; lia). reflexivity.
    - intros d Hd. cbn [sane] in Hd. exists (FNum d). split; [|reflexivity]. rewrite main_one. cbn [push_ops fst snd].
      eapply leaves_leaf; [apply appended_add8; [reflexivity|lia]|lia| |].
      + cbn [app]. parts.
      + intros p st. rewrite app_nil_r. change (token arity 31 (le64 d ++ p) st) with (olet (n, p1) := take_num 8 (le64 d ++ p) in Some (FNum n :: st, p1)).
        rewrite take64 by exact Hd. reflexivity.
    - intros e He. cbn [sane] in He. exists (FErr e). split; [|reflexivity]. rewrite main_one. cbn [push_ops fst snd].
      eapply leaves_leaf; [apply appended_add8; [reflexivity|lia]|lia| |].
      + cbn [app]. parts. apply byte_k_byte. lia.
      + intros p st. cbn [app]. change (token arity 28 (byte_k 0 e :: p) st) with (olet (n, p1) := take_num 1 (byte_k 0 e :: p) in Some (FErr n :: st, p1)).
        rewrite take8b by exact He. reflexivity.
    - intros _. exists FMissing. split; [|exact I]. rewrite main_one. cbn [push_ops fst snd].
      eapply leaves_leaf; [apply appended_add8; [reflexivity|lia]|lia| |].
      + constructor.
      + reflexivity.
    - intros s [F L]. exists (FText s). split; [|reflexivity]. rewrite main_one. cbn [push_ops fst snd].
      eapply leaves_leaf; [apply appended_add8; [reflexivity|lia]|lia| |].
      + cbn [app]. parts.
      + intros p st. rewrite app_nil_r. change (token arity 23 (ustr_bytes s LEN1 ++ p) st) with (olet (n, p1) := read_string 1 (ustr_bytes s LEN1 ++ p) in Some (FText n :: st, p1)).
        rewrite str1_read by auto. reflexivity.
    - intros r c i o k H. apply read_ref, H.
    - intros r1 c1 i1 r2 c2 i2 o k H. apply read_area, H.
    - intros o a l _ IH [Ho Ha]. destruct (IH Ha) as (t & L & S). destruct (un_name o) as [u|] eqn:Eu; [|congruence].
      exists (FUn u t). split; [|split; [exact Eu|exact S]]. rewrite main_app, main_one. cbn [push_ops fst snd].
      eapply leaves_token; [exact L|apply appended_add8; [reflexivity|destruct o; cbn; lia]|destruct o; cbn; lia| |].
      + constructor.
      + intros p st. cbn [rev app]. destruct o; try discriminate Eu; injection Eu as <-; reflexivity.
    - intros o a b l m _ IHa _ IHb (Ho & Ha & Hb). destruct (IHa Ha) as (t & L & S). destruct (IHb Hb) as (t' & L' & S').
      destruct (bin_name o) as [u|] eqn:Eu; [|congruence].
      exists (FBin u t t'). split; [|split; [exact Eu|auto]]. rewrite !main_app, main_one, app_assoc. cbn [push_ops fst snd].
      eapply leaves_token; [apply leaves_app; [exact L|exact L']|apply appended_add8; [reflexivity|destruct o; cbn; lia]|destruct o; cbn; lia| |].
      + constructor.
      + intros p st. cbn [rev app]. destruct o; try discriminate Eu; injection Eu as <-; reflexivity.
    - intros f k args l _ IH Hc Hs (Hf & Hn & Ht & Hk & Ha). destruct (IH Ha) as (ts & L & S).
      exists (FCall f ts). split; [|split; [reflexivity|exact S]]. rewrite main_app, main_one.
      unfold push in Hs. cbn [push_ops] in *. cbv zeta in *.
      destruct (_ || _)%bool; cbn [fst snd] in *; [|discriminate Hs].
      pose proof (class_of_given f k ltac:(lia) Hk) as G.
      eapply leaves_token; [exact L|apply appended_add8; [reflexivity|apply class_byte; auto 7]|apply class_byte; auto 7| |].
      + cbn [app]. parts.
      + intros p st. rewrite tok_func by exact G. rewrite app_nil_r, take16 by (unfold SpecApi.u16; lia).
        rewrite (A f (zlen args)) by (auto; lia). pose proof (says_all_length _ _ _ S) as Ls. unfold zlen. rewrite Nat2Z.id, <- Ls, operands_rev. reflexivity.
    - intros f k args l _ IH (Hf & Hn & Ht & Hk & Ha). destruct (IH Ha) as (ts & L & S). pose proof (zlen_nonneg _ args).
      exists (FCall f ts). split; [|split; [reflexivity|exact S]]. rewrite main_app, main_one.
      apply accepts_takes in Ht; [|lia|lia]. unfold accepts_n in Ht. cbn [push_ops]. cbv zeta. rewrite Ht. cbn [fst snd].
      pose proof (class_of_given f k ltac:(lia) Hk) as G.
      assert (E1 : Z.land (zlen args) 127 = zlen args) by (apply (mask_small _ 7); lia).
      assert (E2 : Z.land f 32767 = f) by (apply (mask_small _ 15); lia). rewrite E1, E2.
      eapply leaves_token; [exact L|apply appended_add8; [reflexivity|apply class_byte; auto 7]|apply class_byte; auto 7| |].
      + cbn [app]. parts. apply byte_k_byte. lia.
      + intros p st. rewrite tok_funcv by exact G. cbn [app]. rewrite take8b by lia. rewrite app_nil_r, take16 by (unfold SpecApi.u16; lia).
        rewrite !Z.mod_small by lia. pose proof (says_all_length _ _ _ S) as Ls. unfold zlen. rewrite Nat2Z.id, <- Ls, operands_rev. reflexivity.
    - intros _. exists []. split; [apply leaves_nil|exact I].
    - intros x xs l m _ IHx _ IHxs [Hx Hxs]. destruct (IHx Hx) as (t & L & S). destruct (IHxs Hxs) as (ts & L' & S').
      exists (t :: ts). split; [|split; auto]. rewrite main_app. apply (leaves_app arity _ _ [t] ts); auto.
  Qed.
End Main.

Lemma aux_postfix own :
  (forall l x, postfix l x -> aux_of own l = []) /\ (forall l xs, postfix_all l xs -> aux_of own l = []).
Proof.
  assert (Ap : forall l m, aux_of own l = [] -> aux_of own m = [] -> aux_of own (l ++ m) = []).
  { intros l m. unfold aux_of. rewrite flat_map_app. intros -> ->. reflexivity. }
  apply postfix_both; intros; try reflexivity; repeat apply Ap; auto; unfold aux_of; cbn [flat_map push_ops]; cbv zeta;
    repeat match goal with |- context [if ?b then _ else _] => destruct b end; reflexivity.
Qed.
Lemma arun_appended ops : forall l b, appended ops = Some b -> exists es, arun_ops (Some l) ops = Ok (es, Some (l ++ b)).
Proof.
  induction ops as [|o ops IH]; intros l b H.
  - injection H as <-. exists []. rewrite app_nil_r. reflexivity.
  - cbn [appended] in H. destruct (op_bytes o) as [c|] eqn:Eo; [|discriminate H]. destruct (appended ops) as [d|] eqn:Ed; [|discriminate H].
    injection H as <-. destruct (IH (l ++ c) d eq_refl) as [es E].
    assert (St : exists e, arun_op (Some l) o = Ok (e, Some (l ++ c))).
    { destruct o; cbn [op_bytes] in Eo; try discriminate Eo; injection Eo as <-; eexists; reflexivity. }
    destruct St as [e St]. exists (e :: es). cbn [arun_ops]. rewrite St. cbn [bind]. rewrite E. cbn [bind]. rewrite app_assoc. reflexivity.
Qed.
Lemma bytes_appended ops b : appended ops = Some b -> formula_bytes (mkFormula ops []) = Ok b.
Proof.
  intro H. unfold formula_bytes, unit_of. cbn [f_main f_aux arun_ops arun_op]. change (0 <? 10) with true. cbn [bind].
  destruct (arun_appended ops [] b H) as [es E]. rewrite E. cbn [bind]. rewrite app_nil_r. reflexivity.
Qed.
(** Expressions are dumped as one of their postfix push sequences. *)
Lemma dump_postfix own x : sane own x -> nosix x -> exists l, postfix l x /\ forall F, dump (Some own) x F = Ok (NO_ERRORS, pushes (Some own) l F).
Proof.
  assert (PP : forall l m F, pushes (Some own) (l ++ m) F = pushes (Some own) m (pushes (Some own) l F)) by (intros; apply fold_left_app).
  induction x using expr_ind'; intros Hs H6; try (eexists; split; [constructor|]; intro F; cbn [dump]; reflexivity).
  - eexists. split; [constructor|]. intro F. unfold pushes, push. cbn [dump fold_left push_ops]. unfold push. cbn [push_ops]. destruct (_ && _)%bool; reflexivity.
  - eexists. split; [constructor|]. intro F. unfold pushes, push. cbn [dump fold_left push_ops]. unfold push. cbn [push_ops]. cbv zeta. destruct (same_sheet _ _); reflexivity.
  - eexists. split; [constructor|]. intro F. unfold pushes, push. cbn [dump fold_left push_ops]. unfold push. cbn [push_ops]. cbv zeta. destruct (same_sheet _ _); reflexivity.
  - destruct Hs as [Ho Ha]. cbn [nosix] in H6. destruct (IHx Ha H6) as (l & P & D). exists (l ++ [POperator (op_code o)]). split; [constructor; exact P|].
    intro F. cbn [dump]. rewrite D. cbn [bind]. replace (unary_code o) with true by (destruct o; try reflexivity; elim Ho; reflexivity).
    rewrite PP. reflexivity.
  - destruct Hs as (Ho & Ha & Hb). destruct H6 as [Ha6 Hb6]. destruct (IHx1 Ha Ha6) as (l & P & D). destruct (IHx2 Hb Hb6) as (m & Q & E).
    exists (l ++ m ++ [POperator (op_code o)]). split; [constructor; auto|].
    intro F. cbn [dump]. rewrite D. cbn [bind]. rewrite E. cbn [bind]. replace (binary_code o) with true by (destruct o; try reflexivity; elim Ho; reflexivity).
    rewrite !PP. reflexivity.
  - destruct Hs as (Hf & Hn & Ht & Hk & Ha). destruct H6 as [H6 Ha6].
    assert (L : exists l, postfix_all l args /\ forall F, dump_all (dump (Some own)) args F = Ok (NO_ERRORS, pushes (Some own) l F)).
    { clear Hn Ht. induction H as [|a args Pa _ IH].
      - exists []. split; [constructor|reflexivity].
      - destruct Ha as [Ha Has]. destruct Ha6 as [Ha6 Has6]. destruct (Pa Ha Ha6) as (l & P & D). destruct (IH Has Has6) as (m & Q & E).
        exists (l ++ m). split; [constructor; auto|]. intro F. cbn [dump_all]. rewrite D. cbn [bind]. rewrite E. cbn [bind]. rewrite PP. reflexivity. }
    destruct L as (l & P & D). pose proof (zlen_nonneg _ args).
    destruct (variadic_takes f (zlen args) ltac:(lia) ltac:(lia) Ht H6) as [V|(V & C & M)].
    + exists (l ++ [PFunctionN f (zlen args) k]). split; [constructor; exact P|]. intro F. cbn [dump]. rewrite D. cbn [bind]. rewrite V. cbn [bind].
      rewrite PP. apply accepts_takes in Ht; [|lia|lia]. unfold accepts_n in Ht. unfold pushes at 2, push. cbn [fold_left push_ops]. cbv zeta.
      unfold push. cbn [push_ops]. cbv zeta. rewrite Ht. reflexivity.
    + exists (l ++ [PFunction f k]). assert (X : forall ow F, push ow F (PFunction f k) = (NO_ERRORS, snd (push ow F (PFunction f k)))).
      { intros ow F. unfold push. cbn [push_ops]. cbv zeta. unfold fixed_mask in M. rewrite M. reflexivity. }
      split; [apply px_fixed; [exact P|exact C|rewrite X; reflexivity]|]. intro F. cbn [dump]. rewrite D. cbn [bind]. rewrite V. cbn [bind].
      rewrite PP. rewrite X. reflexivity.
Qed.
Lemma leaves_reads arity ops t : leaves arity ops [t] -> exists b, appended ops = Some b /\ Forall (fun x => 0 <= x < 256) b /\ read_formula arity b = Some t.
Proof.
  intros (b & k & E & L & V & R). exists b. repeat (split; auto). unfold read_formula. replace (length b) with (k + (length b - k))%nat by lia.
  rewrite <- (app_nil_r b) at 2. rewrite R. destruct (length b - k)%nat; reflexivity.
Qed.
Lemma says_plain own x : plain x -> forall t, says swap own x t -> says (fun m => m) own x t.
Proof.
  induction x using expr_ind'; intros Pl t; cbn [says]; destruct t; auto.
  - intros [-> ->]. destruct Pl as [-> | ->]; auto.
  - intros (-> & -> & ->). destruct Pl as [-> | ->]; auto.
  - intros [A B]. auto.
  - destruct Pl as [P1 P2]. intros (A & B & C). auto.
  - intros [A B]. split; [exact A|]. cbn [plain] in Pl. clear A. revert args0 B. induction H as [|a args Ha _ IH]; intros ts; destruct ts; cbn [says_all]; auto.
    destruct Pl as [P1 P2]. intros [B C]. split; [apply Ha; auto|apply IH; auto].
Qed.

(* ------------------------------------------------------------------ *)
(** * C27 *)

(** Any sequence of pushes in postfix order, and any expression tree, is stored as tokens
    that a reader of the format turns back into the same expression.  References use the
    modes A1 and $A$1 here; [C29_mixed_modes_refuted] is about the other two. *)
Theorem C27_pushes_read_back own arity l x : agrees arity -> postfix l x -> sane own x -> plain x ->
  exists toks t, formula_bytes (pushes (Some own) l formula_new) = Ok toks
    /\ read_formula arity toks = Some t /\ says (fun m => m) own x t.
Proof.
  intros A P S Pl. destruct (proj1 (read_postfix own arity A) l x P S) as (t & L & Sy). destruct (leaves_reads _ _ _ L) as (b & E & _ & R).
  exists b, t. split; [|split; [exact R|apply says_plain; auto]]. rewrite pushes_parts. cbn [f_main f_aux formula_new app].
  rewrite (proj1 (aux_postfix (Some own)) l x P). apply bytes_appended, E.
Qed.
Print Assumptions C27_pushes_read_back.
Lemma tree_read own arity x : agrees arity -> sane own x -> nosix x ->
  exists F toks t, dump (Some own) x formula_new = Ok (NO_ERRORS, F) /\ formula_bytes F = Ok toks /\ Forall (fun b => 0 <= b < 256) toks
    /\ read_formula arity toks = Some t /\ says swap own x t.
Proof.
  intros A S H6. destruct (dump_postfix own x S H6) as (l & P & D). destruct (proj1 (read_postfix own arity A) l x P S) as (t & L & Sy).
  destruct (leaves_reads _ _ _ L) as (b & E & V & R). exists (pushes (Some own) l formula_new), b, t. split; [apply D|].
  split; [|auto]. rewrite pushes_parts. cbn [f_main f_aux formula_new app]. rewrite (proj1 (aux_postfix (Some own)) l x P). apply bytes_appended, E.
Qed.
Theorem C27_tree_reads_back own arity x : agrees arity -> sane own x -> plain x -> nosix x ->
  exists F toks t, dump (Some own) x formula_new = Ok (NO_ERRORS, F) /\ formula_bytes F = Ok toks
    /\ read_formula arity toks = Some t /\ says (fun m => m) own x t.
Proof.
  intros A S Pl H6. destruct (tree_read own arity x A S H6) as (F & toks & t & D & B & _ & R & Sy). exists F, toks, t. auto using says_plain.
Qed.
Print Assumptions C27_tree_reads_back.

(** The same for a cell of a saved document: the FORMULA record of the cell reads as a
    formula whose token array, of the length the record states, is the expression. *)
Theorem C27_saved_formula R moves calls stream k globals body r c arr x v arity : saved_ok R moves calls stream ->
  globals_in stream globals -> sheet_in stream k body -> cells_of k calls r c = Some v ->
  tree_value (Z.of_nat k) arr x = Ok v ->
  agrees arity -> sane (Z.of_nat k) x -> plain x -> nosix x ->
  exists sst cells y f t, read_sst globals = Some sst /\ read_cells sst body = Some cells /\ In y cells /\ rc_row y = r /\ rc_col y = c
    /\ rc_val y = RFormula f /\ rf_array f = arr /\ read_formula arity (rf_toks f) = Some t /\ says (fun m => m) (Z.of_nat k) x t.
Proof.
  intros H Hg Hk Hc Hv A S Pl H6. destruct (C19_cell_reads_back _ _ _ _ _ _ _ _ _ _ H Hg Hk Hc) as (sst & cells & y & E1 & E2 & J & Er & Ec & Rd & _).
  destruct (C27_tree_reads_back (Z.of_nat k) arity x A S Pl H6) as (F & toks & t & D & B & Rf & Sy).
  unfold tree_value in Hv. rewrite D in Hv. cbn [bind] in Hv. rewrite B in Hv. cbn [bind] in Hv.
  destruct (expr_size x) as [n| |]; cbn [bind] in Hv; [|discriminate Hv|discriminate Hv].
  destruct (expr_guess x) as [g| |]; cbn [bind] in Hv; [|discriminate Hv|discriminate Hv].
  assert (Ev : v = UFormula arr toks n g) by congruence. subst v. cbn [reads_as] in Rd.
  exists sst, cells, y, (mkRF (fe_enc g) (fe_flags g) arr toks (fe_str g)), t. cbn [rf_array rf_toks]. repeat (split; auto).
Qed.
Print Assumptions C27_saved_formula.
(** And for a formula pushed by hand. *)
Theorem C27_saved_pushes R moves calls stream k globals body r c arr l x v arity : saved_ok R moves calls stream ->
  globals_in stream globals -> sheet_in stream k body -> cells_of k calls r c = Some v ->
  stack_value arr (pushes (Some (Z.of_nat k)) l formula_new) = Ok v ->
  agrees arity -> postfix l x -> sane (Z.of_nat k) x -> plain x ->
  exists sst cells y f t, read_sst globals = Some sst /\ read_cells sst body = Some cells /\ In y cells /\ rc_row y = r /\ rc_col y = c
    /\ rc_val y = RFormula f /\ rf_array f = arr /\ read_formula arity (rf_toks f) = Some t /\ says (fun m => m) (Z.of_nat k) x t.
Proof.
  intros H Hg Hk Hc Hv A P S Pl. destruct (C19_cell_reads_back _ _ _ _ _ _ _ _ _ _ H Hg Hk Hc) as (sst & cells & y & E1 & E2 & J & Er & Ec & Rd & _).
  destruct (C27_pushes_read_back (Z.of_nat k) arity l x A P S Pl) as (toks & t & B & Rf & Sy).
  unfold stack_value in Hv. rewrite B in Hv. cbn [bind] in Hv.
  assert (Ev : v = UFormula arr toks (zlen toks) (estimate_of (GErr 15) false true)) by congruence. subst v. cbn [reads_as] in Rd.
  eexists sst, cells, y, (mkRF _ _ arr toks _), t. cbn [rf_array rf_toks]. repeat (split; eauto).
Qed.
Print Assumptions C27_saved_pushes.

(** A table of argument counts, and an expression with every kind of node:
    -IF(B3 > 2.5, SUM(Sheet3!A1:B2, 70000, , "é"), ROUND(#N/A, 2)) & PI(). *)
Definition table (f : Z) : option Z := match counts_of f with To a b => if a =? b then Some a else None | _ => None end.
Lemma table_agrees : agrees table.
Proof. intros f n _ E. unfold table. rewrite E, Z.eqb_refl. reflexivity. Qed.
Definition sample : expr :=
  EBinary OP_CONCAT
    (EUnary OP_UMINUS
       (EFunction 1 CELL_DEFAULT
          [EBinary OP_GT (ERef 2 1 0 RELATIVE_A1 CELLOP_AS_VALUE) (ENum 4612811918334230528);
           EFunction 4 CELL_DEFAULT
             [EArea 0 0 2 1 1 2 ABSOLUTE_sAs1 CELLOP_AS_REFER; EInt 70000; EMissing; EText [233]];
           EFunction 27 CELLOP_AS_VALUE [EErr 42; EInt 2]]))
    (EFunction 19 CELL_DEFAULT []).
Example C27_case : sane 0 sample /\ plain sample /\ nosix sample /\ exists v, tree_value 0 false sample = Ok v.
Proof.
  assert (T : takes 1 3 /\ takes 4 4 /\ takes 27 2 /\ takes 19 0).
  { unfold takes. change (counts_of 1) with (To 2 3). change (counts_of 4) with (To 1 30). change (counts_of 27) with (To 2 2). change (counts_of 19) with (To 0 0). cbv beta iota. lia. }
  destruct T as (T1 & T2 & T3 & T4).
  assert (P1 : place_ok 0 2 1 0) by (unfold place_ok; change (sheet_says 0 0) with (@None Z); cbv beta iota; lia).
  assert (P2 : place_ok 0 0 0 2) by (unfold place_ok; change (sheet_says 0 2) with (Some 2); cbv beta iota; lia).
  assert (P3 : place_ok 0 1 1 2) by (unfold place_ok; change (sheet_says 0 2) with (Some 2); cbv beta iota; lia).
  assert (G1 : class_given CELLOP_AS_VALUE) by (unfold class_given; auto). assert (G2 : class_given CELLOP_AS_REFER) by (unfold class_given; auto).
  assert (Z3 : forall a b c : expr, zlen [a; b; c] = 3) by reflexivity. assert (Z4 : forall a b c d : expr, zlen [a; b; c; d] = 4) by reflexivity.
  assert (Z2 : forall a b : expr, zlen [a; b] = 2) by reflexivity. assert (Z0 : zlen (@nil expr) = 0) by reflexivity.
  split.
  { unfold sample. cbn [sane sane_all un_name bin_name]. rewrite Z2, Z3, Z4, Z0. change (2 ^ 64) with 18446744073709551616.
    assert (Fs : Forall (fun c => 0 <= c < 65536) [233]) by (constructor; [lia|constructor]). change (zlen [233]) with 1.
    repeat split; try assumption; auto; try lia; discriminate. }
  split; [unfold sample; cbn [plain plain_all]; auto 10|]. split.
  { unfold sample. cbn [nosix nosix_all]. change (counts_of 1) with (To 2 3). change (counts_of 4) with (To 1 30). change (counts_of 27) with (To 2 2). change (counts_of 19) with (To 0 0).
    repeat split; discriminate. }
  eexists. vm_compute. reflexivity.
Qed.

(** ** Where C27 fails *)
(** A function node with an argument count the function does not take: the cell is saved all
    the same, without the function, and its tokens are no expression. *)
Theorem C27_wrong_count_refuted : exists x arr toks n g, tree_value 0 arr x = Ok (UFormula arr toks n g)
  /\ x = EFunction 24 CELL_DEFAULT [EInt 1; EInt 2] /\ (forall arity, read_formula arity toks = None).
Proof. eexists. exists false. eexists. eexists. eexists. split; [|split; [reflexivity|]]. - vm_compute. reflexivity. - reflexivity. Qed.
(** CUMPRINC takes exactly six arguments; with six arguments it is dropped too. *)
Theorem C27_six_arguments_refuted : exists x toks n g, sane 0 x /\ plain x /\ tree_value 0 false x = Ok (UFormula false toks n g)
  /\ (forall arity, read_formula arity toks = None).
Proof.
  exists (EFunction 447 CELL_DEFAULT [EInt 1; EInt 2; EInt 3; EInt 4; EInt 5; EInt 6]). eexists. eexists. eexists.
  split; [|split; [cbn; tauto|split]].
  - cbn [sane sane_all]. change (zlen [EInt 1; EInt 2; EInt 3; EInt 4; EInt 5; EInt 6]) with 6. unfold takes. change (counts_of 447) with (To 6 6). cbv beta iota.
    repeat split; auto; lia.
  - vm_compute. reflexivity.
  - reflexivity.
Qed.
(** A reference pushed with the default operand class is written as an operator. *)
Theorem C27_default_class_refuted : exists toks, formula_bytes (pushes (Some 0) [PReference 0 0 0 RELATIVE_A1 CELL_DEFAULT] formula_new) = Ok toks
  /\ (forall arity, read_formula arity toks = None).
Proof. eexists. split; [vm_compute; reflexivity|reflexivity]. Qed.
(** Array constants: their values are counted as tokens, and number arrays lack the unused
    bytes of the token. *)
Theorem C27_arrays_refuted : exists toks1 toks2,
  formula_bytes (pushes (Some 0) [PTextArray [[65]; [66]]] formula_new) = Ok toks1
  /\ formula_bytes (pushes (Some 0) [PNumberArray [4607182418800017408]] formula_new) = Ok toks2
  /\ (forall arity, read_formula arity toks1 = None) /\ (forall arity, read_formula arity toks2 = None).
Proof. eexists. eexists. split; [vm_compute; reflexivity|]. split; [vm_compute; reflexivity|]. split; reflexivity. Qed.
(** A text of 256 characters is written with length 0. *)
Theorem C27_long_text_refuted : exists s toks, zlen s = 256
  /\ formula_bytes (pushes (Some 0) [PText s] formula_new) = Ok toks /\ (forall arity, read_formula arity toks <> Some (FText s)).
Proof. exists (repeat 48 (Z.to_nat 256)). eexists. split; [reflexivity|]. split; [vm_compute; reflexivity|]. intros arity E. vm_compute in E. discriminate E. Qed.
Print Assumptions C27_wrong_count_refuted.
Print Assumptions C27_six_arguments_refuted.
Print Assumptions C27_default_class_refuted.
Print Assumptions C27_arrays_refuted.
Print Assumptions C27_long_text_refuted.

(* ------------------------------------------------------------------ *)
(** * C28 *)

(** Pushing a function with a count: accepted exactly when the function takes so many
    arguments; otherwise the call reports an error and the formula is as before. *)
Theorem C28_counted_calls own F f n cls : 0 <= f -> 0 <= n ->
  (takes f n -> fst (push own F (PFunctionN f n cls)) = NO_ERRORS) /\
  (~ takes f n -> push own F (PFunctionN f n cls) = (GENERAL_ERROR, F)).
Proof.
  intros Hf Hn. pose proof (accepts_takes f n Hf Hn) as T. unfold accepts_n in T. unfold push. cbn [push_ops]. cbv zeta. destruct (_ || _)%bool.
  - split; [reflexivity|]. intro N. elim N. apply T. reflexivity.
  - split; [intro X; apply T in X; discriminate X|]. intros _. rewrite !app_nil_r. destruct F; reflexivity.
Qed.
Print Assumptions C28_counted_calls.
Example C28_case : takes 27 2 /\ ~ takes 27 1 /\ ~ takes 27 3 /\ takes 4 30 /\ ~ takes 4 0.
Proof. unfold takes. change (counts_of 27) with (To 2 2). change (counts_of 4) with (To 1 30). cbv beta iota. lia. Qed.
(** Pushing a function without a count: whatever is accepted has one possible count (or an
    undocumented one); otherwise the call reports an error and the formula is as before. *)
Theorem C28_fixed_calls_partial own F f cls : 0 <= f ->
  (fst (push own F (PFunction f cls)) = NO_ERRORS /\ ((exists n, counts_of f = To n n) \/ counts_of f = Any)) \/
  push own F (PFunction f cls) = (GENERAL_ERROR, F).
Proof.
  intro Hf. pose proof (tables f Hf) as T. unfold table_ok in T. cbv zeta in T. apply andb_prop in T. destruct T as [_ T].
  unfold push. cbn [push_ops]. cbv zeta. change (_ || _)%bool with (fixed_mask (args_mask f)). destruct (fixed_mask (args_mask f)) eqn:M.
  - left. split; [reflexivity|]. destruct (counts_of f) as [a b| |]; [|right; reflexivity|].
    + apply andb_prop in T. destruct T as [T _]. apply andb_prop in T. destruct T as [_ T]. cbn [negb orb] in T. left. exists a. f_equal. lia.
    + replace (args_mask f) with 0 in M by lia. discriminate M.
  - right. rewrite !app_nil_r. destruct F; reflexivity.
Qed.
Print Assumptions C28_fixed_calls_partial.
(** Two functions with a single possible count are refused in this form. *)
Theorem C28_fixed_calls_refuted : exists f n, takes f n /\ counts_of f = To n n /\ forall own F cls, push own F (PFunction f cls) = (GENERAL_ERROR, F).
Proof.
  exists 447, 6. split; [|split; [vm_compute; reflexivity|]].
  - unfold takes. change (counts_of 447) with (To 6 6). cbv beta iota. lia.
  - intros own F cls. assert (E : push_ops own (PFunction 447 cls) = (GENERAL_ERROR, [], [])) by reflexivity. unfold push. rewrite E, !app_nil_r. destruct F; reflexivity.
Qed.
Print Assumptions C28_fixed_calls_refuted.

(* ------------------------------------------------------------------ *)
(** * C29 *)

Lemma triples_read n : forall a, Z.of_nat (a + n) <= 65535 -> read_triples n (flat_map ext_bytes (seq a n)) = Some (map (fun i => (0, Z.of_nat i, Z.of_nat i)) (seq a n)).
Proof.
  induction n as [|n IH]; intros a H; [reflexivity|]. cbn [seq flat_map map read_triples]. unfold ext_bytes at 1. rewrite <- !app_assoc.
  rewrite take16 by (unfold u16; lia). rewrite !take16 by (unfold u16; lia). rewrite IH by lia. reflexivity.
Qed.
(** The link table of a saved document: link number i leads to the i-th sheet. *)
Theorem C29_links_resolve R moves calls stream globals i : saved_ok R moves calls stream -> globals_in stream globals ->
  0 <= i < zlen (sheet_names calls) -> resolve globals i = Some i.
Proof.
  intros H Hg Hi. destruct (saved_view _ _ _ _ H) as [w V].
  assert (N1 : ~ In T_EXTERNSHEET sst_types_all) by not_in. assert (N2 : ~ In T_SUPBOOK sst_types_all) by not_in.
  pose proof (view_global_pay _ _ _ _ V globals T_EXTERNSHEET Hg N1) as P1. pose proof (view_global_pay _ _ _ _ V globals T_SUPBOOK Hg N2) as P2.
  rewrite pay_globals_cat in P1 by exact N1. rewrite pay_globals_cat in P2 by exact N2. picks P1. picks P2. cbn [app] in P1, P2.
  change (g_bs (dg w)) with (wb_bs w) in *. pose proof (li_few _ _ (vw_limits _ _ _ _ V)) as Lf.
  pose proof (wi_len _ (w2_inv _ (mn_inv _ _ (vw_means _ _ _ _ V)))) as Ln.
  assert (El : length (wb_bs w) = length (sheet_names calls)).
  { pose proof (mn_names _ _ (vw_means _ _ _ _ V)) as Mn. apply (f_equal (@length _)) in Mn. rewrite !map_length in Mn. exact Mn. }
  assert (Few : zlen (wb_bs w) <= 1000) by (unfold zlen in *; lia).
  assert (Hf : forall n, (n <= 1000)%nat -> zlen (flat_map ext_bytes (seq 0 n)) = 6 * Z.of_nat n).
  { intros n _. rewrite (flat_len _ 6) by reflexivity. unfold zlen. rewrite seq_length. lia. }
  specialize (P1 ltac:(constructor; [rewrite zlen_app, zlen_le16, Hf by (unfold zlen in *; lia); unfold zlen in *; lia|constructor])).
  specialize (P2 ltac:(constructor; [rewrite zlen_app, zlen_le16; change (zlen [1; 4]) with 2; lia|constructor])).
  unfold resolve. rewrite P1, P2. unfold read_links. rewrite take16 by (unfold u16, zlen in *; lia). rewrite Nat2Z.id, triples_read by (unfold zlen in *; lia).
  assert (Nt : nth_error (seq 0 (length (wb_bs w))) (Z.to_nat i) = Some (Z.to_nat i)).
  { rewrite (nth_error_nth' _ 0%nat) by (rewrite seq_length; unfold zlen in *; lia). f_equal. rewrite seq_nth by (unfold zlen in *; lia). reflexivity. }
  rewrite (map_nth_error _ _ _ Nt). rewrite Z2Nat.id by lia. change (Z.to_nat 0) with 0%nat. cbn [nth_error]. unfold read_own_book.
  rewrite take16 by (unfold u16, zlen in *; lia). change (take_num 2 [1; 4]) with (Some (1025, @nil Z)). cbv beta iota. change (1025 =? 1025) with true. cbv iota.
  rewrite (Z.eqb_refl i). replace (i <? zlen (wb_bs w)) with true by (unfold zlen in *; lia). reflexivity.
Qed.
Print Assumptions C29_links_resolve.
(** A formula that is one reference, to a cell of sheet [j] (a sheet of the document), saved
    on sheet [k]: it reads as a plain reference when j = k, and otherwise as a reference
    through a link that leads to sheet j; in both cases with the row, the column and (for
    the modes A1 and $A$1) the mode. *)
Theorem C29_reference_saved_partial R moves calls stream k globals body r c arr v arity row col j opt cls : saved_ok R moves calls stream ->
  globals_in stream globals -> sheet_in stream k body -> cells_of k calls r c = Some v -> agrees arity ->
  tree_value (Z.of_nat k) arr (ERef row col j opt cls) = Ok v ->
  0 <= j < zlen (sheet_names calls) -> 0 <= row < 65536 -> 0 <= col < 256 -> class_given cls -> opt = RELATIVE_A1 \/ opt = ABSOLUTE_sAs1 ->
  exists sst cells y f link, read_sst globals = Some sst /\ read_cells sst body = Some cells /\ In y cells /\ rc_row y = r /\ rc_col y = c
    /\ rc_val y = RFormula f /\ read_formula arity (rf_toks f) = Some (FRef link (cell_says opt row col))
    /\ match link with None => j = Z.of_nat k | Some i => j <> Z.of_nat k /\ resolve globals i = Some j end.
Proof.
  intros H Hg Hk Hc A Hv Hj Hr Hcol Hcl Ho. pose proof (C29_links_resolve _ _ _ _ _ _ H Hg Hj) as Rs.
  assert (Lj : zlen (sheet_names calls) <= 1000).
  { destruct (saved_view _ _ _ _ H) as [w V]. pose proof (li_few _ _ (vw_limits _ _ _ _ V)) as Lf.
    pose proof (wi_len _ (w2_inv _ (mn_inv _ _ (vw_means _ _ _ _ V)))) as Ln.
    pose proof (mn_names _ _ (vw_means _ _ _ _ V)) as Mn. apply (f_equal (@length _)) in Mn. rewrite !map_length in Mn. unfold zlen in *. lia. }
  assert (S : sane (Z.of_nat k) (ERef row col j opt cls)).
  { split; [|exact Hcl]. unfold place_ok. split; [exact Hr|]. split; [lia|]. destruct (sheet_says _ _); lia. }
  destruct (C27_saved_formula _ _ _ _ _ _ _ _ _ _ _ _ _ H Hg Hk Hc Hv A S Ho I) as (sst & cells & y & f & t & E1 & E2 & J & Er & Ec & Ef & _ & Rd & Sy).
  destruct t; cbn [says] in Sy; try exact (False_ind _ Sy). destruct Sy as [-> ->]. exists sst, cells, y, f, (sheet_says (Z.of_nat k) j).
  repeat (split; auto). unfold sheet_says, invalidIndex. replace (j =? 4294967295) with false by lia. cbn [orb].
  destruct (j =? Z.of_nat k) eqn:E; [lia|]. split; [lia|exact Rs].
Qed.
Print Assumptions C29_reference_saved_partial.
(** The modes A$1 and $A1 are exchanged: whatever the reference, the reader finds the
    other one. *)
Theorem C29_mixed_modes_refuted own arity row col idx opt cls : agrees arity -> sane own (ERef row col idx opt cls) ->
  opt = ABSOLUTE_As1 \/ opt = ABSOLUTE_sA1 ->
  exists F toks sh c, dump (Some own) (ERef row col idx opt cls) formula_new = Ok (NO_ERRORS, F) /\ formula_bytes F = Ok toks
    /\ read_formula arity toks = Some (FRef sh c) /\ c <> cell_says opt row col.
Proof.
  intros A S Ho. destruct (tree_read own arity _ A S I) as (F & toks & t & D & B & _ & Rd & Sy).
  destruct t; cbn [says] in Sy; try exact (False_ind _ Sy). destruct Sy as [-> ->]. eexists F, toks, _, _. split; [exact D|]. split; [exact B|].
  split; [exact Rd|]. destruct Ho as [-> | ->]; discriminate.
Qed.
Print Assumptions C29_mixed_modes_refuted.
(** A document with two sheets and, on the second, a formula that adds the numbers of a cell
    of the first and of a cell of its own. *)
Definition linked_expr : expr :=
  EBinary OP_ADD (ERef 4 2 0 RELATIVE_A1 CELLOP_AS_VALUE) (ERef 6 1 1 ABSOLUTE_sAs1 CELLOP_AS_VALUE).
Definition linked (v : uval) : list call :=
  [KSheet (TChar [65]); KSheet (TChar [66]); KCell 0 4 2 (UInt 5) None; KCell 1 6 1 (UInt 7) None; KCell 1 8 3 v None].
Lemma linked_value : tree_value 1 false linked_expr = Ok (UFormula false [90; 0; 0; 4; 0; 2; 192; 68; 6; 0; 1; 0; 3] 11 (mkEst 18446462598733824002 2 None)).
Proof. vm_compute. reflexivity. Qed.
Definition linked_doc : list call := linked (UFormula false [90; 0; 0; 4; 0; 2; 192; 68; 6; 0; 1; 0; 3] 11 (mkEst 18446462598733824002 2 None)).
Lemma linked_typed : Forall typed linked_doc.
Proof. unfold linked_doc, linked. small_typed. Qed.
Lemma linked_fits : fits 40 linked_doc.
Proof.
  unfold linked_doc, linked. small_fits. intro k. exists []. split; [cbn; lia|]. intros r H.
  match type of H with height_of k ?l r <> None => destruct (height_of k l r) as [[h p]|] eqn:E end; [|congruence]. apply heights_from in E. cbn [In] in E. each E.
Qed.
Lemma linked_sane : sane 1 linked_expr /\ plain linked_expr /\ nosix linked_expr.
Proof.
  assert (P1 : place_ok 1 4 2 0) by (unfold place_ok; change (sheet_says 1 0) with (Some 0); cbv beta iota; lia).
  assert (P2 : place_ok 1 6 1 1) by (unfold place_ok; change (sheet_says 1 1) with (@None Z); cbv beta iota; lia).
  assert (G1 : class_given CELLOP_AS_VALUE) by (unfold class_given; auto).
  split; [|split; cbn; auto]. unfold linked_expr. cbn [sane bin_name]. split; [discriminate|]. split; split; assumption.
Qed.
Example C29_case : exists stream globals body, saved_ok 40 (fun _ _ => false) linked_doc stream /\ globals_in stream globals /\ sheet_in stream 1 body
  /\ cells_of 1 linked_doc 8 3 = Some (UFormula false [90; 0; 0; 4; 0; 2; 192; 68; 6; 0; 1; 0; 3] 11 (mkEst 18446462598733824002 2 None))
  /\ sane 1 linked_expr /\ plain linked_expr /\ nosix linked_expr.
Proof.
  destruct (stream_of 400 linked_doc) as [s|] eqn:E.
  2:{ assert (K : match stream_of 400 linked_doc with Some _ => true | None => false end = true) by (vm_compute; reflexivity). rewrite E in K. discriminate K. }
  pose proof (small_saved _ _ _ linked_typed linked_fits E) as H. destruct (saved_view _ _ _ _ H) as [w V].
  destruct (proj1 (view_has_sheet _ _ _ _ V 1%nat)) as [body Hb]; [cbn; lia|]. pose proof (view_has_globals _ _ _ _ V) as Hg.
  eexists s, _, body. split; [exact H|]. split; [exact Hg|]. split; [exact Hb|]. split; [reflexivity|].
  exact linked_sane.
Qed.
