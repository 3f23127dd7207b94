(** The size a formula tree reports for itself, which the offsets of the DBCELL records are
    computed from (C16), against the bytes it is saved as. *)
From Coq Require Import ZArith List Bool Lia ZifyBool ZifyNat.
From Verif Require Import Bytes UnitModel UnitProofs SpecBuf BufProofs RecModel ApiModel SpecApi RecFrames RecProofs SheetProofs BookRecs SpecSheet FormulaModel SpecFormula PropsFormula.
Import ListNotations.
Local Open Scope Z_scope.

(** References stay on the sheet of the formula, and the only texts are single ASCII
    characters. *)
Section Measured.
  Variable own : Z.
  Section List.
    Variable measured : expr -> Prop.
    Fixpoint measured_all (l : list expr) : Prop := match l with [] => True | x :: l => measured x /\ measured_all l end.
  End List.
  Fixpoint measured (x : expr) : Prop :=
    match x with
    | EText s => is_ascii s = true /\ zlen s = 1
    | ERef _ _ idx _ _ => sheet_says own idx = None
    | EArea _ _ idx _ _ _ _ _ => sheet_says own idx = None
    | EUnary _ a => measured a
    | EBinary _ a b => measured a /\ measured b
    | EFunction _ _ args => measured_all measured args
    | _ => True
    end.
End Measured.

Definition long (ops : list uop) (n : Z) : Prop := exists b, appended ops = Some b /\ zlen b = n.
Lemma long_app o1 o2 n m : long o1 n -> long o2 m -> long (o1 ++ o2) (n + m).
Proof. intros (a & A & La) (b & B & Lb). exists (a ++ b). split; [apply appended_app; auto|]. rewrite zlen_app. lia. Qed.

Lemma tree_size own x : sane own x -> nosix x -> measured own x ->
  exists l n, postfix l x /\ (forall F, dump (Some own) x F = Ok (NO_ERRORS, pushes (Some own) l F))
    /\ expr_size x = Ok n /\ long (main_of (Some own) l) n.
Proof.
  assert (PP : forall l m F, pushes (Some own) (l ++ m) F = pushes (Some own) m (pushes (Some own) l F)) by (intros; apply fold_left_app).
  induction x using expr_ind'; intros Hs H6 Hm; cbn [expr_size].
  - eexists [_], _. split; [constructor|]. split; [intro F; reflexivity|]. split; [reflexivity|]. rewrite main_one. eexists. split; reflexivity.
  - eexists [_], _. split; [constructor|]. split; [intro F; cbn [dump]; unfold pushes, push; cbn [fold_left]; unfold push; cbn [push_ops]; destruct (_ && _)%bool; reflexivity|]. split; [reflexivity|].
    rewrite main_one. cbn [push_ops]. destruct (_ && _)%bool; eexists; split; reflexivity.
  - eexists [_], _. split; [constructor|]. split; [intro F; reflexivity|]. split; [reflexivity|]. rewrite main_one. eexists. split; reflexivity.
  - eexists [_], _. split; [constructor|]. split; [intro F; reflexivity|]. split; [reflexivity|]. rewrite main_one. eexists. split; reflexivity.
  - eexists [_], _. split; [constructor|]. split; [intro F; reflexivity|]. split; [reflexivity|]. rewrite main_one. eexists. split; reflexivity.
  - eexists [_], _. split; [constructor|]. split; [intro F; reflexivity|]. split; [reflexivity|]. rewrite main_one. destruct Hm as [Ha Hl]. destruct s as [|c [|]]; [discriminate Hl| |unfold zlen in Hl; cbn [length] in Hl; lia].
    eexists. cbn [push_ops fst snd appended op_bytes]. split; [reflexivity|]. unfold ustr_bytes, ustr_header, ustr_body. rewrite Ha. reflexivity.
  - cbn [measured] in Hm. eexists [_], _. split; [constructor|]. split; [intro F; cbn [dump]; unfold pushes, push; cbn [fold_left]; unfold push; cbn [push_ops]; cbv zeta; destruct (same_sheet _ _); reflexivity|]. split; [reflexivity|].
    rewrite main_one. cbn [push_ops]. cbv zeta. rewrite !same_sheet_says, Hm. eexists. split; reflexivity.
  - cbn [measured] in Hm. eexists [_], _. split; [constructor|]. split; [intro F; cbn [dump]; unfold pushes, push; cbn [fold_left]; unfold push; cbn [push_ops]; cbv zeta; destruct (same_sheet _ _); reflexivity|]. split; [reflexivity|].
    rewrite main_one. cbn [push_ops]. cbv zeta. rewrite !same_sheet_says, Hm. eexists. split; reflexivity.
  - destruct Hs as [Ho Ha]. cbn [nosix measured] in *. destruct (IHx Ha H6 Hm) as (l & n & P & D & E & L). exists (l ++ [POperator (op_code o)]), (1 + n). split; [constructor; exact P|]. split.
    + intro F. cbn [dump]. rewrite D. cbn [bind]. replace (unary_code o) with true by (destruct o; try reflexivity; elim Ho; reflexivity). rewrite PP. reflexivity.
    + rewrite E. split; [reflexivity|]. rewrite main_app, main_one, Z.add_comm. apply long_app; [exact L|]. eexists. split; reflexivity.
  - destruct Hs as (Ho & Ha & Hb). destruct H6 as [Ha6 Hb6]. destruct Hm as [Hma Hmb]. destruct (IHx1 Ha Ha6 Hma) as (l & n & P & D & En & L). destruct (IHx2 Hb Hb6 Hmb) as (m & n' & Q & E & Em & L').
    exists (l ++ m ++ [POperator (op_code o)]), (1 + n + n'). split; [constructor; auto|]. split.
    + intro F. cbn [dump]. rewrite D. cbn [bind]. rewrite E. cbn [bind]. replace (binary_code o) with true by (destruct o; try reflexivity; elim Ho; reflexivity). rewrite !PP. reflexivity.
    + rewrite En, Em. split; [reflexivity|]. rewrite !main_app, main_one. replace (1 + n + n') with (n + (n' + 1)) by lia. apply long_app; [exact L|]. apply long_app; [exact L'|]. eexists. split; reflexivity.
  - destruct Hs as (Hf & Hn & Ht & Hk & Ha). destruct H6 as [H6 Ha6]. cbn [measured] in Hm.
    assert (L : exists l n, postfix_all l args /\ (forall F, dump_all (dump (Some own)) args F = Ok (NO_ERRORS, pushes (Some own) l F)) /\ size_all expr_size args = Ok n /\ long (main_of (Some own) l) n).
    { clear Hn Ht. induction H as [|a args Pa _ IH].
      - exists [], 0. split; [constructor|]. split; [reflexivity|]. split; [reflexivity|]. exists []. split; reflexivity.
      - destruct Ha as [Ha Has]. destruct Ha6 as [Ha6 Has6]. destruct Hm as [Hma Hms]. destruct (Pa Ha Ha6 Hma) as (l & n & P & D & En & L). destruct (IH Has Has6 Hms) as (m & n' & Q & E & Em & L').
        exists (l ++ m), (n + n'). split; [constructor; auto|]. split; [intro F; cbn [dump_all]; rewrite D; cbn [bind]; rewrite E; cbn [bind]; rewrite PP; reflexivity|].
        split; [cbn [size_all]; rewrite En; cbn [bind]; rewrite Em; reflexivity|]. rewrite main_app. apply long_app; auto. }
    destruct L as (l & n & P & D & En & L). pose proof (zlen_nonneg _ args).
    destruct (variadic_takes f (zlen args) ltac:(lia) ltac:(lia) Ht H6) as [V|(V & C & M)].
    + exists (l ++ [PFunctionN f (zlen args) k]), (3 + 1 + n). split; [constructor; exact P|]. apply accepts_takes in Ht; [|lia|lia]. unfold accepts_n in Ht. split; [|split].
      * intro F. cbn [dump]. rewrite D. cbn [bind]. rewrite V. cbn [bind]. rewrite PP. unfold pushes at 2, push. cbn [fold_left push_ops]. cbv zeta. unfold push. cbn [push_ops]. cbv zeta. rewrite Ht. reflexivity.
      * rewrite V. cbn [bind]. rewrite En. reflexivity.
      * rewrite main_app, main_one, Z.add_comm. apply long_app; [exact L|]. cbn [push_ops]. cbv zeta. rewrite Ht. eexists. split; reflexivity.
    + exists (l ++ [PFunction f k]), (3 + 0 + n). assert (X : forall ow F, push ow F (PFunction f k) = (NO_ERRORS, snd (push ow F (PFunction f k)))).
      { intros ow F. unfold push. cbn [push_ops]. cbv zeta. unfold fixed_mask in M. rewrite M. reflexivity. }
      split; [apply px_fixed; [exact P|exact C|rewrite X; reflexivity]|]. split; [|split].
      * intro F. cbn [dump]. rewrite D. cbn [bind]. rewrite V. cbn [bind]. rewrite PP, X. reflexivity.
      * rewrite V. cbn [bind]. rewrite En. reflexivity.
      * rewrite main_app, main_one, Z.add_comm. apply long_app; [exact L|]. cbn [push_ops]. cbv zeta. unfold fixed_mask in M. rewrite M. eexists. split; reflexivity.
Qed.

(** The record of such a formula has the size the library reckons with. *)
Theorem C16_formula_size_known own arr x v : sane own x -> nosix x -> measured own x -> tree_value own arr x = Ok v ->
  exists toks est, v = UFormula arr toks (zlen toks) est.
Proof.
  intros S H6 M Hv. destruct (tree_size own x S H6 M) as (l & n & P & D & En & (b & B & Lb)).
  assert (Eb : formula_bytes (pushes (Some own) l formula_new) = Ok b).
  { rewrite pushes_parts. cbn [f_main f_aux formula_new app]. rewrite (proj1 (aux_postfix (Some own)) l x P). apply bytes_appended, B. }
  unfold tree_value in Hv. rewrite D in Hv. cbn [bind] in Hv. rewrite Eb in Hv. cbn [bind] in Hv. rewrite En in Hv. cbn [bind] in Hv.
  destruct (expr_guess x) as [g| |]; cbn [bind] in Hv; [|discriminate Hv|discriminate Hv]. exists b, g. rewrite Lb. congruence.
Qed.
Print Assumptions C16_formula_size_known.
(** Hence the hypothesis on sizes in [one_block] holds of a formula that is not an array
    formula and whose provisional result is not a text. *)
Theorem C16_formula_plain_size own x v : sane own x -> nosix x -> measured own x -> tree_value own false x = Ok v ->
  (forall toks n est, v = UFormula false toks n est -> fe_str est = None) -> plain_size v.
Proof.
  intros S H6 M Hv Hs. destruct (C16_formula_size_known own false x v S H6 M Hv) as (toks & est & ->). cbn [plain_size]. split; [reflexivity|]. split; [reflexivity|]. eapply Hs. reflexivity.
Qed.
Print Assumptions C16_formula_plain_size.
(** Other formulas: a text of two characters, or a reference to another sheet, makes the size
    wrong (too large and too small). *)
Theorem C16_formula_size_refuted : exists x1 x2 toks1 toks2 n1 n2 g1 g2, sane 0 x1 /\ nosix x1 /\ sane 0 x2 /\ nosix x2
  /\ tree_value 0 false x1 = Ok (UFormula false toks1 n1 g1) /\ zlen toks1 < n1 /\ tree_value 0 false x2 = Ok (UFormula false toks2 n2 g2) /\ n2 < zlen toks2.
Proof.
  exists (EText [65; 66]), (ERef 0 0 1 RELATIVE_A1 CELLOP_AS_VALUE). eexists _, _, _, _, _, _. split; [split; [repeat constructor; lia|vm_compute; discriminate]|]. split; [exact I|].
  split; [split; [unfold place_ok; change (sheet_says 0 1) with (Some 1); cbv beta iota; lia|right; left; reflexivity]|]. split; [exact I|].
  split; [vm_compute; reflexivity|]. split; [vm_compute; reflexivity|]. split; [vm_compute; reflexivity|]. vm_compute. reflexivity.
Qed.
Print Assumptions C16_formula_size_refuted.

(** ROUND(SUM(A1:B2, 70000, -B3), 2) & "x" *)
Definition measured_sample : expr :=
  EBinary OP_CONCAT (EFunction 27 CELL_DEFAULT
    [EFunction 4 CELL_DEFAULT [EArea 0 0 0 1 1 0 ABSOLUTE_sAs1 CELLOP_AS_REFER; EInt 70000; EUnary OP_UMINUS (ERef 2 1 0 RELATIVE_A1 CELLOP_AS_VALUE)]; EInt 2]) (EText [120]).
Example C16_formula_size_case : sane 0 measured_sample /\ nosix measured_sample /\ measured 0 measured_sample
  /\ exists v, tree_value 0 false measured_sample = Ok v.
Proof.
  assert (P : forall r c, 0 <= r < 10 -> 0 <= c < 10 -> place_ok 0 r c 0) by (intros; unfold place_ok; change (sheet_says 0 0) with (@None Z); cbv beta iota; lia).
  assert (T : takes 4 3 /\ takes 27 2) by (unfold takes; change (counts_of 4) with (To 1 30); change (counts_of 27) with (To 2 2); cbv beta iota; lia). destruct T as [T1 T2].
  assert (G : forall k, k = 32 \/ k = 64 -> class_given k) by (intros k [-> | ->]; unfold class_given, CELLOP_AS_REFER, CELLOP_AS_VALUE; auto).
  assert (Z3 : forall a b c : expr, zlen [a; b; c] = 3) by reflexivity. assert (Z2 : forall a b : expr, zlen [a; b] = 2) by reflexivity.
  assert (Fs : Forall (fun c => 0 <= c < 65536) [120]) by (constructor; [lia|constructor]). assert (Z1 : zlen [120] = 1) by reflexivity.
  split.
  { unfold measured_sample. cbn [sane sane_all un_name bin_name]. rewrite Z2, Z3, Z1. unfold CELL_DEFAULT, CELLOP_AS_REFER, CELLOP_AS_VALUE. repeat split; auto; try lia; try discriminate; try (apply P; lia); try (apply G; auto). }
  split; [cbn; repeat split; discriminate|]. split; [cbn; repeat split|]. eexists. vm_compute. reflexivity.
Qed.
