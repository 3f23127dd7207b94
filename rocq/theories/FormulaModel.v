(** Formulas: the push interface of formula_t (formula.cpp), the expression trees
    (formula_expr.cpp), their result estimates (formula_estimate.cpp) and the formula cell
    that turns a tree into the bytes of a FORMULA record (formula_cell.cpp).  File names are
    relative to /repo/xlslib/src/xlslib.  AddValueN and friends return NO_ERRORS here:
    refused allocations are the subject of UnitModel. *)
From Coq Require Import ZArith List Bool.
From Verif Require Import Bytes UnitModel RecModel ApiModel.
Import ListNotations.
Local Open Scope Z_scope.

(* ------------------------------------------------------------------ *)
(** * Constants *)

(** formula_const.h 43-49 cell_op_class_t (values used as numbers below). *)
Definition CELL_DEFAULT := 0.
Definition CELLOP_AS_REFER := 32.
Definition CELLOP_AS_VALUE := 64.
Definition CELLOP_AS_ARRAY := 96.
(** formula_const.h 34-40 cell_addr_mode_t: CELL_RELATIVE_A1, CELL_ABSOLUTE_As1,
    CELL_ABSOLUTE_sA1, CELL_ABSOLUTE_sAs1.  An s stands for a dollar sign. *)
Inductive amode := RELATIVE_A1 | ABSOLUTE_As1 | ABSOLUTE_sA1 | ABSOLUTE_sAs1.
Definition mode_bits (m : amode) : Z :=
  match m with
  | RELATIVE_A1 => 49152
  | ABSOLUTE_As1 => 32768
  | ABSOLUTE_sA1 => 16384
  | ABSOLUTE_sAs1 => 0
  end.
(** formula_const.h 51-74 expr_operator_code_t: the unary and binary operators.  The other
    codes are refused by the constructors of operator nodes (they throw). *)
Inductive opname :=
| OP_ADD | OP_SUB | OP_MUL | OP_DIV | OP_POWER | OP_CONCAT | OP_LT | OP_LE | OP_EQ | OP_GE | OP_GT | OP_NE
| OP_ISECT | OP_UNION | OP_RANGE | OP_UPLUS | OP_UMINUS | OP_PERCENT | OP_PAREN.
Definition op_code (o : opname) : Z :=
  match o with
  | OP_ADD => 3 | OP_SUB => 4 | OP_MUL => 5 | OP_DIV => 6 | OP_POWER => 7 | OP_CONCAT => 8
  | OP_LT => 9 | OP_LE => 10 | OP_EQ => 11 | OP_GE => 12 | OP_GT => 13 | OP_NE => 14
  | OP_ISECT => 15 | OP_UNION => 16 | OP_RANGE => 17
  | OP_UPLUS => 18 | OP_UMINUS => 19 | OP_PERCENT => 20 | OP_PAREN => 21
  end.
(** formula_const.h 32 invalidIndex. *)
Definition invalidIndex := 4294967295.
(** formula_const.h A_UNKNOWN. *)
Definition A_UNKNOWN := 2147483647.

(** formula.cpp 351-904 function_properties: for every function number the operand class
    of the result and the set of accepted argument counts (bit n set: n arguments;
    bit 31 is A_MACRO; A_UNKNOWN is 0x7FFFFFFF; unused numbers have no bit set).  The
    constants are those of formula_const.h 155-192. *)
Definition function_properties : list (Z * Z) :=
  [
   (64, 2147483646); (64, 12); (64, 2); (64, 2); (64, 2147483646); (64, 2147483646);
   (64, 2147483646); (64, 2147483646); (64, 3); (64, 3); (64, 1); (64, 2147483644);
   (64, 2147483646); (64, 6); (64, 14); (64, 2); (64, 2); (64, 2); (64, 2); (64, 1); (64, 2);
   (64, 2); (64, 2); (64, 2); (64, 2); (64, 2); (64, 2); (64, 4); (64, 12); (32, 28); (64, 4);
   (64, 8); (64, 2); (64, 2); (64, 1); (64, 1); (64, 2147483646); (64, 2147483646); (64, 2);
   (64, 4); (64, 8); (64, 8); (64, 8); (64, 8); (64, 8); (64, 8); (64, 2147483646); (64, 8);
   (64, 4); (96, 30); (96, 30); (96, 30); (96, 30); (64, 2147483650); (64, 2147483651); (96, 0);
   (64, 56); (64, 56); (64, 56); (64, 56); (64, 120); (64, 8); (64, 6); (64, 1); (64, 12); (64, 8);
   (64, 8); (64, 2); (64, 2); (64, 2); (64, 6); (64, 2); (64, 2); (64, 2); (64, 1); (64, 2);
   (64, 2); (64, 2); (32, 56); (64, 2147483652); (64, 2147483652); (64, 2147483663); (64, 12);
   (96, 2); (64, 2147483655); (64, 2147483649); (64, 2); (64, 2147483651); (64, 2147483654);
   (64, 2147483649); (64, 2147483650); (64, 2147483655); (64, 48); (64, 2147483655);
   (64, 2147483649); (64, 2147483649); (64, 2147483651); (64, 4); (64, 2); (64, 2);
   (32, 2147483644); (64, 24); (64, 24); (64, 2147483655); (64, 2147483902); (64, 2);
   (64, 2147483650); (64, 2147483654); (64, 2147483652); (64, 6); (64, 2147483678); (64, 2);
   (64, 2); (64, 2); (64, 2); (64, 6); (64, 6); (64, 4); (64, 2); (64, 16); (64, 24); (64, 2);
   (64, 2147483663); (64, 2147483651); (64, 12); (64, 6); (64, 2); (64, 2); (64, 2); (64, 2);
   (64, 2); (64, 2); (64, 2147483654); (64, 2147483650); (64, 2147483650); (64, 2147483650);
   (64, 2147483652); (64, 2147483652); (64, 2147483652); (64, 2147483654); (64, 2); (64, 2);
   (64, 8); (64, 16); (64, 48); (64, 2147483662); (64, 2147483654); (64, 2147483654); (32, 6);
   (64, 4294967294); (64, 4294967294); (64, 2147483651); (64, 2147483676); (64, 2147483704);
   (64, 2147483696); (64, 2147483696); (64, 2147483696); (64, 2147483651); (64, 2147483660);
   (64, 2147483672); (64, 2147483662); (64, 2147483650); (64, 2); (64, 2); (96, 2); (96, 4);
   (64, 2147483655); (64, 112); (64, 112); (64, 2147483646); (64, 2147483655); (96, 0); (96, 0);
   (96, 0); (96, 0); (64, 2147483652); (64, 2147483652); (64, 2147483656); (64, 2147483652);
   (64, 2147483650); (64, 2147483651); (64, 2147483651); (64, 2147483679); (64, 2147483646);
   (64, 2); (64, 2147483654); (64, 2147483650); (64, 2147483654); (64, 2147483654); (64, 8);
   (64, 2); (64, 2147483663); (64, 2147483679); (64, 2147483646); (64, 2147483646); (64, 8);
   (64, 8); (64, 6); (64, 2); (64, 8); (64, 2147483650); (64, 2147483650); (96, 0); (96, 0);
   (64, 6); (64, 12); (64, 12); (64, 16); (64, 6); (64, 6); (64, 8); (64, 2); (64, 4); (64, 4);
   (64, 2); (64, 2); (64, 12); (96, 0); (96, 0); (64, 60); (64, 12); (64, 1); (64, 224); (96, 0);
   (96, 0); (96, 0); (96, 0); (64, 2147483646); (64, 2147483646); (64, 2); (64, 2); (64, 2);
   (64, 2); (64, 2); (64, 2); (64, 8); (64, 4294967292); (64, 2147483651); (64, 2147483649);
   (64, 2147483655); (64, 2147483663); (64, 2147483708); (64, 2147483676); (64, 2147483678);
   (64, 2); (64, 2147483649); (64, 2147483710); (64, 48); (64, 2147483651); (96, 0); (96, 0);
   (64, 2147483651); (96, 4); (64, 2147483655); (64, 2147483650); (64, 2147483647);
   (64, 2147483650); (64, 2147483650); (64, 2147483654); (64, 2147483662); (64, 2147483662);
   (64, 2); (64, 2147483651); (64, 2147483651); (64, 2147483655); (64, 2147483656);
   (64, 2147483656); (64, 2147483660); (64, 2147483654); (64, 2147483646); (64, 56); (64, 2);
   (64, 56); (64, 16); (64, 4); (64, 4); (64, 4); (64, 8); (64, 8); (64, 2); (64, 8); (64, 8);
   (64, 8); (64, 2); (64, 2); (64, 4); (64, 16); (64, 8); (64, 4); (64, 16); (64, 8); (64, 8);
   (64, 8); (64, 16); (64, 2); (64, 8); (64, 2); (64, 8); (64, 2); (64, 4); (64, 8); (64, 8);
   (64, 16); (64, 4); (64, 4); (64, 4); (64, 4); (64, 4); (64, 4); (64, 8); (64, 4); (64, 4);
   (64, 4); (64, 4); (64, 4); (64, 4); (64, 16); (64, 24); (64, 2147483646); (64, 2147483646);
   (64, 2147483646); (64, 2147483646); (64, 2147483646); (64, 2147483646); (64, 12); (64, 4);
   (64, 4); (64, 4); (64, 4); (64, 12); (64, 2147483646); (64, 4); (64, 4); (96, 0);
   (64, 2147483672); (64, 2147483672); (64, 2147483646); (64, 4); (64, 2147484668);
   (64, 2147483654); (64, 2147483662); (64, 2147483678); (64, 2); (64, 2); (64, 2147483644);
   (64, 12); (64, 4); (64, 2); (64, 2147483654); (64, 2147483650); (64, 16); (64, 8); (64, 2);
   (64, 4); (64, 6); (64, 2147483679); (64, 2147483711); (64, 2147483654); (64, 4294967292);
   (64, 6); (64, 2); (64, 2147483646); (64, 2147483646); (64, 2147483646); (64, 2147483646);
   (64, 2147483646); (64, 2147483646); (64, 2147483646); (64, 2); (64, 2); (64, 2); (64, 2);
   (64, 2); (64, 2); (64, 2); (64, 2); (64, 2); (64, 2); (64, 2); (64, 2147483640);
   (64, 4294967294); (64, 2147483660); (64, 2147483656); (64, 2147483672); (64, 6); (64, 2);
   (64, 6); (64, 6); (64, 6); (64, 6); (64, 6); (64, 6); (64, 2); (64, 2); (64, 6); (64, 6);
   (64, 4); (64, 4); (64, 4); (64, 2); (64, 2); (64, 2); (64, 2); (64, 2); (64, 2); (64, 2);
   (64, 2); (64, 2); (64, 2); (64, 2); (64, 2); (64, 12); (64, 2147483646); (64, 2147483646);
   (64, 16); (64, 2); (64, 2); (64, 4); (64, 6); (64, 6); (64, 2); (64, 2); (64, 4); (64, 6);
   (64, 2); (64, 4); (64, 4); (64, 4); (64, 4); (64, 12); (64, 8); (64, 96); (64, 96); (64, 48);
   (64, 48); (64, 48); (64, 48); (64, 48); (64, 8); (64, 8); (64, 8); (64, 192); (64, 192);
   (64, 4); (64, 4); (64, 4); (64, 4); (64, 64); (64, 64); (64, 4); (64, 4); (64, 12); (64, 24);
   (64, 24); (64, 24); (64, 24); (64, 24); (64, 24); (64, 96); (64, 96); (64, 384); (64, 384);
   (64, 768); (64, 768); (64, 4); (64, 6); (64, 192); (64, 192); (64, 8); (64, 448); (64, 48);
   (64, 12); (64, 12); (64, 2147483646); (64, 2147483646); (64, 2147483646); (64, 4);
   (64, 2147483672); (64, 2147483708); (64, 2); (64, 4); (64, 2147483644); (64, 2147483640);
   (64, 12); (64, 2147483640)].

(** formula.cpp 906-921 PropertyForForExcelFunction. *)
Definition property_of (f : Z) : Z * Z :=
  nth (Z.to_nat f) function_properties (CELLOP_AS_VALUE, A_UNKNOWN).
(** formula.cpp 923-929 NumberOfArgsForExcelFunction. *)
Definition args_mask (f : Z) : Z := snd (property_of f).
Definition class_of (f cls : Z) : Z := if cls =? CELL_DEFAULT then fst (property_of f) else cls.

(* ------------------------------------------------------------------ *)
(** * The push interface *)

(** formula.h: the two units main_data and aux_data, as the operations applied to them
    after Inflate(10) (formula.cpp 56-67). *)
Record formula := mkFormula { f_main : list uop; f_aux : list uop }.
Definition formula_new : formula := mkFormula [] [].

Inductive fop :=
| PBool (b : bool)
| PMissing
| PError (e : Z)
| PInteger (n : Z)                                      (* signed32_t *)
| PNumber (bits : Z)                                    (* double *)
| POperator (op : Z)
| PReference (row col idx : Z) (opt : amode) (cls : Z)
| PArea (row1 col1 idx1 row2 col2 idx2 : Z) (opt : amode) (cls : Z)
| PFunction (f cls : Z)
| PFunctionN (f n cls : Z)
| PText (s : list Z)                                    (* PushTextStr16 *)
| PTextArray (l : list (list Z))
| PNumberArray (l : list Z).

(** formula.cpp 154, 190: [own] is the index of m_Worksheet, None when it is NULL. *)
Definition same_sheet (own : option Z) (idx : Z) : bool :=
  match own with
  | None => true
  | Some i => (idx =? invalidIndex) || (idx =? i)
  end.

(** What one push adds: error code, bytes for main_data, bytes for aux_data.  The masks
    OP_x & ~CELLOP_AS_ARRAY are written out as in the code. *)
Definition push_ops (own : option Z) (o : fop) : Z * list uop * list uop :=
  match o with
  | PBool b => (NO_ERRORS, [OAdd8 29; OAdd8 (if b then 1 else 0)], [])        (* 74-82 *)
  | PMissing => (NO_ERRORS, [OAdd8 22], [])                                    (* 84-91 *)
  | PError e => (NO_ERRORS, [OAdd8 28; OAdd8 e], [])                           (* 93-101 *)
  | PInteger n =>                                                              (* 103-116 *)
      if ((0 <=? n) && (n <=? 65535))%bool then (NO_ERRORS, [OAdd8 30; OAdd16 n], [])
      else (NO_ERRORS, [OAdd8 31; OAdd64 (double_of_int n)], [])
  | PNumber bits => (NO_ERRORS, [OAdd8 31; OAdd64 bits], [])                   (* 118-126 *)
  | POperator op => (NO_ERRORS, [OAdd8 op], [])                                (* 128-135 *)
  | PReference row col idx opt cls =>                                          (* 148-171 *)
      let col' := Z.lor (Z.land col (if same_sheet own idx then 16383 else 255)) (mode_bits opt) in
      if same_sheet own idx
      then (NO_ERRORS, [OAdd8 (Z.lor (Z.land 36 159) cls); OAdd16 row; OAdd16 col'], [])
      else (NO_ERRORS, [OAdd8 (Z.lor (Z.land 58 159) cls); OAdd16 idx; OAdd16 row; OAdd16 col'], [])
  | PArea row1 col1 idx1 row2 col2 _ opt cls =>                                (* 185-218 *)
      let m := if same_sheet own idx1 then 16383 else 255 in
      let body := [OAdd16 row1; OAdd16 row2; OAdd16 (Z.lor (Z.land col1 m) (mode_bits opt));
                   OAdd16 (Z.lor (Z.land col2 m) (mode_bits opt))] in
      if same_sheet own idx1
      then (NO_ERRORS, OAdd8 (Z.lor (Z.land 37 159) cls) :: body, [])
      else (NO_ERRORS, OAdd8 (Z.lor (Z.land 59 159) cls) :: OAdd16 idx1 :: body, [])
  | PFunction f cls =>                                                         (* 220-236 *)
      let m := args_mask f in
      if ((m =? 1) || (m =? 2) || (m =? 4) || (m =? 8) || (m =? 16) || (m =? 32) || (m =? A_UNKNOWN))%bool
      then (NO_ERRORS, [OAdd8 (Z.lor (Z.land 33 159) (class_of f cls)); OAdd16 f], [])
      else (GENERAL_ERROR, [], [])
  | PFunctionN f n cls =>                                                      (* 238-255 *)
      let m := args_mask f in
      if ((m =? A_UNKNOWN) || ((n <=? 30) && negb (Z.land m (Z.shiftl 1 n) =? 0)))%bool
      then (NO_ERRORS, [OAdd8 (Z.lor (Z.land 34 159) (class_of f cls)); OAdd8 (Z.land n 127);
                        OAdd16 (Z.land f 32767)], [])
      else (GENERAL_ERROR, [], [])
  | PText s => (NO_ERRORS, [OAdd8 23; OStr s LEN1], [])                        (* 271-279 *)
  | PTextArray l =>                                                            (* 281-315 *)
      (NO_ERRORS, [OAdd8 96; OFixed 0 7],
       [OAdd8 1; OAdd16 (zlen l)] ++ flat_map (fun s => [OAdd8 1; OStr s LEN1]) l)
  | PNumberArray l =>                                                          (* 317-327 *)
      (NO_ERRORS, [OAdd8 96],
       [OAdd8 1; OAdd16 (zlen l)] ++ flat_map (fun x => [OAdd8 2; OAdd64 x]) l)
  end.
Definition push (own : option Z) (F : formula) (o : fop) : Z * formula :=
  let '(e, m, a) := push_ops own o in (e, mkFormula (f_main F ++ m) (f_aux F ++ a)).
Definition pushes (own : option Z) (l : list fop) (F : formula) : formula :=
  fold_left (fun F o => snd (push own F o)) l F.

(** formula.cpp 56-67 Inflate, 329-333 DumpData: main_data, then aux_data. *)
Definition unit_of (ops : list uop) : res (list Z) :=
  let* (_, a) := arun_ops None (OInflate 10 :: ops) in
  match a with Some l => Ok l | None => UB end.
Definition formula_bytes (F : formula) : res (list Z) :=
  let* m := unit_of (f_main F) in
  let* a := unit_of (f_aux F) in
  Ok (m ++ a).

(* ------------------------------------------------------------------ *)
(** * Expression trees *)

(** formula_expr.h: the node classes.  A reference holds the row, column and sheet index of
    the cells it was made from (formula_expr.cpp 307-363).  The argument count of a
    function node is a 16-bit field there; here it is the length of the list, so counts
    above 65535 are outside the model. *)
Inductive expr :=
| EBool (b : bool)
| EInt (n : Z)
| ENum (bits : Z)
| EErr (e : Z)
| EMissing
| EText (s : list Z)
| ERef (row col idx : Z) (opt : amode) (cls : Z)
| EArea (row1 col1 idx1 row2 col2 idx2 : Z) (opt : amode) (cls : Z)
| EUnary (op : opname) (a : expr)
| EBinary (op : opname) (a b : expr)
| EFunction (f cls : Z) (args : list expr).

(** formula_expr.cpp 433-448, 486-499: OP_UPLUS, OP_UMINUS, OP_PERCENT, OP_PAREN. *)
Definition unary_code (op : opname) : bool :=
  match op with OP_UPLUS | OP_UMINUS | OP_PERCENT | OP_PAREN => true | _ => false end.
(** formula_expr.cpp 509-534, 576-599: OP_ADD .. OP_RANGE. *)
Definition binary_code (op : opname) : bool := negb (unary_code op).

(** formula_expr.cpp 825, 850: argcntmask == A_UNKNOWN || (argcntmask & ~(1U << chcnt)).
    Shifting by 32 or more is undefined behaviour. *)
Definition variadic (f n : Z) : res bool :=
  let m := args_mask f in
  if m =? A_UNKNOWN then Ok true
  else if 32 <=? n then UB
  else Ok (negb (Z.land m (4294967295 - Z.shiftl 1 n) =? 0)).

(** The DumpData methods with include_subtree = true: operands first, then the node itself
    (formula_expr.cpp 134-139, 172-176, 199-203, 226-230, 254-258, 299-303, 349-353,
    389-393, 475-502, 562-603, 839-863).  The error codes of the pushes are OR-ed in the
    code; NO_ERRORS is 0, so here the result is the first one that differs from it.  The
    constructors of operator nodes throw on other operator codes. *)
Definition join (e1 e2 : Z) : Z := if e1 =? NO_ERRORS then e2 else e1.
Section DumpList.
  Variable dump : expr -> formula -> res (Z * formula).
  Fixpoint dump_all (l : list expr) (F : formula) : res (Z * formula) :=
    match l with
    | [] => Ok (NO_ERRORS, F)
    | a :: t => let* (e1, F1) := dump a F in let* (e2, F2) := dump_all t F1 in Ok (join e1 e2, F2)
    end.
End DumpList.
Fixpoint dump (own : option Z) (x : expr) (F : formula) {struct x} : res (Z * formula) :=
  match x with
  | EBool b => Ok (push own F (PBool b))
  | EInt n => Ok (push own F (PInteger n))
  | ENum bits => Ok (push own F (PNumber bits))
  | EErr e => Ok (push own F (PError e))
  | EMissing => Ok (push own F PMissing)
  | EText s => Ok (push own F (PText s))
  | ERef row col idx opt cls => Ok (push own F (PReference row col idx opt cls))
  | EArea r1 c1 i1 r2 c2 i2 opt cls => Ok (push own F (PArea r1 c1 i1 r2 c2 i2 opt cls))
  | EUnary op a =>
      let* (e1, F1) := dump own a F in
      let* _ := xl_assert (unary_code op) in
      let '(e2, F2) := push own F1 (POperator (op_code op)) in Ok (join e1 e2, F2)
  | EBinary op a b =>
      let* (e1, F1) := dump own a F in
      let* (e2, F2) := dump own b F1 in
      let* _ := xl_assert (binary_code op) in
      let '(e3, F3) := push own F2 (POperator (op_code op)) in Ok (join e1 (join e2 e3), F3)
  | EFunction f cls args =>
      let* (e1, F1) := dump_all (dump own) args F in
      let* v := variadic f (zlen args) in
      let '(e2, F2) := push own F1 (if v then PFunctionN f (zlen args) cls else PFunction f cls) in
      Ok (join e1 e2, F2)
  end.

(** The GetSize methods (formula_expr.cpp 127-132, 161-170, 193-197, 220-224, 248-252,
    293-297, 343-347, 382-387, 462-473, 548-560, 818-837). *)
Section SizeList.
  Variable size : expr -> res Z.
  Fixpoint size_all (l : list expr) : res Z :=
    match l with
    | [] => Ok 0
    | a :: t => let* n := size a in let* m := size_all t in Ok (n + m)
    end.
End SizeList.
Fixpoint expr_size (x : expr) : res Z :=
  match x with
  | EBool _ => Ok 2
  | EInt n => Ok (if ((0 <=? n) && (n <=? 65535))%bool then 3 else 9)
  | ENum _ => Ok 9
  | EErr _ => Ok 2
  | EMissing => Ok 1
  | EText s => Ok (2 + (if is_ascii s then zlen s else 0) + zlen s)
  | ERef _ _ _ _ _ => Ok 5
  | EArea _ _ _ _ _ _ _ _ => Ok 9
  | EUnary _ a => let* n := expr_size a in Ok (1 + n)
  | EBinary _ a b => let* n := expr_size a in let* m := expr_size b in Ok (1 + n + m)
  | EFunction f _ args =>
      let* v := variadic f (zlen args) in
      let* n := size_all expr_size args in
      Ok (3 + (if v then 1 else 0) + n)
  end.

(** formula_estimate.cpp 40-143: the setters; 145-204 the encodings. *)
Inductive guess := GBool (b : bool) | GInt (n : Z) | GNum (bits : Z) | GErr (e : Z) | GText (s : list Z).
Definition encode_guess (g : guess) : Z :=
  match g with
  | GBool b => 18446462598732840961 + (if b then 65536 else 0)
  | GErr e => 18446462598732840962 + e * 65536
  | GText _ => 18446462598732840960
  | GInt n => double_of_int n
  | GNum bits => bits
  end.
Definition estimate_of (g : guess) (always onload : bool) : estimate :=
  mkEst (encode_guess g) ((if onload then 2 else 0) + (if always then 1 else 0))
        (match g with GText s => Some s | _ => None end).
Definition mem (f : Z) (l : list Z) : bool := existsb (Z.eqb f) l.
(** formula_expr.cpp 617-815 function_basenode_t::GetResultEstimate: the cases of the
    switch by function number. *)
Definition function_guess (f : Z) : res estimate :=
  if f =? 255 then Throw
  else if mem f [1; 2; 3; 34; 35; 36; 37; 38; 105; 126; 127; 128; 129; 130; 131; 190; 198; 350; 375]
  then Ok (estimate_of (GBool false) false true)
  else if mem f [0; 8; 9; 40; 67; 68; 69; 70; 71; 72; 73; 169; 199; 346; 347; 465; 481]
  then Ok (estimate_of (GInt 42) false true)
  else if f =? 19 then Ok (estimate_of (GNum 4614256447914709615) false true)
  else if mem f [4; 5; 6; 7; 12; 15; 16; 17; 18; 20; 21; 22; 23; 24; 27; 39; 41; 42; 43; 44; 45; 46;
                 47; 65; 66; 97; 98; 99; 109; 183; 184; 193; 194; 195; 212; 213; 220; 227; 228; 229;
                 230; 231; 232; 233; 234; 285; 322; 323; 337; 342; 343; 345; 361; 362; 363; 364; 365;
                 366; 367; 414; 423; 424; 471; 472; 473; 482; 483; 484]
  then Ok (estimate_of (GNum 4631107791820423168) false true)
  else if mem f [112; 113; 115; 116; 118; 119; 336; 352; 353; 354; 359; 360; 368; 384; 385; 386; 387;
                 388; 389; 390; 391; 392; 393; 394; 395]
  then Ok (estimate_of (GText [63; 63; 63]) false true)
  else if mem f [74; 221; 63; 237; 464]
  then Ok (estimate_of (GNum 4602678819172646912) true true)
  else if mem f [78; 148] then Ok (estimate_of (GInt 42) true true)
  else if f =? 125 then Ok (estimate_of (GText [63; 63; 63]) true true)
  else Ok (estimate_of (GErr 15) false true).
(** The GetResultEstimate methods (formula_expr.cpp 130-133, 155-158, 188-191, 215-218,
    243-246, 288-291, 331-341, 395-404, 417-427). *)
Definition expr_guess (x : expr) : res estimate :=
  match x with
  | EBool b => Ok (estimate_of (GBool b) false false)
  | EInt n => Ok (estimate_of (GInt n) false false)
  | ENum bits => Ok (estimate_of (GNum bits) false false)
  | EErr e => Ok (estimate_of (GErr e) false false)
  | EMissing => Ok (estimate_of (GErr 42) false false)
  | EText s => Ok (estimate_of (GText s) false false)
  | EFunction f _ _ => function_guess f
  | _ => Ok (estimate_of (GErr 15) false true)
  end.

(* ------------------------------------------------------------------ *)
(** * Formula cells *)

(** formula_cell.cpp 40-149: a cell made from a tree, on the sheet [own]; what reaches
    the record.  The error code of DumpData is dropped (126-137). *)
Definition tree_value (own : Z) (arr : bool) (x : expr) : res uval :=
  let* (_, F) := dump (Some own) x formula_new in
  let* toks := formula_bytes F in
  let* n := expr_size x in
  let* g := expr_guess x in
  Ok (UFormula arr toks n g).
(** A cell made from a formula_t the user filled (formula_cell.cpp 40-58, 139-149;
    formula.cpp 329-344). *)
Definition stack_value (arr : bool) (F : formula) : res uval :=
  let* toks := formula_bytes F in
  Ok (UFormula arr toks (zlen toks) (estimate_of (GErr 15) false true)).
