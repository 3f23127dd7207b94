(** The C interface: the functions of cbridge.cpp, which turn C arguments (pointers, counts,
    integers used as truth values) into calls of the C++ interface (ApiModel).  Line numbers
    without a file are those of /repo/xlslib/src/xlslib/cbridge.cpp; other file names are
    relative to the same directory.

    Handles are represented as in ApiModel: sheets by creation index, formats and fonts by
    their index, a cell by sheet, row and column; a formula_t by the number of
    xlsWorksheetFormula calls made before the one that returned it.  A buffer does not
    change while a function reads it. *)
From Coq Require Import ZArith List Bool.
From Verif Require Import Bytes UnitModel RecModel XfModel ApiModel FormulaModel.
Import ListNotations.
Local Open Scope Z_scope.

(* ------------------------------------------------------------------ *)
(** * Pointers *)

(** A pointer argument: NULL, or the elements from the address to the end of the object it
    points into (char: bytes, unichar_t: wchar_t values, double: bit patterns). *)
Inductive cptr := CNull | CAt (l : list Z).
Fixpoint upto_nul (l : list Z) : option (list Z) :=
  match l with
  | [] => None
  | 0 :: _ => Some []
  | c :: t => match upto_nul t with Some s => Some (c :: s) | None => None end
  end.
(** std::string str = p; ustring str = p (as in lines 61, 66): undefined for NULL and for
    a buffer without a terminator. *)
Definition c_string (p : cptr) : res (list Z) :=
  match p with
  | CNull => UB
  | CAt l => match upto_nul l with Some s => Ok s | None => UB end
  end.
(** p ? p : "" (259-262, 277-280, 296-299, 315-318, 326, 333). *)
Definition c_optional (p : cptr) : res (list Z) := match p with CNull => Ok [] | _ => c_string p end.
(** for (i = 0; i < count; i++) ... p[i] (178-179, 199-201, 207-209). *)
Definition c_array (p : cptr) (n : nat) : res (list Z) :=
  match n with
  | O => Ok []
  | _ => match p with
         | CNull => UB
         | CAt l => if Nat.leb n (length l) then Ok (firstn n l) else UB
         end
  end.
(** The char and the unichar_t (W) variants. *)
Definition as_text (wide : bool) (s : list Z) : text := if wide then TWide s else TChar s.
Definition c_text (wide : bool) (p : cptr) : res text := let* s := c_string p in Ok (as_text wide s).
Definition c_opttext (wide : bool) (p : cptr) : res text := let* s := c_optional p in Ok (as_text wide s).
(** 225-228, 234-237: count pointers, each to a text. *)
Fixpoint c_texts (wide : bool) (l : list cptr) (n : nat) : res (list text) :=
  match n, l with
  | O, _ => Ok []
  | S _, [] => UB
  | S m, p :: t => let* s := c_text wide p in let* r := c_texts wide t m in Ok (s :: r)
  end.

(* ------------------------------------------------------------------ *)
(** * Formulas *)

(** A cell_t pointer: sheet, row, column. *)
Definition chandle := (nat * Z * Z)%type.
Inductive cpush :=
| QBoolean (b : bool)                                             (* 170 *)
| QMissing                                                        (* 171 *)
| QError (e : Z)                                                  (* 172 *)
| QInt (n : Z)                                                    (* 173 *)
| QDbl (bits : Z)                                                 (* 174 *)
| QNumberArray (p : cptr) (n : nat)                               (* 175-181 *)
| QOperator (op : Z)                                              (* 182 *)
| QCell (h : chandle) (opt : amode)                               (* 184 *)
| QArea (h1 h2 : chandle) (opt : amode)                           (* 185-186 *)
| QCellC (h : chandle) (opt : amode) (cls : Z)                    (* 188 *)
| QAreaC (h1 h2 : chandle) (opt : amode) (cls : Z)                (* 189-190 *)
| QFunction (f : Z)                                               (* 192 *)
| QFunctionV (f n : Z)                                            (* 193 *)
| QFunctionC (f cls : Z)                                          (* 194 *)
| QFunctionVC (f n cls : Z)                                       (* 195 *)
| QChars (wide : bool) (p : cptr) (n : nat)                       (* 196-211 *)
| QText (wide : bool) (p : cptr)                                  (* 212-221 *)
| QTextArray (wide : bool) (l : list cptr) (n : nat).             (* 222-239 *)
(** formula.cpp 138-146, 173-183: the row, the column and the index of the sheet of a cell
    (a cell made by a sheet knows its sheet). *)
Definition ref_push (h : chandle) (opt : amode) (cls : Z) : fop :=
  let '(k, r, c) := h in PReference r c (Z.of_nat k) opt cls.
Definition area_push (h1 h2 : chandle) (opt : amode) (cls : Z) : fop :=
  let '(k1, r1, c1) := h1 in let '(k2, r2, c2) := h2 in
  PArea r1 c1 (Z.of_nat k1) r2 c2 (Z.of_nat k2) opt cls.
(** The call of formula_t each function makes.  Texts are converted by char2str16 or
    wide2str16 in formula.cpp 257-269, 281-313. *)
Definition bridge_push (q : cpush) : res fop :=
  match q with
  | QBoolean b => Ok (PBool b)
  | QMissing => Ok PMissing
  | QError e => Ok (PError e)
  | QInt n => Ok (PInteger n)
  | QDbl bits => Ok (PNumber bits)
  | QNumberArray p n => let* l := c_array p n in Ok (PNumberArray l)
  | QOperator op => Ok (POperator op)
  | QCell h opt => Ok (ref_push h opt CELLOP_AS_VALUE)
  | QArea h1 h2 opt => Ok (area_push h1 h2 opt CELLOP_AS_VALUE)
  | QCellC h opt cls => Ok (ref_push h opt cls)
  | QAreaC h1 h2 opt cls => Ok (area_push h1 h2 opt cls)
  | QFunction f => Ok (PFunction f CELL_DEFAULT)
  | QFunctionV f n => Ok (PFunctionN f n CELL_DEFAULT)
  | QFunctionC f cls => Ok (PFunction f cls)
  | QFunctionVC f n cls => Ok (PFunctionN f n cls)
  | QChars wide p n => let* s := c_array p n in Ok (PText (to16 (as_text wide s)))
  | QText wide p => let* t := c_text wide p in Ok (PText (to16 t))
  | QTextArray wide l n => let* ts := c_texts wide l n in Ok (PTextArray (map to16 ts))
  end.

(* ------------------------------------------------------------------ *)
(** * Calls *)

Inductive ccall :=
| XSheet (wide : bool) (name : cptr)                                              (* 60-68 *)
| XFont (name : cptr)                                                             (* 72-75 *)
| XFormat (wide : bool) (name : cptr)                                             (* 76-83 *)
| XLabel (wide : bool) (k : nat) (row col : Z) (p : cptr) (xf : option Z)         (* 126-135 *)
| XBlank (k : nat) (row col : Z) (xf : option Z)                                  (* 136-137 *)
| XNumberDbl (k : nat) (row col : Z) (bits : Z) (xf : option Z)                   (* 139-140 *)
| XNumberInt (k : nat) (row col : Z) (n : Z) (xf : option Z)                      (* 142-143 *)
| XBoolean (k : nat) (row col : Z) (b : Z) (xf : option Z)                        (* 145-146 *)
| XError (k : nat) (row col : Z) (e : Z) (xf : option Z)                          (* 148-149 *)
| XNote (wide : bool) (k : nat) (row col : Z) (author remark : cptr)              (* 151-164 *)
| XFormula (k : nat)                                                              (* 169 *)
| XPush (f : nat) (q : cpush)
| XFormulaCell (k : nat) (row col : Z) (f : nat) (xf : option Z)                  (* 241-244 *)
| XFormulaCellArray (k : nat) (row col : Z) (f : nat) (xf : option Z)             (* 245-248 *)
| XValidateCell (wide : bool) (k : nat) (h : chandle) (options : Z) (c1 c2 : option nat)
                (ptitle ptext etitle etext : cptr)                                (* 249-284 *)
| XValidateArea (wide : bool) (k : nat) (h1 h2 : chandle) (options : Z) (c1 c2 : option nat)
                (ptitle ptext etitle etext : cptr)                                (* 285-322 *)
| XHyperLink (wide : bool) (k : nat) (row col : Z) (url mark : cptr)              (* 323-336 *)
| XCellFontname (k : nat) (row col : Z) (name : cptr)                             (* 361-364 *)
| XFontSetName (i : Z) (name : cptr)                                              (* 432-435 *)
| XPass (q : call).

(** The C functions that hand their arguments to a C++ call of the same meaning without
    change: xlsCell... and xlsXformat... setters (340-359, 365-374, 382-426, 475),
    xlsFontSet... (446-468), xlsWorkbookxFormat[Font] (84-85), window settings (96-103),
    MakeActive, SplitWindow, Merge, Colwidth, Rowheight (109-121).  Not represented:
    xlsWorkbookProperty (HpsfModel), xlsWorkbookDump (OleModel), xlsRangeCellcolor
    (RangeModel), the getters (QueryModel), xlsXformatSetCellMode, xlsNoteSetFillColor. *)
Definition no_name (o : fontop) : bool := match o with NName _ => false | _ => true end.
Definition passes (q : call) : bool :=
  match q with
  | KCellOp _ _ _ (CFont o) | KFontSet _ o => no_name o
  | KCellOp _ _ _ _ | KMerge _ _ _ _ _ | KColwidth _ _ _ _ | KRowheight _ _ _ _ | KSplit _ _ _
  | KActive _ | KWindPos _ _ | KWindSize _ _ | KFirstTab _ | KTabBar _ | KXformat _ _ | KXfSet _ _ => true
  | _ => false
  end.

(** The C++ calls made so far.  A formula cell and a validation keep a pointer to their
    formula_t (formula_cell.cpp 54-63, sheetrec.cpp 1381-1382): its contents are taken when
    the workbook is saved. *)
Inductive pending :=
| NDone (q : call)
| NFormula (k : nat) (row col : Z) (arr : bool) (f : nat) (xf : option Z)
| NValid (k : nat) (r : range) (options : Z) (c1 c2 : option nat) (ptitle ptext etitle etext : list Z).
(** The formulas: the sheet they were made for and the contents. *)
Record cstate := mkCS { cs_calls : list pending; cs_forms : list (nat * formula) }.
Definition cs_new : cstate := mkCS [] [].
Definition cs_add (s : cstate) (q : pending) : res cstate := Ok (mkCS (cs_calls s ++ [q]) (cs_forms s)).

(** A formula_t pointer must come from xlsWorksheetFormula; cond1 and cond2 may be NULL. *)
Definition formula_known (s : cstate) (f : nat) : bool := Nat.ltb f (length (cs_forms s)).
Definition cond_known (s : cstate) (c : option nat) : bool :=
  match c with Some f => formula_known s f | None => true end.
Definition validate_as (s : cstate) (wide : bool) (k : nat) (r : range) (options : Z) (c1 c2 : option nat)
  (ptitle ptext etitle etext : cptr) : res cstate :=
  let* a := c_opttext wide ptitle in
  let* b := c_opttext wide ptext in
  let* c := c_opttext wide etitle in
  let* d := c_opttext wide etext in
  if (cond_known s c1 && cond_known s c2)%bool
  then cs_add s (NValid k r options c1 c2 (to16 a) (to16 b) (to16 c) (to16 d))
  else UB.

Definition c_step (s : cstate) (q : ccall) : res cstate :=
  match q with
  | XSheet wide p => let* t := c_text wide p in cs_add s (NDone (KSheet t))
  | XFont p => let* n := c_string p in cs_add s (NDone (KFont n))
  | XFormat wide p => let* t := c_text wide p in cs_add s (NDone (KFormat t))
  | XLabel wide k r c p xf => let* t := c_text wide p in cs_add s (NDone (KCell k r c (ULabel t) xf))
  | XBlank k r c xf => cs_add s (NDone (KCell k r c UBlank xf))
  | XNumberDbl k r c bits xf => cs_add s (NDone (KCell k r c (UDouble bits) xf))
  | XNumberInt k r c n xf => cs_add s (NDone (KCell k r c (UInt n) xf))
  | XBoolean k r c b xf => cs_add s (NDone (KCell k r c (UBool (negb (b =? 0))) xf))
  | XError k r c e xf => cs_add s (NDone (KCell k r c (UErr e) xf))
  | XNote wide k r c a t =>
      let* ta := c_text wide a in let* tr := c_text wide t in cs_add s (NDone (KNote k r c ta tr))
  | XFormula k => Ok (mkCS (cs_calls s) (cs_forms s ++ [(k, formula_new)]))
  | XPush f p =>
      match nth_error (cs_forms s) f with
      | None => UB
      | Some (own, F) =>
          let* o := bridge_push p in
          let (_, F1) := push (Some (Z.of_nat own)) F o in
          Ok (mkCS (cs_calls s) (upd f (own, F1) (cs_forms s)))
      end
  | XFormulaCell k r c f xf => if formula_known s f then cs_add s (NFormula k r c false f xf) else UB
  | XFormulaCellArray k r c f xf => if formula_known s f then cs_add s (NFormula k r c true f xf) else UB
  | XValidateCell wide k h options c1 c2 a b c d =>
      let '(_, row, col) := h in
      validate_as s wide k (mkRange row row col col) options c1 c2 a b c d
  | XValidateArea wide k h1 h2 options c1 c2 a b c d =>
      let '(_, row1, col1) := h1 in let '(_, row2, col2) := h2 in
      validate_as s wide k (mkRange row1 row2 col1 col2) options c1 c2 a b c d
  | XHyperLink wide k r c url mark =>
      let* u := c_text wide url in let* m := c_opttext wide mark in cs_add s (NDone (KHyperlink k r c u m))
  | XCellFontname k r c p => let* n := c_string p in cs_add s (NDone (KCellOp k r c (CFont (NName n))))
  | XFontSetName i p => let* n := c_string p in cs_add s (NDone (KFontSet i (NName n)))
  | XPass q => if passes q then cs_add s (NDone q) else UB
  end.
Definition c_run (prog : list ccall) : res cstate := fold_res c_step prog cs_new.

(** At the save: formula.cpp 329-333 DumpData appends what the formula holds by then. *)
Definition cond_settle (forms : list (nat * formula)) (c : option nat) : res (option (list Z)) :=
  match c with
  | None => Ok None
  | Some f => match nth_error forms f with
              | None => UB
              | Some (_, F) => let* b := formula_bytes F in Ok (Some b)
              end
  end.
Definition settle (forms : list (nat * formula)) (q : pending) : res call :=
  match q with
  | NDone q => Ok q
  | NFormula k r c arr f xf =>
      match nth_error forms f with
      | None => UB
      | Some (_, F) => let* v := stack_value arr F in Ok (KCell k r c v xf)
      end
  | NValid k rg options c1 c2 a b c d =>
      let* x := cond_settle forms c1 in
      let* y := cond_settle forms c2 in
      Ok (KValidate k (mkDV rg options x y a b c d))
  end.
Fixpoint settle_all (forms : list (nat * formula)) (l : list pending) : res (list call) :=
  match l with
  | [] => Ok []
  | q :: t => let* c := settle forms q in let* r := settle_all forms t in Ok (c :: r)
  end.
(** The C++ calls a C program amounts to when the workbook is saved at its end. *)
Definition c_calls (prog : list ccall) : res (list call) :=
  let* s := c_run prog in settle_all (cs_forms s) (cs_calls s).
