(** What a program written against the C interface means to its author.  Only the types of
    calls (CApiModel.ccall, cpush) are taken from the model. *)
From Coq Require Import ZArith List Bool.
From Verif Require Import Bytes UnitModel RecModel SpecBuf SheetModel XfModel ApiModel FormulaModel CApiModel SpecBiff SpecApi SpecSaved SpecObj.
Import ListNotations.
Local Open Scope Z_scope.

(** A C text: the elements before the first zero. *)
Definition terminated (p : cptr) (t : list Z) : Prop := exists rest, p = CAt (t ++ 0 :: rest) /\ ~ In 0 t.
(** An argument that may be NULL, which counts as the empty text. *)
Definition optional (p : cptr) (t : list Z) : Prop := (p = CNull /\ t = []) \/ terminated p t.
(** The first [n] elements. *)
Definition first_of (p : cptr) (n : nat) (t : list Z) : Prop :=
  length t = n /\ (n = O \/ exists rest, p = CAt (t ++ rest)).
(** Texts the build without iconv keeps: 7-bit characters, or wide characters of the basic
    multilingual plane. *)
Definition kept (wide : bool) (t : list Z) : Prop := Forall (fun c => 0 <= c < (if wide then 65536 else 128)) t.

(** What the author asked to have at a position. *)
Inductive cvalue :=
| WText (wide : bool) (p : cptr) | WBlank | WDouble (bits : Z) | WInt (n : Z) | WBool (b : bool) | WErr (e : Z)
| WFormula (f : nat) (arr : bool).
(** Position and value of a call that puts something into a cell, with the format. *)
Definition cell_call (q : ccall) : option (nat * Z * Z * cvalue * option Z) :=
  match q with
  | XLabel w k r c p xf => Some (k, r, c, WText w p, xf)
  | XBlank k r c xf => Some (k, r, c, WBlank, xf)
  | XNumberDbl k r c x xf => Some (k, r, c, WDouble x, xf)
  | XNumberInt k r c n xf => Some (k, r, c, WInt n, xf)
  | XBoolean k r c b xf => Some (k, r, c, WBool (negb (b =? 0)), xf)     (* C: any integer but 0 is true *)
  | XError k r c e xf => Some (k, r, c, WErr e, xf)
  | XFormulaCell k r c f xf => Some (k, r, c, WFormula f false, xf)
  | XFormulaCellArray k r c f xf => Some (k, r, c, WFormula f true, xf)
  | _ => None
  end.
(** The last value put at a position. *)
Definition c_cells_step (k : nat) (r c : Z) (o : option cvalue) (q : ccall) : option cvalue :=
  match cell_call q with
  | Some (k', r', c', v, _) => if (Nat.eqb k k' && (r =? r') && (c =? c'))%bool then Some v else o
  | None => o
  end.
Definition c_cells (k : nat) (prog : list ccall) (r c : Z) : option cvalue := fold_left (c_cells_step k r c) prog None.
(** What a reader of the file should then find. *)
Definition c_reads (v : cvalue) (x : rval) : Prop :=
  match v with
  | WText w p => exists s, x = RText s /\ forall t, terminated p t -> kept w t -> storable t = true -> s = t
  | WBlank => x = RBlank
  | WDouble bits => x = RNum (NDouble bits)
  | WInt n => exists y, x = RNum y /\ denotes y n
  | WBool b => x = RBool b
  | WErr e => x = RErr e
  | WFormula f arr => exists y, x = RFormula y /\ rf_array y = arr
  end.

(** The format of a cell: the one given with its last value (the default one if none was),
    until a formatting call is made on the cell. *)
Definition c_fmt_step (k : nat) (r c : Z) (f : fmt_state) (q : ccall) : fmt_state :=
  match q with
  | XCellFontname k' r' c' _ => if (Nat.eqb k k' && (r =? r') && (c =? c'))%bool then (match f with NoCell => NoCell | _ => Derived end) else f
  | XPass q => fmt_step k r c f q
  | _ => match cell_call q with
         | Some (k', r', c', _, p) => if (Nat.eqb k k' && (r =? r') && (c =? c'))%bool then Known (given p) else f
         | None => f
         end
  end.
Definition c_fmt (k : nat) (prog : list ccall) (r c : Z) : fmt_state := fold_left (c_fmt_step k r c) prog NoCell.

(** The last note at a position: author and text. *)
Definition c_note_step (k : nat) (r c : Z) (o : option (bool * cptr * cptr)) (q : ccall) : option (bool * cptr * cptr) :=
  match q with
  | XNote w k' r' c' a t => if (Nat.eqb k k' && (r =? r') && (c =? c'))%bool then Some (w, a, t) else o
  | _ => o
  end.
Definition c_note (k : nat) (prog : list ccall) (r c : Z) := fold_left (c_note_step k r c) prog None.

(** Names of the sheets, in order. *)
Definition c_sheets (prog : list ccall) : list (bool * cptr) :=
  flat_map (fun q => match q with XSheet w p => [(w, p)] | _ => [] end) prog.

(** The sheet a formula was made for. *)
Definition c_owners (prog : list ccall) : list nat :=
  flat_map (fun q => match q with XFormula k => [k] | _ => [] end) prog.
(** Everything pushed on formula [f], in order, whether before or after it was put into a
    cell. *)
Definition c_pushes (f : nat) (prog : list ccall) : list cpush :=
  flat_map (fun q => match q with XPush g p => if Nat.eqb f g then [p] else [] | _ => [] end) prog.
(** The element each push adds to the formula. *)
Inductive push_says : cpush -> fop -> Prop :=
| ps_bool b : push_says (QBoolean b) (PBool b)
| ps_missing : push_says QMissing PMissing
| ps_error e : push_says (QError e) (PError e)
| ps_int n : push_says (QInt n) (PInteger n)
| ps_dbl x : push_says (QDbl x) (PNumber x)
| ps_numbers p n l : first_of p n l -> push_says (QNumberArray p n) (PNumberArray l)
| ps_op o : push_says (QOperator (op_code o)) (POperator (op_code o))
| ps_cell k r c m : push_says (QCell (k, r, c) m) (PReference r c (Z.of_nat k) m CELLOP_AS_VALUE)
| ps_area k r1 c1 k' r2 c2 m : push_says (QArea (k, r1, c1) (k', r2, c2) m) (PArea r1 c1 (Z.of_nat k) r2 c2 (Z.of_nat k') m CELLOP_AS_VALUE)
| ps_cellc k r c m cls : push_says (QCellC (k, r, c) m cls) (PReference r c (Z.of_nat k) m cls)
| ps_areac k r1 c1 k' r2 c2 m cls : push_says (QAreaC (k, r1, c1) (k', r2, c2) m cls) (PArea r1 c1 (Z.of_nat k) r2 c2 (Z.of_nat k') m cls)
| ps_fun f : push_says (QFunction f) (PFunction f CELL_DEFAULT)
| ps_funv f n : push_says (QFunctionV f n) (PFunctionN f n CELL_DEFAULT)
| ps_func f cls : push_says (QFunctionC f cls) (PFunction f cls)
| ps_funvc f n cls : push_says (QFunctionVC f n cls) (PFunctionN f n cls)
| ps_chars w p n t : first_of p n t -> kept w t -> push_says (QChars w p n) (PText t)
| ps_text w p t : terminated p t -> kept w t -> push_says (QText w p) (PText t)
| ps_texts w l rest ts : Forall2 terminated l ts -> Forall (kept w) ts -> push_says (QTextArray w (l ++ rest) (length ts)) (PTextArray ts).

(** Hyperlinks and validations of a sheet, in order. *)
Definition c_links (k : nat) (prog : list ccall) : list (bool * Z * Z * cptr * cptr) :=
  flat_map (fun q => match q with XHyperLink w k' r c u m => if Nat.eqb k k' then [(w, r, c, u, m)] else [] | _ => [] end) prog.
Definition c_link_says (x : bool * Z * Z * cptr * cptr) (l : rlink) : Prop :=
  let '(w, r, c, u, m) := x in
  (0 <= r < 65536 -> 0 <= c < 65536 -> rk_area l = (r, r, c, c))
  /\ (forall t, terminated u t -> kept w t -> rk_url l = t)
  /\ (optional m [] -> rk_mark l = None)
  /\ (forall t, optional m t -> kept w t -> t <> [] -> rk_mark l = Some t).
Record cvalid := mkCV { cv_wide : bool; cv_area : Z * Z * Z * Z; cv_options : Z; cv_first : option nat; cv_second : option nat;
  cv_ptitle : cptr; cv_ptext : cptr; cv_etitle : cptr; cv_etext : cptr }.
(** The area as (first row, last row, first column, last column): the one cell, or the
    rectangle between the two corners. *)
Definition c_valids (k : nat) (prog : list ccall) : list cvalid :=
  flat_map (fun q => match q with
    | XValidateCell w k' (_, r, c) o f g a b d e => if Nat.eqb k k' then [mkCV w (r, r, c, c) o f g a b d e] else []
    | XValidateArea w k' (_, r1, c1) (_, r2, c2) o f g a b d e => if Nat.eqb k k' then [mkCV w (r1, r2, c1, c2) o f g a b d e] else []
    | _ => [] end) prog.
(** [toks f b]: the bytes [b] are the tokens of formula [f]. *)
Definition c_valid_says (toks : nat -> list Z -> Prop) (v : cvalid) (d : rdv) : Prop :=
  rd_areas d = [cv_area v] /\ rd_options d = cv_options v
  /\ (forall t, optional (cv_ptitle v) t -> kept (cv_wide v) t -> rd_ptitle d = t)
  /\ (forall t, optional (cv_ptext v) t -> kept (cv_wide v) t -> rd_ptext d = t)
  /\ (forall t, optional (cv_etitle v) t -> kept (cv_wide v) t -> rd_etitle d = t)
  /\ (forall t, optional (cv_etext v) t -> kept (cv_wide v) t -> rd_etext d = t)
  /\ (match cv_first v with None => rd_first d = [30; 0; 0] | Some f => toks f (rd_first d) end)     (* the integer 0 *)
  /\ (match cv_second v with None => rd_second d = [30; 0; 0] | Some f => toks f (rd_second d) end).

(** The rules a C programmer has to keep: texts are terminated (or NULL where that is
    allowed), counts do not exceed the arrays, and a formula is made before it is used. *)
Definition has_text (p : cptr) : Prop := exists t, terminated p t.
Definition has_optional (p : cptr) : Prop := exists t, optional p t.
Definition has_elements (p : cptr) (n : nat) : Prop := exists t, first_of p n t.
Definition push_proper (q : cpush) : Prop :=
  match q with
  | QNumberArray p n | QChars _ p n => has_elements p n
  | QText _ p => has_text p
  | QTextArray _ l n => (n <= length l)%nat /\ Forall has_text (firstn n l)
  | _ => True
  end.
(** The calls of the C++ interface that have a C function with the same arguments. *)
Inductive offered : call -> Prop :=
| of_cell k r c o : (forall n, o <> CFont (NName n)) -> offered (KCellOp k r c o)
| of_font i o : (forall n, o <> NName n) -> offered (KFontSet i o)
| of_xf i o : offered (KXfSet i o)
| of_xformat f n : offered (KXformat f n)
| of_merge k a b c d : offered (KMerge k a b c d)
| of_width k c w p : offered (KColwidth k c w p)
| of_height k r h p : offered (KRowheight k r h p)
| of_split k r c : offered (KSplit k r c)
| of_active k : offered (KActive k)
| of_pos x y : offered (KWindPos x y)
| of_size x y : offered (KWindSize x y)
| of_tab n : offered (KFirstTab n)
| of_bar n : offered (KTabBar n).
Definition made (before : list ccall) (f : nat) : Prop := (f < length (c_owners before))%nat.
Definition cond_made (before : list ccall) (f : option nat) : Prop := match f with Some f => made before f | None => True end.
Definition call_proper (before : list ccall) (q : ccall) : Prop :=
  match q with
  | XSheet _ p | XFont p | XFormat _ p | XLabel _ _ _ _ p _ | XCellFontname _ _ _ p | XFontSetName _ p => has_text p
  | XNote _ _ _ _ a t => has_text a /\ has_text t
  | XHyperLink _ _ _ _ u m => has_text u /\ has_optional m
  | XPush f p => made before f /\ push_proper p
  | XFormulaCell _ _ _ f _ | XFormulaCellArray _ _ _ f _ => made before f
  | XValidateCell _ _ _ _ f g a b c d | XValidateArea _ _ _ _ _ f g a b c d =>
      cond_made before f /\ cond_made before g /\ has_optional a /\ has_optional b /\ has_optional c /\ has_optional d
  | XPass q => offered q
  | _ => True
  end.
Definition proper (prog : list ccall) : Prop :=
  forall pre q post, prog = pre ++ q :: post -> call_proper pre q.

(** * The C++ call each C function stands for *)

Definition cxx_text (wide : bool) (t : list Z) : text := if wide then TWide t else TChar t.
(** The formula object after all pushes of the program, when its texts are kept. *)
Definition cxx_formula (prog : list ccall) (f : nat) (F : formula) : Prop :=
  forall own l, nth_error (c_owners prog) f = Some own -> Forall2 push_says (c_pushes f prog) l -> F = pushes (Some (Z.of_nat own)) l formula_new.
Definition cxx_condition (prog : list ccall) (f : option nat) (x : option (list Z)) : Prop :=
  match f, x with
  | None, None => True
  | Some f, Some b => exists F, cxx_formula prog f F /\ formula_bytes F = Ok b
  | _, _ => False
  end.
Definition cxx_message (wide : bool) (p : cptr) (s : list Z) : Prop := forall t, optional p t -> kept wide t -> s = t.
Inductive cxx (prog : list ccall) : ccall -> list call -> Prop :=
| cx_sheet w p t : terminated p t -> cxx prog (XSheet w p) [KSheet (cxx_text w t)]
| cx_font p t : terminated p t -> cxx prog (XFont p) [KFont t]
| cx_format w p t : terminated p t -> cxx prog (XFormat w p) [KFormat (cxx_text w t)]
| cx_label w k r c p xf t : terminated p t -> cxx prog (XLabel w k r c p xf) [KCell k r c (ULabel (cxx_text w t)) xf]
| cx_blank k r c xf : cxx prog (XBlank k r c xf) [KCell k r c UBlank xf]
| cx_double k r c x xf : cxx prog (XNumberDbl k r c x xf) [KCell k r c (UDouble x) xf]
| cx_int k r c n xf : cxx prog (XNumberInt k r c n xf) [KCell k r c (UInt n) xf]
| cx_false k r c xf : cxx prog (XBoolean k r c 0 xf) [KCell k r c (UBool false) xf]
| cx_true k r c b xf : b <> 0 -> cxx prog (XBoolean k r c b xf) [KCell k r c (UBool true) xf]
| cx_error k r c e xf : cxx prog (XError k r c e xf) [KCell k r c (UErr e) xf]
| cx_note w k r c a t sa st : terminated a sa -> terminated t st -> cxx prog (XNote w k r c a t) [KNote k r c (cxx_text w sa) (cxx_text w st)]
| cx_new k : cxx prog (XFormula k) []
| cx_push f p : cxx prog (XPush f p) []
| cx_formula k r c f xf F v : cxx_formula prog f F -> stack_value false F = Ok v -> cxx prog (XFormulaCell k r c f xf) [KCell k r c v xf]
| cx_array k r c f xf F v : cxx_formula prog f F -> stack_value true F = Ok v -> cxx prog (XFormulaCellArray k r c f xf) [KCell k r c v xf]
| cx_cell w k j r c o f g a b d e x y sa sb sd se :
    cxx_condition prog f x -> cxx_condition prog g y -> cxx_message w a sa -> cxx_message w b sb -> cxx_message w d sd -> cxx_message w e se ->
    cxx prog (XValidateCell w k (j, r, c) o f g a b d e) [KValidate k (mkDV (mkRange r r c c) o x y sa sb sd se)]
| cx_area w k i j r1 c1 r2 c2 o f g a b d e x y sa sb sd se :
    cxx_condition prog f x -> cxx_condition prog g y -> cxx_message w a sa -> cxx_message w b sb -> cxx_message w d sd -> cxx_message w e se ->
    cxx prog (XValidateArea w k (i, r1, c1) (j, r2, c2) o f g a b d e) [KValidate k (mkDV (mkRange r1 r2 c1 c2) o x y sa sb sd se)]
| cx_link w k r c u m su sm : terminated u su -> optional m sm -> cxx prog (XHyperLink w k r c u m) [KHyperlink k r c (cxx_text w su) (cxx_text w sm)]
| cx_fontname k r c p t : terminated p t -> cxx prog (XCellFontname k r c p) [KCellOp k r c (CFont (NName t))]
| cx_setname i p t : terminated p t -> cxx prog (XFontSetName i p) [KFontSet i (NName t)]
| cx_pass q : cxx prog (XPass q) [q].
