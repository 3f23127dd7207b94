(** Calls a user may make: what has to exist, and which values arguments may have. *)
From Coq Require Import ZArith List Bool.
From Verif Require Import Bytes UnitModel RecModel SheetModel XfModel WbModel ApiModel SpecBiff SpecApi SpecXf SpecXfOps SpecLook.
Import ListNotations.
Local Open Scope Z_scope.

(** An earlier call returned this object. *)
Definition made (calls : list call) (k : kind) (h : Z) : Prop :=
  exists earlier q later, calls = earlier ++ q :: later /\ kind_of q = Some k /\ returns earlier q h.
(** NULL or an object returned earlier. *)
Definition known (calls : list call) (k : kind) (p : option Z) : Prop := forall h, p = Some h -> made calls k h.
Definition sheet_there (calls : list call) (k : nat) : Prop := (k < length (sheet_names calls))%nat.

(** Enumeration arguments are enumerators: extformat.h 85-107 (fill), 118-129 (border style),
    136-144 (side), 153-163 (horizontal), 170-177 (vertical), 225-232 (orientation), 258-280
    (indent), colors.h 121-139, font.h 51-86. *)
Definition enum (n v : Z) : Prop := 0 <= v < n.
Definition xf_enums (o : xfop) : Prop :=
  match o with
  | XHAlign v => enum 7 v
  | XVAlign v => enum 4 v
  | XIndent v => enum 19 v
  | XOrient v => enum 4 v
  | XFg v | XBg v => enum 59 v
  | XFill v => enum 19 v
  | XBStyle side v => enum 5 side /\ enum 8 v
  | XBColor side v => enum 5 side /\ enum 59 v
  | XBColorIdx side _ => enum 5 side
  | _ => True
  end.
Definition font_enums (o : fontop) : Prop :=
  match o with
  | NBold v => enum 4 v
  | NUnder v => enum 5 v
  | NScript v => enum 3 v
  | NColor v => enum 59 v
  | _ => True
  end.
Definition set_legal (calls : list call) (o : fmtop) : Prop :=
  match o with
  | FXf o => xf_enums o
  | FFont f => known calls AFont f
  | FFormat f => known calls ANumberFormat f
  end.
Definition op_legal (calls : list call) (o : cellop) : Prop :=
  match o with
  | CFormat o => set_legal calls o
  | CFont o => font_enums o
  | CSetXF p => known calls ACellFormat p
  end.

(** The call [q] may be made after [calls]: it works on a sheet, a cell and objects that
    exist; a range runs from its first to its last row and column, which is not the largest
    32-bit number. *)
Definition legal (calls : list call) (q : call) : Prop :=
  match q with
  | KCell k _ _ _ p | KColwidth k _ _ p | KRowheight k _ _ p => sheet_there calls k /\ known calls ACellFormat p
  | KNote k _ _ _ _ | KMerge k _ _ _ _ | KDefRowHeight k _ _ | KDefColWidth k _ | KSplit k _ _ | KValidate k _ | KActive k => sheet_there calls k
  | KCellOp k r c o => cells_of k calls r c <> None /\ op_legal calls o
  | KRange k r1 c1 r2 c2 o => sheet_there calls k /\ r1 <= r2 < 4294967295 /\ c1 <= c2 < 4294967295 /\ op_legal calls o
  | KHyperlink k r c _ _ => cells_of k calls r c <> None
  | KFontNum n => enum 5 n
  | KXformat f m => (forall x, f = Some x -> known calls AFont x) /\ (forall x, m = Some x -> known calls ANumberFormat x)
  | KXfSet p o => made calls ACellFormat p /\ set_legal calls o
  | KFontSet i o => made calls AFont i /\ font_enums o
  | KSheet _ | KSetColor _ _ _ _ | KWindPos _ _ | KWindSize _ _ | KFirstTab _ | KTabBar _ | KFont _ | KFormat _ => True
  end.
Definition legal_history (calls : list call) : Prop :=
  forall earlier q later, calls = earlier ++ q :: later -> legal earlier q.
