(** The fixed part of a BIFF8 workbook: text encoding, date system, formats and named
    styles.  Written from the file format. *)
From Coq Require Import ZArith List Bool.
From Verif Require Import Bytes SpecBuf SpecBiff SpecXf.
Import ListNotations.
Local Open Scope Z_scope.

Definition T_CODEPAGE := 66.    Definition T_DATEMODE := 34.    Definition T_STYLE := 659.

(** CODEPAGE: 1200 stands for UTF-16.  1904 dates are marked 1, 1900 dates 0. *)
Definition codepage (p : list Z) : option Z := if zlen p =? 2 then fld 2 p 0 else None.
Definition date1904 (p : list Z) : option bool :=
  if zlen p =? 2 then match fld 2 p 0 with Some 0 => Some false | Some 1 => Some true | _ => None end else None.

(** An XF record describes a cell, naming the style it is based on, or a style. *)
Inductive xfkind := CellXf (parent : Z) | StyleXf.
Definition xf_kind (p : list Z) : option xfkind :=
  if zlen p =? 20 then
    let prot := word 2 4 p in
    if bits 2 1 prot =? 1 then (if bits 4 12 prot =? 4095 then Some StyleXf else None) else Some (CellXf (bits 4 12 prot))
  else None.
Definition kind_at (g : list brec) (i : Z) : option xfkind :=
  if i <? 0 then None else olet p := nth_error (payloads T_XF g) (Z.to_nat i) in xf_kind p.

(** A built-in STYLE record: the style XF it names, which built-in style, outline level. *)
Record rstyle := mkRStyle { rs_xf : Z; rs_builtin : Z; rs_level : Z }.
Definition read_style (p : list Z) : option rstyle :=
  if zlen p =? 4 then
    olet w := fld 2 p 0 in olet b := fld 1 p 2 in olet l := fld 1 p 3 in
    if bits 15 1 w =? 1 then Some (mkRStyle (bits 0 12 w) b l) else None
  else None.
(** Built-in styles: Normal, RowLevel_n, ColLevel_n, Comma, Currency, Percent, Comma [0], Currency [0]. *)
Definition S_NORMAL := 0.   Definition S_COMMA := 3.   Definition S_CURRENCY := 4.
Definition S_PERCENT := 5.  Definition S_COMMA0 := 6.  Definition S_CURRENCY0 := 7.
