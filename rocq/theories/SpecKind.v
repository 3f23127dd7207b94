(** The sheet directory entry as the file format publishes it: position of the sheet, one byte for
    whether it is shown (0 visible, 1 hidden, 2 can only be shown by a program), one byte for what
    it is (0 worksheet, 1 macro sheet, 2 chart, 6 module), the name. *)
From Coq Require Import ZArith List Bool.
From Verif Require Import Bytes UnitModel SpecBiff.
Import ListNotations.
Local Open Scope Z_scope.

Inductive kind := Worksheet | MacroSheet | Chart | VbModule.
Inductive shown := Visible | Hidden | VeryHidden.
Record rentry := mkRE { re_pos : Z; re_shown : Z; re_kind : Z; re_name : list Z }.
Definition read_entry (p : list Z) : option rentry :=
  olet pos := fld 4 p 0 in olet v := fld 1 p 4 in olet k := fld 1 p 5 in
  olet s := whole_string 1 (skipn 6 p) in Some (mkRE pos v k s).
Definition kind_code (k : kind) : Z := match k with Worksheet => 0 | MacroSheet => 1 | Chart => 2 | VbModule => 6 end.
Definition shown_code (v : shown) : Z := match v with Visible => 0 | Hidden => 1 | VeryHidden => 2 end.
(** The attributes a program passes: the sum of the library's constants for both
    (BSHEET_ATTR_WORKSHEET, _EX4MACRO, _CHART, _VBMODULE; _VISIBLE, _HIDDEN, _VERYHIDDEN). *)
Definition attributes_of (k : kind) (v : shown) : Z := kind_code k + 256 * shown_code v.
