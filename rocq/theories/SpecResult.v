(** What a spreadsheet program finds in the result field of a saved formula ([MS-XLS]
    2.5.133 FormulaValue and the FORMULA record's option flags).  Written from the format
    alone. *)
From Coq Require Import ZArith List Bool.
From Verif Require Import SpecBiff.
Import ListNotations.
Local Open Scope Z_scope.

(** The cached result: a number (as its 64 bits), a truth value, an error code, a text, or
    an empty text.  The last two bytes tell numbers from the rest. *)
Inductive cached := CNumber (bits : Z) | CBool (b : bool) | CError (e : Z) | CText (s : list Z) | CEmpty.
Definition octet (v k : Z) : Z := v / 256 ^ k mod 256.
Definition cached_of (f : rformula) : option cached :=
  let v := rf_result f in
  match rf_string f with
  | Some s => if (v / 256 ^ 6 =? 65535) && (octet v 0 =? 0) then Some (CText s) else None
  | None =>
      if v / 256 ^ 6 =? 65535 then
        match octet v 0 with
        | 1 => match octet v 2 with 0 => Some (CBool false) | 1 => Some (CBool true) | _ => None end
        | 2 => Some (CError (octet v 2))
        | 3 => Some CEmpty
        | _ => None
        end
      else Some (CNumber v)
  end.
(** Bit 0: calculate whenever the workbook is calculated; bit 1: calculate when the file
    is opened. *)
Definition calc_always (f : rformula) : bool := Z.testbit (rf_flags f) 0.
Definition calc_on_open (f : rformula) : bool := Z.testbit (rf_flags f) 1.

(** The functions whose value changes although no argument does: RAND, NOW, OFFSET, CELL,
    INDIRECT, TODAY, the volatile marker, RANDBETWEEN. *)
Definition volatile : list Z := [63; 74; 78; 125; 148; 221; 237; 464].
