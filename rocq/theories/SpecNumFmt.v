(** Histories with numbers written together with a built-in number format, and what a reader
    should see of such a cell. *)
From Coq Require Import ZArith List Bool.
From Verif Require Import Bytes UnitModel RecModel SheetModel XfModel WbModel ApiModel NumFmtModel SpecXf SpecXfOps SpecApi SpecBiff SpecSaved SpecLook.
Import ListNotations.
Local Open Scope Z_scope.

(** For types, limits and contents the call counts like the plain number call. *)
Definition plain_of (x : ncall) : call :=
  match x with NCall q => q | NNumber k r c bits _ p => KCell k r c (UDouble bits) p end.
(** The name of a number format is a value of the enumeration. *)
Definition nargs (x : ncall) : Prop :=
  args (plain_of x) /\ match x with NNumber _ _ _ _ fmt _ => 0 <= fmt | _ => True end.
(** [saved] and [saved_ok] for these histories. *)
Definition nsaved (moves : Z -> nat -> bool) (xs : list ncall) (stream : list Z) : Prop :=
  exists w after, ndocument xs = Ok w /\ exists fuel units,
    book_units fuel moves (wb_book w) = Some (Ok (units, after)) /\ stream = concat units.
Record nsaved_ok (R : Z) (moves : Z -> nat -> bool) (xs : list ncall) (stream : list Z) : Prop := {
  no_rows : 0 <= R <= 65535;
  no_typed : Forall typed (map plain_of xs);
  no_fits : SpecSaved.fits R (map plain_of xs);
  no_calm : R <= 32819 \/ forall e n, moves e n = false;
  no_saved : nsaved moves xs stream }.

(** The XF record of the format passed; cells without one use the record 15. *)
Definition base_of (p : option Z) : Z := match p with Some i => i | None => 15 end.
(** The same but for the number format and the mark that belongs to it. *)
Definition renumbered (n : Z) (a : xfattrs) : xfattrs :=
  mkXA (xa_font a) n (xa_locked a) (xa_hidden a) (xa_halign a) (xa_wrap a) (xa_valign a)
       (xa_rotation a) (xa_indent a) (xa_left a) (xa_right a) (xa_top a) (xa_bottom a) (xa_pattern a)
       (xa_fore a) (xa_back a) (if n =? 0 then xa_used a else Z.lor (xa_used a) uNUM).
