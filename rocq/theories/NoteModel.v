(** The calls through a note's pointer: SetFillColor and SetNoteRect (note.h 84-92), also
    offered by the C interface as xlsNoteSetFillColor (cbridge.cpp 165-168).  A note is named by
    its sheet, row and column, as in ApiModel; a pointer to a note that is not (or no longer)
    there is reported as undefined. *)
From Coq Require Import ZArith List Bool.
From Verif Require Import UnitModel RecModel SheetModel WbModel ApiModel.
Import ListNotations.
Local Open Scope Z_scope.

(** note.h 89 SetFillColor. *)
Definition note_fill (red green blue : Z) (n : note) : note :=
  mkNote (no_row n) (no_col n) (no_author n) (no_text n) (no_rect n)
         (Z.lor (Z.lor (Z.shiftl blue 16) (Z.shiftl green 8)) red) (no_idx n).
(** note.h 88 SetNoteRect. *)
Definition note_rect (r : noterec) (n : note) : note :=
  mkNote (no_row n) (no_col n) (no_author n) (no_text n) r (no_fill n) (no_idx n).

Definition note_at (r c : Z) (n : note) : bool := ((no_row n =? r) && (no_col n =? c))%bool.
Definition with_notes (s : sheet) (l : list note) : sheet :=
  mkSheet (sh_index s) (sh_cells s) l (sh_heights s) (sh_cols s) (sh_merged s) (sh_links s)
          (sh_dvs s) (sh_minr s) (sh_maxr s) (sh_minc s) (sh_maxc s) (sh_defrh s) (sh_defcw s)
          (sh_rsplit s) (sh_csplit s) (sh_spid s) (sh_calc s) (sh_sizes s).
Definition on_note (w : wb) (k : nat) (r c : Z) (f : note -> note) : res wb :=
  on_sheet w k (fun s =>
    if existsb (note_at r c) (sh_notes s)
    then Ok (w, with_notes s (map (fun n => if note_at r c n then f n else n) (sh_notes s)))
    else UB).

(** The calls of ApiModel and the two above. *)
Inductive ncall :=
| NCall (q : call)
| NFill (k : nat) (row col : Z) (red green blue : Z)   (* uint8_t *)
| NRect (k : nat) (row col : Z) (r : noterec).         (* fields uint16_t, note.h 47-57 *)
Definition ncall_do (w : wb) (x : ncall) : res wb :=
  match x with
  | NCall q => api_call w q
  | NFill k r c red green blue => on_note w k r c (note_fill red green blue)
  | NRect k r c rect => on_note w k r c (note_rect rect)
  end.
Definition ndocument (p : list ncall) : res wb :=
  let* w := wb_new in fold_res ncall_do p w.
