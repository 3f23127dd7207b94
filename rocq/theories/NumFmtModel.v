(** worksheet::number with a built-in number format (sheetrec.cpp 820-839, the call the header
    marks as deprecated), mixed with the other calls. *)
From Coq Require Import ZArith List Bool.
From Verif Require Import UnitModel RecModel SheetModel XfModel WbModel ApiModel QueryModel.
Import ListNotations.
Local Open Scope Z_scope.

(** sheetrec.cpp 820-839.  [fmt] is a format_number_t: FMT_GENERAL is 0 and FMT_TEXT 35, larger
    values fail the assertion.  The cell is made with the format object passed and stored
    (api_cell), then pxformat->GetFormat() (extformat.cpp 717-727, get_format) decides whether
    cell_t::format (cell.cpp 120-129) has to be called on it.  A pointer to no format object of
    the workbook is undefined. *)
Definition api_number (w : wb) (k : nat) (row col bits fmt : Z) (p : option Z) : res wb :=
  let* _ := xl_assert (fmt <=? 35) in
  let* w1 := api_cell w k row col (UDouble bits) p in
  let reformat := api_cellop w1 k row col (CFormat (FXf (XFormatNum fmt))) in
  match p with
  | None => if fmt =? 0 then Ok w1 else reformat
  | Some i => match xf_at (wb_fs w1) i with
              | None => UB
              | Some x => if get_format x =? fmt then Ok w1 else reformat
              end
  end.

(** Calls of a whole program. *)
Inductive ncall := NCall (q : call) | NNumber (k : nat) (row col bits fmt : Z) (p : option Z).
Definition ncall_do (w : wb) (x : ncall) : res wb :=
  match x with
  | NCall q => api_call w q
  | NNumber k r c bits fmt p => api_number w k r c bits fmt p
  end.
Definition ndocument (xs : list ncall) : res wb := let* w := wb_new in fold_res ncall_do xs w.
