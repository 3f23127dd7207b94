(** xf_t::SetCellMode (extformat.cpp 1096-1099), also offered by the C interface as
    xlsXformatSetCellMode (cbridge.cpp 477), mixed with the other calls. *)
From Coq Require Import ZArith List Bool.
From Verif Require Import UnitModel RecModel SheetModel XfModel WbModel ApiModel.
Import ListNotations.
Local Open Scope Z_scope.

(** extformat.cpp 1096-1099: only is_cell changes. *)
Definition with_cell (b : bool) (x : xf) : xf :=
  mkXf (x_fmt x) (x_font x) (x_format x) (x_ha x) (x_va x) (x_ind x) (x_ori x) (x_fill x) (x_fg x)
       (x_bg x) (x_locked x) (x_hidden x) (x_wrap x) b (x_user x) (x_bs x) (x_bc x) (x_flags x) (x_use x).
(** A pointer to no format of the workbook is undefined. *)
Definition xf_mode (fs : fstate) (p : Z) (b : bool) : res fstate :=
  match xf_at fs p with None => UB | Some _ => Ok (xf_upd fs p (with_cell b)) end.

(** Calls on one format, the setters of C24 and the mode. *)
Inductive mset := MSet (o : fmtop) | MMode (b : bool).
Fixpoint mode_sets (fs : fstate) (p : Z) (l : list mset) : res fstate :=
  match l with
  | [] => Ok fs
  | MSet o :: t => let* fs1 := xf_user fs p o in mode_sets fs1 p t
  | MMode b :: t => let* fs1 := xf_mode fs p b in mode_sets fs1 p t
  end.

(** Calls of a whole program. *)
Inductive mcall := MCall (q : call) | MCellMode (p : Z) (b : bool).
Definition mcall_do (w : wb) (x : mcall) : res wb :=
  match x with
  | MCall q => api_call w q
  | MCellMode p b => let* fs := xf_mode (wb_fs w) p b in Ok (up_fs w fs)
  end.
Definition mdocument (p : list mcall) : res wb := let* w := wb_new in fold_res mcall_do p w.
