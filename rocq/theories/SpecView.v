(** Window and sheet settings: what was last asked for, and what a BIFF8 reader finds.
    The readers are written from the file format. *)
From Coq Require Import ZArith List Bool.
From Verif Require Import Bytes UnitModel SpecBuf RecModel SheetModel XfModel WbModel ApiModel SpecBiff SpecApi.
Import ListNotations.
Local Open Scope Z_scope.

Definition T_WINDOW1 := 61.
Definition T_WINDOW2 := 574.
Definition T_PANE := 65.
Definition T_DEFAULTROWHEIGHT := 549.
Definition T_DEFCOLWIDTH := 85.

(* ------------------------------------------------------------------ *)
(** * Records *)

(** WINDOW1: position and size of the window in twips (20 to the point), flags (bit 0 the
    window is hidden, bit 1 it is minimised, bits 3, 4 and 5 both scroll bars and the tabs are there), the active
    sheet, the first visible tab, the number of selected sheets, the width of the tab bar in
    thousandths. *)
Record rwindow := mkRW { rw_x : Z; rw_y : Z; rw_width : Z; rw_height : Z; rw_hidden : bool; rw_iconic : bool; rw_bars : bool; rw_active : Z; rw_first : Z; rw_selected : Z; rw_tabs : Z }.
Definition read_window (p : list Z) : option rwindow :=
  if negb (zlen p =? 18) then None else
  olet x := fld 2 p 0 in olet y := fld 2 p 2 in olet w := fld 2 p 4 in olet h := fld 2 p 6 in
  olet o := fld 2 p 8 in olet a := fld 2 p 10 in olet f := fld 2 p 12 in olet n := fld 2 p 14 in olet t := fld 2 p 16 in
  Some (mkRW x y w h (Z.testbit o 0) (Z.testbit o 1) (Z.testbit o 3 && Z.testbit o 4 && Z.testbit o 5) a f n t).
(** WINDOW2: bit 3 frozen panes, bit 9 the sheet's tab is selected, bit 10 the sheet is the
    one displayed.  Bit 0 is on to show formulas in place of their results, bit 1 to show
    grid lines, bit 2 row and column headings, bit 4 zero values, bit 6 to lay out the
    columns from right to left, bit 11 for a page break preview.  The first row and column shown follow. *)
Record rview := mkRV { rv_frozen : bool; rv_selected : bool; rv_displayed : bool; rv_formulas : bool; rv_grid : bool; rv_headings : bool;
  rv_zeros : bool; rv_mirrored : bool; rv_preview : bool; rv_top : Z; rv_left : Z }.
Definition read_view (p : list Z) : option rview :=
  if negb (zlen p =? 18) then None else
  olet f := fld 2 p 0 in olet t := fld 2 p 2 in olet l := fld 2 p 4 in
  Some (mkRV (Z.testbit f 3) (Z.testbit f 9) (Z.testbit f 10) (Z.testbit f 0) (Z.testbit f 1) (Z.testbit f 2)
             (Z.testbit f 4) (Z.testbit f 6) (Z.testbit f 11) t l).
(** PANE with frozen panes: columns and rows that do not scroll, first row and column of the
    scrolling part, the active pane (0 lower right, 1 upper right, 2 lower left, 3 upper
    left). *)
Record rpane := mkRP { rp_cols : Z; rp_rows : Z; rp_top : Z; rp_left : Z; rp_active : Z }.
Definition read_pane (p : list Z) : option rpane :=
  if negb (zlen p =? 10) then None else
  olet x := fld 2 p 0 in olet y := fld 2 p 2 in olet t := fld 2 p 4 in olet l := fld 2 p 6 in olet a := fld 2 p 8 in
  Some (mkRP x y t l a).
(** DEFAULTROWHEIGHT: flags (bit 0: the height was set, bit 1: empty rows are hidden) and the
    height in twips. *)
Record rdefrow := mkRDR { rr_set : bool; rr_hidden : bool; rr_twips : Z }.
Definition read_defrow (p : list Z) : option rdefrow :=
  if negb (zlen p =? 4) then None else
  olet f := fld 2 p 0 in olet h := fld 2 p 2 in Some (mkRDR (Z.testbit f 0) (Z.testbit f 1) h).
Definition read_defcol (p : list Z) : option Z := if zlen p =? 2 then fld 2 p 0 else None.

(* ------------------------------------------------------------------ *)
(** * What was asked for *)

(** The last answer [f] gives on a call, or [d]. *)
Definition last_of {A} (f : call -> option A) (d : A) (calls : list call) : A :=
  fold_left (fun a q => match f q with Some x => x | None => a end) calls d.
(** Position and size in points; a new workbook has a window of 715 by 484 points. *)
Definition window_at : list call -> Z * Z := last_of (fun q => match q with KWindPos x y => Some (x, y) | _ => None end) (0, 0).
Definition window_size : list call -> Z * Z := last_of (fun q => match q with KWindSize w h => Some (w, h) | _ => None end) (715, 484).
Definition active_sheet : list call -> nat := last_of (fun q => match q with KActive k => Some k | _ => None end) 0%nat.
Definition first_tab : list call -> Z := last_of (fun q => match q with KFirstTab v => Some v | _ => None end) 0.
(** Widths above 1000 count as 1000. *)
Definition tab_bar : list call -> Z := last_of (fun q => match q with KTabBar v => Some (Z.min v 1000) | _ => None end) 500.
(** Height in points of the rows for which none is set, width in characters of the columns
    for which none is set, and rows and columns that do not scroll. *)
Definition def_height (k : nat) : list call -> Z :=
  last_of (fun q => match q with KDefRowHeight k' h _ => if Nat.eqb k k' then Some h else None | _ => None end) 15.
Definition def_hidden (k : nat) : list call -> bool :=
  last_of (fun q => match q with KDefRowHeight k' _ b => if Nat.eqb k k' then Some b else None | _ => None end) false.
Definition def_width (k : nat) : list call -> Z :=
  last_of (fun q => match q with KDefColWidth k' v => if Nat.eqb k k' then Some v else None | _ => None end) 10.
Definition split_at (k : nat) : list call -> Z * Z :=
  last_of (fun q => match q with KSplit k' rows cols => if Nat.eqb k k' then Some (rows, cols) else None | _ => None end) (0, 0).

(** The arguments are unsigned16_t. *)
Definition view_typed (q : call) : Prop :=
  match q with
  | KWindPos a b | KWindSize a b | KSplit _ a b => u16 a /\ u16 b
  | KFirstTab v | KTabBar v | KDefColWidth _ v | KDefRowHeight _ v _ => u16 v
  | _ => True
  end.
