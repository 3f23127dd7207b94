(** The user-facing interface: workbook, worksheet, cell, font, format, xf and range calls
    as operations on one document state (workbook.cpp, sheetrec.cpp, cell.cpp, number.cpp,
    label.cpp, range.cpp, globalrec.cpp).  File names are relative to
    /repo/xlslib/src/xlslib.  Handles returned to the user (pointers) are represented by
    the position of the object: sheets, fonts, formats and XFs by creation index, a cell by
    sheet, row and column. *)
From Coq Require Import ZArith List Bool.
From Verif Require Import Bytes UnitModel RecModel SheetModel XfModel WbModel.
Import ListNotations.
Local Open Scope Z_scope.

(* ------------------------------------------------------------------ *)
(** * Text *)

(** Text as the user passes it: a std::string (bytes), a wide string (wchar_t values) or a
    string of UTF-16 units. *)
Inductive text := TChar (b : list Z) | TWide (w : list Z) | T16 (u : list Z).
(** globalrec.cpp 787-804 wide2str16, 867-884 char2str16 in the build without iconv: every
    element is cast to unsigned16_t; char is signed, so a byte above 127 is
    sign-extended. *)
Definition to16 (t : text) : list Z :=
  match t with
  | TChar b => map (fun c => if c <? 128 then c else c + 65280) b
  | TWide w => map (fun c => c mod 65536) w
  | T16 u => u
  end.

(* ------------------------------------------------------------------ *)
(** * Numbers *)

(** (double)n for an integer n with |n| < 2^53: the IEEE-754 binary64 bit pattern. *)
Definition double_of_int (n : Z) : Z :=
  if n =? 0 then 0
  else
    let a := Z.abs n in
    let e := Z.log2 a in
    (if n <? 0 then 9223372036854775808 else 0)
    + (1023 + e) * 4503599627370496 + (a * 2 ^ (52 - e) - 4503599627370496).

(** Values as the user passes them. *)
Inductive uval :=
| UBlank
| UBool (b : bool)
| UErr (e : Z)
| UInt (n : Z)                          (* signed32_t *)
| UUnsigned (n : Z)                     (* unsigned32_t *)
| UDouble (bits : Z)
| ULabel (t : text)
| UFormula (arr : bool) (toks : list Z) (fsize : Z) (est : estimate).

(** The constructors: number.cpp 44-95, label.cpp 46-95 and the others. *)
Definition make_val (id : Z) (v : uval) : cval :=
  match v with
  | UBlank => VBlank
  | UBool b => VBool b
  | UErr e => VErr e
  | UInt n => if ((n <=? 536870911) && (-536870912 <=? n))%bool then VInt n
              else VDouble (double_of_int n)
  | UUnsigned n => if 3758096384 <=? n then VInt (n - 4294967296)
                   else VDouble (double_of_int n)
  | UDouble bits => VDouble bits
  | ULabel t => VLabel id (to16 t)
  | UFormula arr toks fsize e => VFormula arr toks fsize e
  end.

(* ------------------------------------------------------------------ *)
(** * State *)

Record wb := mkWB {
  wb_fs : fstate; wb_palette : list (Z * Z * Z); wb_labels : labels; wb_w1 : window1;
  wb_bs : list bsheet; wb_sheets : list sheet;
  wb_next : Z }.                        (* address of the next label object *)
Definition wb_book (w : wb) : book :=
  mkBook (mkG (wb_fs w) (wb_palette w) (wb_labels w) (wb_w1 w) (wb_bs w)) (wb_sheets w).

Definition up_fs (w : wb) f := mkWB f (wb_palette w) (wb_labels w) (wb_w1 w) (wb_bs w) (wb_sheets w) (wb_next w).
Definition up_pal (w : wb) p := mkWB (wb_fs w) p (wb_labels w) (wb_w1 w) (wb_bs w) (wb_sheets w) (wb_next w).
Definition up_w1 (w : wb) v := mkWB (wb_fs w) (wb_palette w) (wb_labels w) v (wb_bs w) (wb_sheets w) (wb_next w).
Definition up_bs (w : wb) v := mkWB (wb_fs w) (wb_palette w) (wb_labels w) (wb_w1 w) v (wb_sheets w) (wb_next w).
Definition up_sheets (w : wb) v := mkWB (wb_fs w) (wb_palette w) (wb_labels w) (wb_w1 w) (wb_bs w) v (wb_next w).
Definition up_labels (w : wb) v := mkWB (wb_fs w) (wb_palette w) v (wb_w1 w) (wb_bs w) (wb_sheets w) (wb_next w).
Definition bump_next (w : wb) := mkWB (wb_fs w) (wb_palette w) (wb_labels w) (wb_w1 w) (wb_bs w) (wb_sheets w) (wb_next w + 1).

(** colors.cpp 41-58 default_palette. *)
Definition default_palette : list (Z * Z * Z) :=
  [(0, 0, 0); (255, 255, 255); (255, 0, 0); (0, 255, 0);
   (0, 0, 255); (255, 255, 0); (255, 0, 255); (0, 255, 255);
   (128, 0, 0); (0, 128, 0); (0, 0, 128); (128, 128, 0);
   (128, 0, 128); (0, 128, 128); (192, 192, 192); (128, 128, 128);
   (153, 153, 255); (153, 51, 102); (255, 255, 204); (204, 255, 255);
   (102, 0, 102); (255, 128, 128); (0, 102, 204); (204, 204, 255);
   (0, 0, 128); (255, 0, 255); (255, 255, 0); (0, 255, 255);
   (128, 0, 128); (128, 0, 0); (0, 128, 128); (0, 0, 255);
   (0, 204, 255); (204, 255, 255); (204, 255, 204); (255, 255, 153);
   (153, 204, 255); (255, 153, 204); (204, 153, 255); (227, 227, 227);
   (51, 102, 255); (51, 204, 204); (153, 204, 0); (255, 204, 0);
   (255, 153, 0); (255, 102, 0); (102, 102, 153); (150, 150, 150);
   (0, 51, 102); (51, 153, 102); (0, 51, 0); (51, 51, 0);
   (153, 51, 0); (153, 51, 102); (51, 51, 153); (51, 51, 51)].

(** workbook.cpp 65-88, globalrec.cpp 66-245. *)
Definition wb_new : res wb :=
  let* fs := fstate_init in
  Ok (mkWB fs default_palette [] window1_new [] [] 0).

(** workbook.cpp 115-147: m_sheetIndex is an unsigned16_t. *)
Definition api_sheet (w : wb) (name : text) : wb :=
  up_bs (up_sheets w (wb_sheets w ++ [sheet_new (zlen (wb_sheets w) mod 65536)]))
        (wb_bs w ++ [mkBS (to16 name) 0]).

(** A call through a worksheet pointer; [None] cannot happen for a pointer the library
    handed out and is reported as undefined. *)
Definition on_sheet (w : wb) (k : nat) (f : sheet -> res (wb * sheet)) : res wb :=
  match nth_error (wb_sheets w) k with
  | None => UB
  | Some s => let* (w1, s1) := f s in Ok (up_sheets w1 (upd k s1 (wb_sheets w)))
  end.

(** cell.cpp 39-53 cell_t: the given XF, or the default one (index 15), marked used. *)
Definition cell_xf (p : option Z) : Z := match p with Some i => i | None => 15 end.
Definition xf_valid (fs : fstate) (p : option Z) : bool :=
  match p with None => true | Some i => match xf_at fs i with Some _ => true | None => false end end.

(** label.cpp 74-90: labels above 255 units enter and leave the shared string list. *)
Definition sst_add (w : wb) (v : cval) : wb :=
  match v with
  | VLabel id s => if in_sst s then up_labels w (wb_labels w ++ [(id, s)]) else w
  | _ => w
  end.
Fixpoint drop_label (ls : labels) (id : Z) : labels :=
  match ls with
  | [] => []
  | (i, s) :: t => if i =? id then t else (i, s) :: drop_label t id
  end.
(** The destructors ~label_t and ~cell_t. *)
Definition cell_delete (w : wb) (c : cell) : wb :=
  let w1 := match c_val c with
            | VLabel id s => if in_sst s then up_labels w (drop_label (wb_labels w) id) else w
            | _ => w
            end in
  up_fs w1 (xf_unmark (wb_fs w1) (c_xf c)).

(** sheetrec.cpp 797-935: construct the cell, then AddCell. *)
Definition api_cell (w : wb) (k : nat) (row col : Z) (v : uval) (p : option Z) : res wb :=
  on_sheet w k (fun s =>
    if negb (xf_valid (wb_fs w) p) then UB else
    let val := make_val (wb_next w) v in
    let x := mkCell row col (cell_xf p) val in
    let w1 := sst_add (bump_next (up_fs w (xf_mark (wb_fs w) (cell_xf p)))) val in
    let* (old, s1) := add_cell s x in
    Ok (match old with Some c => cell_delete w1 c | None => w1 end, s1)).

(** recdef.h: m_NoteCount is an unsigned16_t; globalrec.cpp 702-707. *)
Definition bump_notes (b : bsheet) : bsheet := mkBS (bs_name b) ((bs_notes b + 1) mod 65536).
(** sheetrec.cpp 878-896 note.  The replaced note's destructor releases its XF. *)
Definition api_note (w : wb) (k : nat) (row col : Z) (author remark : text) : res wb :=
  let* w1 := on_sheet w k (fun s =>
    let old := find (fun n => ((no_row n =? row) && (no_col n =? col))%bool) (sh_notes s) in
    let fs := xf_mark (wb_fs w) 15 in
    Ok (up_fs w (match old with Some _ => xf_unmark fs 15 | None => fs end),
        add_note s (note_new row col (to16 author) (to16 remark)))) in
  match nth_error (wb_sheets w) k with
  | None => UB
  | Some s =>
      let i := Z.to_nat (sh_index s) in
      match nth_error (wb_bs w) i with
      | None => UB
      | Some b => Ok (up_bs w1 (upd i (bump_notes b) (wb_bs w1)))
      end
  end.

(** The setter on the cell at (row, col), whose XF it replaces. *)
Definition set_xf (c : cell) (q : Z) : cell := mkCell (c_row c) (c_col c) q (c_val c).
Definition replace_cell (l : list cell) (r c : Z) (q : Z) : list cell :=
  map (fun x => if ((c_row x =? r) && (c_col x =? c))%bool then set_xf x q else x) l.
Definition set_cells (s : sheet) (l : list cell) : sheet :=
  mkSheet (sh_index s) l (sh_notes s) (sh_heights s) (sh_cols s) (sh_merged s) (sh_links s)
          (sh_dvs s) (sh_minr s) (sh_maxr s) (sh_minc s) (sh_maxc s) (sh_defrh s) (sh_defcw s)
          (sh_rsplit s) (sh_csplit s) (sh_spid s) (sh_calc s) (sh_sizes s).
Definition on_cell (w : wb) (k : nat) (row col : Z) (f : fstate -> Z -> res (fstate * Z)) : res wb :=
  on_sheet w k (fun s =>
    match find_cell s row col with
    | None => UB
    | Some c => let* (fs1, q) := f (wb_fs w) (c_xf c) in
                Ok (up_fs w fs1, set_cells s (replace_cell (sh_cells s) row col q))
    end).

(** What can be called on a cell (or on every cell of a range). *)
Inductive cellop :=
| CFormat (o : fmtop)                   (* xf_i interface, cell.cpp 76-272 *)
| CFont (o : fontop)                    (* font_i interface, cell.cpp 298-371 *)
| CSetXF (q : option Z).                (* SetXF *)
Definition cellop_apply (o : cellop) (fs : fstate) (p : Z) : res (fstate * Z) :=
  match o with
  | CFormat o => cell_format fs p o
  | CFont o => cell_font fs p o
  | CSetXF q => if xf_valid fs q then Ok (cell_setxf fs p q) else UB
  end.
Definition api_cellop (w : wb) (k : nat) (row col : Z) (o : cellop) : res wb :=
  on_cell w k row col (cellop_apply o).

(** sheetrec.cpp 1052-1057 FindCellOrMakeBlank.  (FindCell builds a temporary blank_t,
    which marks and releases the default XF: no net effect on a default XF, whose count
    never falls to zero.) *)
Definition find_or_blank (w : wb) (k : nat) (row col : Z) : res wb :=
  match nth_error (wb_sheets w) k with
  | None => UB
  | Some s => match find_cell s row col with
              | Some _ => Ok w
              | None => api_cell w k row col UBlank None
              end
  end.
(** [a], [a+1], ..., [b]. *)
Definition zrange (a b : Z) : list Z := map (fun i => a + Z.of_nat i) (seq 0 (Z.to_nat (b - a + 1))).
Fixpoint fold_res {A S} (f : S -> A -> res S) (l : list A) (s : S) : res S :=
  match l with
  | [] => Ok s
  | a :: t => let* s1 := f s a in fold_res f t s1
  end.
Definition block_of (r1 c1 r2 c2 : Z) : list (Z * Z) :=
  flat_map (fun r => map (fun c => (r, c)) (zrange c1 c2)) (zrange r1 r2).
(** range.cpp 43-60 (assertions) and 184-206 SET_RANGE_FUNCTION.  A last row or column of
    0xFFFFFFFF would loop for ever: reported as undefined. *)
Definition api_range (w : wb) (k : nat) (r1 c1 r2 c2 : Z) (o : cellop) : res wb :=
  if negb ((r1 <=? r2) && (c1 <=? c2))%bool then Throw
  else if ((r2 =? 4294967295) || (c2 =? 4294967295))%bool then UB
  else fold_res (fun w (rc : Z * Z) =>
                   let* w1 := find_or_blank w k (fst rc) (snd rc) in
                   api_cellop w1 k (fst rc) (snd rc) o)
                (block_of r1 c1 r2 c2) w.

(** sheetrec.cpp 1304-1335: the new format is marked, the replaced one released. *)
Definition mark_opt (fs : fstate) (p : option Z) : fstate :=
  match p with Some i => xf_mark fs i | None => fs end.
Definition unmark_opt (fs : fstate) (p : option Z) : fstate :=
  match p with Some i => xf_unmark fs i | None => fs end.
Definition api_colwidth (w : wb) (k : nat) (col width : Z) (p : option Z) : res wb :=
  on_sheet w k (fun s =>
    if negb (xf_valid (wb_fs w) p) then UB else
    let old := find (fun c => ci_col c =? col) (sh_cols s) in
    let fs := mark_opt (wb_fs w) p in
    Ok (up_fs w (match old with Some c => unmark_opt fs (ci_xf c) | None => fs end),
        sheet_colwidth s col width p)).
(** sheetrec.cpp 1337-1361, row.cpp 55-60: the replaced format is released twice, by
    rowheight() and by ~rowheight_t. *)
Definition api_rowheight (w : wb) (k : nat) (row height : Z) (p : option Z) : res wb :=
  on_sheet w k (fun s =>
    if negb (xf_valid (wb_fs w) p) then UB else
    let old := find (fun r => rh_row r =? row) (sh_heights s) in
    let fs := mark_opt (wb_fs w) p in
    Ok (up_fs w (match old with
                 | Some r => unmark_opt (unmark_opt fs (rh_xf r)) (rh_xf r)
                 | None => fs
                 end),
        sheet_rowheight s row height p)).

(** colors.cpp 69-87 setColor: the returned boolean and the palette. *)
Definition colors_set (p : list (Z * Z * Z)) (r g b idx : Z) : bool * list (Z * Z * Z) :=
  if ((idx <? 8) || (64 <=? idx))%bool then (false, p)
  else (true, upd (Z.to_nat (idx - 8)) (r, g, b) p).
(** workbook.cpp 235-238, globalrec.cpp SetColor. *)
Definition api_setcolor (w : wb) (r g b idx : Z) : wb :=
  match colors_set (wb_palette w) r g b idx with (true, p) => up_pal w p | (false, _) => w end.

(** sheetrec.h 305, 320-321 (the member defRowsHidden is not represented: nothing reads it). *)
Definition set_defaults (s : sheet) (rh cw rs cs : Z) : sheet :=
  mkSheet (sh_index s) (sh_cells s) (sh_notes s) (sh_heights s) (sh_cols s) (sh_merged s)
          (sh_links s) (sh_dvs s) (sh_minr s) (sh_maxr s) (sh_minc s) (sh_maxc s) rh cw rs cs
          (sh_spid s) (sh_calc s) (sh_sizes s).

(* ------------------------------------------------------------------ *)
(** * Calls *)

Inductive call :=
| KSheet (name : text)
| KCell (k : nat) (row col : Z) (v : uval) (p : option Z)
| KNote (k : nat) (row col : Z) (author remark : text)
| KCellOp (k : nat) (row col : Z) (o : cellop)
| KRange (k : nat) (r1 c1 r2 c2 : Z) (o : cellop)
| KMerge (k : nat) (r1 c1 r2 c2 : Z)
| KColwidth (k : nat) (col width : Z) (p : option Z)
| KRowheight (k : nat) (row height : Z) (p : option Z)
| KDefRowHeight (k : nat) (h : Z) (hidden : bool)
| KDefColWidth (k : nat) (v : Z)
| KSplit (k : nat) (height width : Z)
| KHyperlink (k : nat) (row col : Z) (url mark : text)
| KValidate (k : nat) (d : dvalid)
| KActive (k : nat)
| KSetColor (r g b idx : Z)
| KWindPos (h v : Z) | KWindSize (w h : Z) | KFirstTab (v : Z) | KTabBar (v : Z)
| KFont (name : list Z) | KFontNum (n : Z) | KFormat (t : text)
| KXformat (fnt fmt : option (option Z))
| KXfSet (p : Z) (o : fmtop) | KFontSet (i : Z) (o : fontop).

Definition pure_sheet (w : wb) (k : nat) (f : sheet -> sheet) : res wb :=
  on_sheet w k (fun s => Ok (w, f s)).

(** recdef.h 136-143 window1 setters. *)
Definition api_call (w : wb) (c : call) : res wb :=
  let w1 := wb_w1 w in
  match c with
  | KSheet name => Ok (api_sheet w name)
  | KCell k r c v p => api_cell w k r c v p
  | KNote k r c a t => api_note w k r c a t
  | KCellOp k r c o => api_cellop w k r c o
  | KRange k r1 c1 r2 c2 o => api_range w k r1 c1 r2 c2 o
  | KMerge k r1 c1 r2 c2 => pure_sheet w k (fun s => sheet_merge s r1 c1 r2 c2)
  | KColwidth k c v p => api_colwidth w k c v p
  | KRowheight k r v p => api_rowheight w k r v p
  | KDefRowHeight k h _ =>               (* defRowsHidden is stored and never read *)
      pure_sheet w k (fun s => set_defaults s h (sh_defcw s) (sh_rsplit s) (sh_csplit s))
  | KDefColWidth k v =>
      pure_sheet w k (fun s => set_defaults s (sh_defrh s) v (sh_rsplit s) (sh_csplit s))
  | KSplit k h v => pure_sheet w k (fun s => set_defaults s (sh_defrh s) (sh_defcw s) h v)
  | KHyperlink k r c u m =>
      match nth_error (wb_sheets w) k with
      | Some s => match find_cell s r c with
                  | Some _ => pure_sheet w k (fun s => sheet_hyperlink s r c (to16 u) (to16 m))
                  | None => UB
                  end
      | None => UB
      end
  | KValidate k d => pure_sheet w k (fun s => sheet_validate s d)
  | KActive k =>
      match nth_error (wb_sheets w) k with
      | Some s => Ok (up_w1 w (mkW1 (w1_horz w1) (w1_vert w1) (w1_width w1) (w1_height w1)
                                    (sh_index s) (w1_first w1) (w1_tabwidth w1)))
      | None => UB
      end
  | KSetColor r g b i => Ok (api_setcolor w r g b i)
  | KWindPos h v => Ok (up_w1 w (mkW1 h v (w1_width w1) (w1_height w1) (w1_active w1)
                                      (w1_first w1) (w1_tabwidth w1)))
  | KWindSize v h => Ok (up_w1 w (mkW1 (w1_horz w1) (w1_vert w1) v h (w1_active w1)
                                       (w1_first w1) (w1_tabwidth w1)))
  | KFirstTab v => Ok (up_w1 w (mkW1 (w1_horz w1) (w1_vert w1) (w1_width w1) (w1_height w1)
                                     (w1_active w1) v (w1_tabwidth w1)))
  | KTabBar v => Ok (up_w1 w (mkW1 (w1_horz w1) (w1_vert w1) (w1_width w1) (w1_height w1)
                                   (w1_active w1) (w1_first w1) (if 1000 <? v then 1000 else v)))
  | KFont n => Ok (up_fs w (fst (wb_font (wb_fs w) n)))
  | KFontNum n => let* (fs, _) := wb_fontnum (wb_fs w) n in Ok (up_fs w fs)
  | KFormat t => Ok (up_fs w (fst (add_format (wb_fs w) (to16 t))))
  | KXformat f m => let* (fs, _) := wb_xformat (wb_fs w) f m in Ok (up_fs w fs)
  | KXfSet p o => let* fs := xf_user (wb_fs w) p o in Ok (up_fs w fs)
  | KFontSet i o => let* fs := font_set (wb_fs w) i o in Ok (up_fs w fs)
  end.
Definition api_run (calls : list call) (w : wb) : res wb := fold_res api_call calls w.
(** A document built by a history of calls. *)
Definition document (calls : list call) : res wb := let* w := wb_new in api_run calls w.
