(** The functions of the public interface that answer questions: format and font getters,
    GetSheet, FindCell, NumCells, GetFirstLastRowsAndColumns and the C wrapper that copies a
    font name into a buffer.  extformat.cpp, font.cpp, cell.cpp, cell.h, workbook.cpp,
    sheetrec.h, sheetrec.cpp and cbridge.cpp in /repo/xlslib/src/xlslib. *)
From Coq Require Import ZArith List Bool.
From Verif Require Import Bytes UnitModel RecModel SheetModel XfModel WbModel ApiModel Resave.
Import ListNotations.
Local Open Scope Z_scope.

(* ------------------------------------------------------------------ *)
(** * Format objects *)

(** extformat.cpp 652-659 GetFontIndex.  (GetFont, 647-650, returns the pointer; fonts are
    identified with their number in the model; the index returned has 16 bits.) *)
Definition get_font_index (x : xf) : Z := match x_font x with Some i => i mod 65536 | None => 0 end.
(** extformat.cpp 711-714 GetFormatIndex, also of 16 bits. *)
Definition get_format_index (x : xf) : Z := x_fmt x mod 65536.
(** extformat.cpp 716-726 GetFormat: the first of the built-in names FMT_GENERAL (0) to
    FMT_TEXT (35) whose index is the format's, FMT_GENERAL if there is none.  format2index is
    format.cpp 80-87 with the table of 40-78, FORMAT_TABLE of XfModel. *)
Fixpoint format_search (n : nat) (from idx : Z) : Z :=
  match n with
  | O => 0
  | S m => if idx =? nth (Z.to_nat from) FORMAT_TABLE 0 then from else format_search m (from + 1) idx
  end.
Definition get_format (x : xf) : Z := format_search 36 0 (x_fmt x mod 65536).
(** extformat.cpp 801-806 GetBorderStyle, 812-817 GetBorderColorIdx: assertions on the side. *)
Definition get_border_style (x : xf) (side : Z) : res Z :=
  let* _ := xl_assert (side_ok side) in Ok (nth (Z.to_nat side) (x_bs x) 0).
Definition get_border_color (x : xf) (side : Z) : res Z :=
  let* _ := xl_assert (side_ok side) in Ok (nth (Z.to_nat side) (x_bc x) 0).
(** extformat.cpp 921-924, 939-942, 956-959, 974-977, 999-1002, 1024-1027, 1042-1045,
    1058-1061, 1074-1077, 1090-1093, 1101-1104. *)
Definition get_halign (x : xf) : Z := x_ha x.
Definition get_valign (x : xf) : Z := x_va x.
Definition get_indent (x : xf) : Z := x_ind x.
Definition get_orientation (x : xf) : Z := x_ori x.
Definition get_fill_fg (x : xf) : Z := x_fg x.
Definition get_fill_bg (x : xf) : Z := x_bg x.
Definition get_fill_style (x : xf) : Z := x_fill x.
Definition is_locked (x : xf) : bool := x_locked x.
Definition is_hidden (x : xf) : bool := x_hidden x.
Definition is_wrap (x : xf) : bool := x_wrap x.

(* ------------------------------------------------------------------ *)
(** * Fonts *)

(** font.cpp 307-310, 327-330, 338-341, 349-352, 367-370, 382-385, 394-397, 405-408, 410. *)
Definition get_height (f : font) : Z := fo_height f.
Definition get_bold (f : font) : Z := fo_bold f.
Definition get_underline (f : font) : Z := fo_under f.
Definition get_script (f : font) : Z := fo_script f.
Definition get_color (f : font) : Z := fo_color f.
Definition get_attributes (f : font) : Z := fo_attr f.
Definition get_family (f : font) : Z := fo_family f.
Definition get_charset (f : font) : Z := fo_charset f.
Definition get_name (f : font) : list Z := fo_name f.
(** font.cpp 411-414 GetItalic, GetStrikeout, GetOutline, GetShadow. *)
Definition get_italic (f : font) : bool := negb (Z.land (fo_attr f) 2 =? 0).
Definition get_strikeout (f : font) : bool := negb (Z.land (fo_attr f) 8 =? 0).
Definition get_outline (f : font) : bool := negb (Z.land (fo_attr f) 16 =? 0).
Definition get_shadow (f : font) : bool := negb (Z.land (fo_attr f) 32 =? 0).

(** cbridge.cpp 436-444 xlsFontGetName.  [name] is the font name, [buf] the bytes at dst, of
    which the caller owns all and passes dstsize.  c_str()/strlen stop at the first NUL; a
    write at index dstsize - 1 of an empty buffer, like any write past the end, is undefined.
    memcpy of overlapping regions cannot happen: the name is in the font object. *)
Fixpoint c_string (s : list Z) : list Z :=
  match s with [] => [] | b :: t => if b =? 0 then [] else b :: c_string t end.
Definition put_at (buf : list Z) (i : Z) (b : Z) : res (list Z) :=
  if ((0 <=? i) && (i <? zlen buf))%bool then Ok (firstn (Z.to_nat i) buf ++ b :: skipn (S (Z.to_nat i)) buf) else UB.
Definition copy_to (buf src : list Z) : res (list Z) :=
  if zlen src <=? zlen buf then Ok (src ++ skipn (length src) buf) else UB.
Definition font_get_name (name buf : list Z) (dstsize : Z) : res (list Z) :=
  let ptr := c_string name ++ [0] in
  let len := zlen ptr in
  let len := if dstsize <? len then dstsize else len in
  let* buf1 := copy_to buf (firstn (Z.to_nat len) ptr) in
  put_at buf1 (dstsize - 1) 0.

(* ------------------------------------------------------------------ *)
(** * Sheets and cells *)

(** workbook.cpp 149-156 GetSheet(unsigned16_t); NULL is [None]. *)
Definition get_sheet (w : wb) (n : Z) : option sheet :=
  if n mod 65536 <? zlen (wb_sheets w) then nth_error (wb_sheets w) (Z.to_nat (n mod 65536)) else None.
(** sheetrec.cpp 1035-1050 FindCell is SheetModel.find_cell; sheetrec.h 298 NumCells;
    cell.h 68-76 GetRow, GetCol are the fields; cell.cpp 53-56 GetXFIndex. *)
Definition num_cells (s : sheet) : Z := zlen (sh_cells s).
Definition get_xf_index (c : cell) : Z := c_xf c mod 65536.

(** sheetrec.cpp 1184-1242 GetFirstLastRowsAndColumns.  [cols] says whether one of the column
    pointers is given; the columns are reported in that case only.  GetNumRowBlocks
    (1244-1289) fills the cache of block sizes, which stays in the sheet. *)
Definition ask_bounds (s : sheet) (cols : bool) : res (Z * Z * option (Z * Z) * sheet) :=
  match sh_cells s with
  | [] => Ok (0, 0, if cols then Some (0, 0) else None, s)
  | c :: t =>
      if cols then
        let* (_, rb, ch) := num_row_blocks (sh_cells s) (mkCache (sh_calc s) (sh_sizes s) (sh_sizes s) (sh_cells s)) in
        Ok (rb_fr rb, rb_lr rb, Some (rb_fc rb, rb_lc rb), set_dumped s (sh_notes s) (sh_spid s) (ch_calc ch) (ch_sizes ch))
      else Ok (c_row c, c_row (last t c), None, s)
  end.

(* ------------------------------------------------------------------ *)
(** * Histories of calls, saves and questions *)

Inductive asks := ACall (q : call) | ASave | ABounds (k : nat) (cols : bool).
Inductive reply := RStream (s : option (list Z)) | RBounds (fr lr : Z) (columns : option (Z * Z)).
(** The workbook object of Resave.live between saves; asking sheet [k] for its bounds needs
    the sheet. *)
Fixpoint ask_run (fuel : nat) (moves : Z -> nat -> bool) (h : list asks) (l : live) : option (res (list reply * live)) :=
  match h with
  | [] => Some (Ok ([], l))
  | ACall q :: t =>
      match api_call (lv_wb l) q with
      | Ok w => ask_run fuel moves t (mkLive w (lv_dump l))
      | Throw => Some Throw
      | UB => Some UB
      end
  | ASave :: t =>
      match live_save fuel moves l with
      | None => None
      | Some Throw => Some Throw
      | Some UB => Some UB
      | Some (Ok (s, l1)) =>
          match ask_run fuel moves t l1 with
          | Some (Ok (ss, l2)) => Some (Ok (RStream s :: ss, l2))
          | o => o
          end
      end
  | ABounds k cols :: t =>
      match nth_error (wb_sheets (lv_wb l)) k with
      | None => Some UB
      | Some s =>
          match ask_bounds s cols with
          | Throw => Some Throw
          | UB => Some UB
          | Ok (fr, lr, cs, s1) =>
              match ask_run fuel moves t (mkLive (up_sheets (lv_wb l) (upd k s1 (wb_sheets (lv_wb l)))) (lv_dump l)) with
              | Some (Ok (ss, l2)) => Some (Ok (RBounds fr lr cs :: ss, l2))
              | o => o
              end
          end
      end
  end.
