(** Fonts, number formats and extended formats (XF): font.cpp, format.cpp, extformat.cpp,
    cell.cpp and the format tables of globalrec.cpp.  File names are relative to
    /repo/xlslib/src/xlslib. *)
From Coq Require Import ZArith List Bool.
From Verif Require Import Bytes UnitModel RecModel SheetModel.
Import ListNotations.
Local Open Scope Z_scope.

(* ------------------------------------------------------------------ *)
(** * Option tables *)

(** extformat.cpp 51-60, 62-68, 70-91, 93-99. *)
Definition HALIGN_TABLE := [0; 1; 2; 3; 4; 5; 6].
Definition VALIGN_TABLE := [0; 1; 2; 3].
Definition INDENT_TABLE := [0; 1; 2; 3; 4; 5; 6; 7; 8; 9; 10; 11; 12; 13; 14; 15; 16; 64; 128].
Definition TXTORI_TABLE := [0; 255; 90; 180].
(** extformat.cpp 101-169 and font.cpp 64-132 (the two tables are identical); the codes
    are those of colors.h 45-114. *)
Definition COLOR_TABLE :=
  [0;
   8; 60; 59; 58; 56; 18; 62; 63;
   16; 53; 19; 17; 21; 12; 54; 23;
   10; 52; 50; 57; 49; 48; 20; 55;
   14; 51; 13; 11; 15; 40; 61; 22;
   45; 47; 43; 42; 41; 44; 46; 9;
   24; 25; 26; 27; 28; 29; 30; 31;
   32; 33; 34; 35; 36; 37; 38; 39;
   64; 65].
(** extformat.cpp 171-192, 194-204. *)
Definition FILL_TABLE := [0; 1; 3; 2; 4; 17; 18; 5; 6; 7; 8; 9; 10; 11; 12; 13; 14; 15; 16].
Definition BORDERSTYLE_TABLE := [0; 1; 2; 3; 4; 5; 6; 7].
(** font.cpp 43-62. *)
Definition BOLD_TABLE := [700; 550; 400; 800].
Definition SCRIPT_TABLE := [0; 1; 2].
Definition UNDERLINE_TABLE := [0; 1; 2; 33; 34].
(** format.cpp 40-78, format.h 47-84. *)
Definition FORMAT_TABLE :=
  [0; 1; 2; 3; 4; 5; 6; 7; 8; 9; 10; 11; 12; 13; 14; 15; 16; 17; 18; 19; 20; 21; 22;
   37; 38; 39; 40; 41; 42; 43; 44; 45; 46; 47; 48; 49].

(** Table access guarded by the XL_ASSERTs that precede it in the setters. *)
Definition table (t : list Z) (i : Z) : res Z :=
  if ((0 <=? i) && (i <? zlen t))%bool then Ok (nth (Z.to_nat i) t 0) else Throw.
(** Unguarded access (font.cpp 313-361): out of range is undefined. *)
Definition table_ub (t : list Z) (i : Z) : res Z :=
  if ((0 <=? i) && (i <? zlen t))%bool then Ok (nth (Z.to_nat i) t 0) else UB.

(** Enum values used as defaults: colors.h 118-139, extformat.h. *)
Definition CLR_SYS_WIND_FG := 57.
Definition CLR_SYS_WIND_BG := 58.
Definition ATRNUM := 4.
Definition ATRFONT := 8.
Definition ATRALC := 16.
Definition ATRBDR := 32.
Definition ATRPAT := 64.
Definition ATRPROT := 128.

(* ------------------------------------------------------------------ *)
(** * xf_t *)

(** extformat.h xf_t.  Pointers to fonts and formats are represented by the index the
    object carries (font.cpp 282, format.h: assigned once, by the table that owns the
    object); [x_bs]/[x_bc] are the five-element border arrays.  The member [xfi] is not
    represented: it is a copy of xfiInit for every object reachable through the API
    modelled here, and the setters compare with xfiInit itself. *)
Record xf := mkXf {
  x_fmt : Z; x_font : option Z; x_format : option Z;
  x_ha : Z; x_va : Z; x_ind : Z; x_ori : Z; x_fill : Z; x_fg : Z; x_bg : Z;
  x_locked : bool; x_hidden : bool; x_wrap : bool; x_cell : bool; x_user : bool;
  x_bs : list Z; x_bc : list Z; x_flags : Z; x_use : Z }.

(** extformat.cpp 486-514 SetFlag, 516-527 ClearFlag ([flags] is 8 bits). *)
Definition set_flag (f : Z) (x : xf) : xf :=
  mkXf (x_fmt x) (x_font x) (x_format x) (x_ha x) (x_va x) (x_ind x) (x_ori x) (x_fill x)
       (x_fg x) (x_bg x) (x_locked x) (x_hidden x) (x_wrap x) (x_cell x) (x_user x) (x_bs x)
       (x_bc x)
       (if x_cell x then Z.lor (x_flags x) f else Z.ldiff (x_flags x) f) (x_use x).
Definition clear_flag (f : Z) (x : xf) : xf :=
  mkXf (x_fmt x) (x_font x) (x_format x) (x_ha x) (x_va x) (x_ind x) (x_ori x) (x_fill x)
       (x_fg x) (x_bg x) (x_locked x) (x_hidden x) (x_wrap x) (x_cell x) (x_user x) (x_bs x)
       (x_bc x)
       (if x_cell x then Z.ldiff (x_flags x) f else Z.lor (x_flags x) f) (x_use x).
Definition flag_if (b : bool) (f : Z) (x : xf) : xf := if b then set_flag f x else x.

(** Field updates, one per member. *)
Definition with_fmt v x := mkXf v (x_font x) (x_format x) (x_ha x) (x_va x) (x_ind x) (x_ori x) (x_fill x) (x_fg x) (x_bg x) (x_locked x) (x_hidden x) (x_wrap x) (x_cell x) (x_user x) (x_bs x) (x_bc x) (x_flags x) (x_use x).
Definition with_font v x := mkXf (x_fmt x) v (x_format x) (x_ha x) (x_va x) (x_ind x) (x_ori x) (x_fill x) (x_fg x) (x_bg x) (x_locked x) (x_hidden x) (x_wrap x) (x_cell x) (x_user x) (x_bs x) (x_bc x) (x_flags x) (x_use x).
Definition with_format v x := mkXf (x_fmt x) (x_font x) v (x_ha x) (x_va x) (x_ind x) (x_ori x) (x_fill x) (x_fg x) (x_bg x) (x_locked x) (x_hidden x) (x_wrap x) (x_cell x) (x_user x) (x_bs x) (x_bc x) (x_flags x) (x_use x).
Definition with_ha v x := mkXf (x_fmt x) (x_font x) (x_format x) v (x_va x) (x_ind x) (x_ori x) (x_fill x) (x_fg x) (x_bg x) (x_locked x) (x_hidden x) (x_wrap x) (x_cell x) (x_user x) (x_bs x) (x_bc x) (x_flags x) (x_use x).
Definition with_va v x := mkXf (x_fmt x) (x_font x) (x_format x) (x_ha x) v (x_ind x) (x_ori x) (x_fill x) (x_fg x) (x_bg x) (x_locked x) (x_hidden x) (x_wrap x) (x_cell x) (x_user x) (x_bs x) (x_bc x) (x_flags x) (x_use x).
Definition with_ind v x := mkXf (x_fmt x) (x_font x) (x_format x) (x_ha x) (x_va x) v (x_ori x) (x_fill x) (x_fg x) (x_bg x) (x_locked x) (x_hidden x) (x_wrap x) (x_cell x) (x_user x) (x_bs x) (x_bc x) (x_flags x) (x_use x).
Definition with_ori v x := mkXf (x_fmt x) (x_font x) (x_format x) (x_ha x) (x_va x) (x_ind x) v (x_fill x) (x_fg x) (x_bg x) (x_locked x) (x_hidden x) (x_wrap x) (x_cell x) (x_user x) (x_bs x) (x_bc x) (x_flags x) (x_use x).
Definition with_fill v x := mkXf (x_fmt x) (x_font x) (x_format x) (x_ha x) (x_va x) (x_ind x) (x_ori x) v (x_fg x) (x_bg x) (x_locked x) (x_hidden x) (x_wrap x) (x_cell x) (x_user x) (x_bs x) (x_bc x) (x_flags x) (x_use x).
Definition with_fg v x := mkXf (x_fmt x) (x_font x) (x_format x) (x_ha x) (x_va x) (x_ind x) (x_ori x) (x_fill x) v (x_bg x) (x_locked x) (x_hidden x) (x_wrap x) (x_cell x) (x_user x) (x_bs x) (x_bc x) (x_flags x) (x_use x).
Definition with_bg v x := mkXf (x_fmt x) (x_font x) (x_format x) (x_ha x) (x_va x) (x_ind x) (x_ori x) (x_fill x) (x_fg x) v (x_locked x) (x_hidden x) (x_wrap x) (x_cell x) (x_user x) (x_bs x) (x_bc x) (x_flags x) (x_use x).
Definition with_locked v x := mkXf (x_fmt x) (x_font x) (x_format x) (x_ha x) (x_va x) (x_ind x) (x_ori x) (x_fill x) (x_fg x) (x_bg x) v (x_hidden x) (x_wrap x) (x_cell x) (x_user x) (x_bs x) (x_bc x) (x_flags x) (x_use x).
Definition with_hidden v x := mkXf (x_fmt x) (x_font x) (x_format x) (x_ha x) (x_va x) (x_ind x) (x_ori x) (x_fill x) (x_fg x) (x_bg x) (x_locked x) v (x_wrap x) (x_cell x) (x_user x) (x_bs x) (x_bc x) (x_flags x) (x_use x).
Definition with_wrap v x := mkXf (x_fmt x) (x_font x) (x_format x) (x_ha x) (x_va x) (x_ind x) (x_ori x) (x_fill x) (x_fg x) (x_bg x) (x_locked x) (x_hidden x) v (x_cell x) (x_user x) (x_bs x) (x_bc x) (x_flags x) (x_use x).
Definition with_bs v x := mkXf (x_fmt x) (x_font x) (x_format x) (x_ha x) (x_va x) (x_ind x) (x_ori x) (x_fill x) (x_fg x) (x_bg x) (x_locked x) (x_hidden x) (x_wrap x) (x_cell x) (x_user x) v (x_bc x) (x_flags x) (x_use x).
Definition with_bc v x := mkXf (x_fmt x) (x_font x) (x_format x) (x_ha x) (x_va x) (x_ind x) (x_ori x) (x_fill x) (x_fg x) (x_bg x) (x_locked x) (x_hidden x) (x_wrap x) (x_cell x) (x_user x) (x_bs x) v (x_flags x) (x_use x).
Definition with_use v x := mkXf (x_fmt x) (x_font x) (x_format x) (x_ha x) (x_va x) (x_ind x) (x_ori x) (x_fill x) (x_fg x) (x_bg x) (x_locked x) (x_hidden x) (x_wrap x) (x_cell x) (x_user x) (x_bs x) (x_bc x) (x_flags x) v.

(** The setters that touch only the xf_t itself; arguments are the enum values (or the
    palette index for the unsigned8_t overloads). *)
Inductive xfop :=
| XFormatIdx (idx : Z)                  (* SetFormatIndex, extformat.cpp 661-669 *)
| XFormatNum (fmt : Z)                  (* SetFormat(format_number_t), 671-686 *)
| XHAlign (v : Z)                       (* 909-919 *)
| XVAlign (v : Z)                       (* 927-937 *)
| XIndent (v : Z)                       (* 944-954 *)
| XOrient (v : Z)                       (* 962-972 *)
| XFg (c : Z)                           (* 980-990 *)
| XFgIdx (i : Z)                        (* 992-997 *)
| XBg (c : Z)                           (* 1005-1015 *)
| XBgIdx (i : Z)                        (* 1017-1022 *)
| XFill (v : Z)                         (* 1030-1040 *)
| XLocked (b : bool)                    (* 1048-1056 *)
| XHidden (b : bool)                    (* 1064-1072 *)
| XWrap (b : bool)                      (* 1080-1088 *)
| XBStyle (side v : Z)                  (* SetBorderStyle, 756-771 *)
| XBColor (side c : Z)                  (* SetBorderColor(color_name_t), 773-784 *)
| XBColorIdx (side i : Z).              (* SetBorderColor(unsigned8_t), 786-795 *)

Definition side_ok (side : Z) : bool := ((0 <=? side) && (side <? 5))%bool.

Definition xf_apply (o : xfop) (x : xf) : res xf :=
  match o with
  | XFormatIdx idx =>
      Ok (with_format None (with_fmt idx (flag_if (negb (idx =? 0)) ATRNUM x)))
  | XFormatNum fmt =>
      (* fmt > FMT_TEXT (35) becomes FMT_GENERAL *)
      let f := if 35 <? fmt then 0 else fmt in
      let idx := nth (Z.to_nat f) FORMAT_TABLE 0 in
      Ok (with_format None (with_fmt idx (flag_if (negb (idx =? 0)) ATRNUM x)))
  | XHAlign v =>
      let* h := table HALIGN_TABLE v in
      Ok (with_ha h (flag_if (negb (v =? 0)) ATRALC x))
  | XVAlign v =>
      let* h := table VALIGN_TABLE v in
      Ok (with_va h (flag_if (negb (v =? 2)) ATRALC x))
  | XIndent v =>
      let* h := table INDENT_TABLE v in
      Ok (with_ind h (flag_if (negb (v =? 0)) ATRALC x))
  | XOrient v =>
      let* h := table TXTORI_TABLE v in
      Ok (with_ori h (flag_if (negb (v =? 0)) ATRALC x))
  | XFg c =>
      let* h := table COLOR_TABLE c in
      Ok (with_fg h (flag_if (negb (c =? CLR_SYS_WIND_FG)) ATRPAT x))
  | XFgIdx i => Ok (with_fg i (set_flag ATRPAT x))
  | XBg c =>
      let* h := table COLOR_TABLE c in
      Ok (with_bg h (flag_if (negb (c =? CLR_SYS_WIND_BG)) ATRPAT x))
  | XBgIdx i => Ok (with_bg i (set_flag ATRPAT x))
  | XFill v =>
      let* h := table FILL_TABLE v in
      Ok (with_fill h (flag_if (negb (v =? 0)) ATRPAT x))
  | XLocked b => Ok (with_locked b (flag_if (negb (Bool.eqb b true)) ATRPROT x))
  | XHidden b => Ok (with_hidden b (flag_if (negb (Bool.eqb b false)) ATRPROT x))
  | XWrap b => Ok (with_wrap b (flag_if (negb (Bool.eqb b false)) ATRALC x))
  | XBStyle side v =>
      let* _ := xl_assert (side_ok side) in
      let* h := table BORDERSTYLE_TABLE v in
      let k := Z.to_nat side in
      let x1 := flag_if (negb (h =? 0)) ATRBDR (with_bs (upd k h (x_bs x)) x) in
      Ok (if (x_cell x1 && (nth k (x_bc x1) 0 =? 0))%bool
          then with_bc (upd k 64 (x_bc x1)) x1 else x1)
  | XBColor side c =>
      let* _ := xl_assert (side_ok side) in
      let* h := table COLOR_TABLE c in
      Ok (flag_if (negb (h =? 0)) ATRBDR (with_bc (upd (Z.to_nat side) h (x_bc x)) x))
  | XBColorIdx side i =>
      let* _ := xl_assert (side_ok side) in
      Ok (flag_if (negb (i =? 0)) ATRBDR (with_bc (upd (Z.to_nat side) i (x_bc x)) x))
  end.

Fixpoint xf_applies (l : list xfop) (x : xf) : res xf :=
  match l with [] => Ok x | o :: t => let* y := xf_apply o x in xf_applies t y end.

(** extformat.cpp 211-236 xf_init_t::xf_init_t, as the setter calls of 356-372. *)
Definition xfi_ops : list xfop :=
  [XFormatIdx 0; XHAlign 0; XVAlign 2; XIndent 0; XOrient 0; XFg CLR_SYS_WIND_FG;
   XBg CLR_SYS_WIND_BG; XFill 0; XLocked true; XHidden false; XWrap false]
  ++ flat_map (fun i => [XBStyle i 0; XBColor i 0]) [0; 1; 2; 3; 4].

(** extformat.cpp 321-377 xf_t::xf_t(userXF, isCell, isMasterXF), before AddXFormat. *)
Definition xf_new (user cell master : bool) : res xf :=
  xf_applies xfi_ops
    (mkXf 0 None None 0 2 0 0 0 0 0 false false false cell user [0; 0; 0; 0; 0] [0; 0; 0; 0; 0]
          (if (cell || master)%bool then 0 else 252) 0).

(** extformat.cpp 859-906 operator==. *)
Definition oeqb (a b : option Z) : bool :=
  match a, b with
  | Some x, Some y => x =? y
  | None, None => true
  | _, _ => false
  end.
Fixpoint leqb (a b : list Z) : bool :=
  match a, b with
  | [], [] => true
  | x :: a', y :: b' => ((x =? y) && leqb a' b')%bool
  | _, _ => false
  end.
Definition xf_eqb (a b : xf) : bool :=
  ((x_fmt a =? x_fmt b) && oeqb (x_font a) (x_font b) && oeqb (x_format a) (x_format b)
   && (x_ha a =? x_ha b) && (x_va a =? x_va b) && (x_ind a =? x_ind b) && (x_ori a =? x_ori b)
   && (x_fill a =? x_fill b) && (x_fg a =? x_fg b) && (x_bg a =? x_bg b)
   && Bool.eqb (x_locked a) (x_locked b) && Bool.eqb (x_hidden a) (x_hidden b)
   && Bool.eqb (x_wrap a) (x_wrap b) && Bool.eqb (x_cell a) (x_cell b)
   && Bool.eqb (x_user a) (x_user b) && leqb (x_bs a) (x_bs b) && leqb (x_bc a) (x_bc b)
   && (x_flags a =? x_flags b))%bool.

(* ------------------------------------------------------------------ *)
(** * The XF record *)

(** GetValue..From / SetValueAt.. pairs: read the field of the record built so far, then
    store the new value (unit.cpp 184-300). *)
Definition get_at (n : nat) (l : list Z) (off : Z) : Z :=
  match rd n l (Z.to_nat off) with Some v => v | None => 0 end. (* always inside the record *)
Definition rmw16 (off : Z) (f : Z -> Z) (ops : list uop) : list uop :=
  ops ++ [OSet16 (f (get_at 2 (rec_bytes ops) off)) off].
Definition rmw32 (off : Z) (f : Z -> Z) (ops : list uop) : list uop :=
  ops ++ [OSet32 (f (get_at 4 (rec_bytes ops) off)) off].
(** value & ~mask | (v & mask). *)
Definition put_field (mask v value : Z) : Z := Z.lor (Z.ldiff value mask) (Z.land v mask).
Definition put_bit (mask : Z) (b : bool) (value : Z) : Z :=
  if b then Z.lor value mask else Z.ldiff value mask.

(** extformat.cpp 1161-1175. *)
Definition xf_dummy (cell : bool) : list Z :=
  if cell then [0; 0; 0; 0; 0; 0; 0; 0; 0; 0; 0; 0; 0; 0; 0; 0; 0; 0; 0; 0]
  else [0; 0; 0; 0; 244; 255; 32; 0; 0; 252; 0; 0; 0; 0; 0; 0; 0; 0; 192; 32].

(** extformat.cpp 1308-1333 SetIndent: the mask. *)
Definition indent_mask (v : Z) : Z :=
  if negb (Z.land v 15 =? 0) then 15
  else if negb (Z.land v 16 =? 0) then 16
  else if negb (Z.land v 192 =? 0) then 192
  else 223.

(** extformat.cpp 1106-1144 CExtFormat, with SetXFParent 1200, SetFontIndex 1210,
    SetFormatIndex 1231, SetHorizAlign 1274, SetVertAlign 1284, SetIndent 1308,
    SetTxtOrientation 1335, SetFGColorIndex 1348, SetBGColorIndex 1362, SetFillPattern
    1378, SetLocked 1248, SetHidden 1261, SetWrap 1295, SetBorder 1389, SetFlags 1449.
    [fontidx] is GetFontIndex(): the font's index, or 0 (652-659). *)
Definition rec_xf (x : xf) : list uop :=
  let fontidx := match x_font x with Some i => i | None => 0 end in
  let bs k := nth k (x_bs x) 0 in
  let bc k := nth k (x_bc x) 0 in
  let p0 := [rec_new; set_type RT_XF; OArray (xf_dummy (x_cell x)); set_len;
             OSet16 fontidx 4; OSet16 (x_fmt x) 6] in
  let p1 := rmw32 10 (put_field 7 (x_ha x)) p0 in
  let p2 := rmw32 10 (put_field 112 (Z.shiftl (x_va x) 4)) p1 in
  let p3 := rmw32 10 (put_field (Z.shiftl (indent_mask (x_ind x)) 16) (Z.shiftl (x_ind x) 16)) p2 in
  let p4 := rmw32 10 (put_field 65280 (Z.shiftl (x_ori x) 8)) p3 in
  let p5 := rmw16 22 (put_field 127 (x_fg x)) p4 in
  let p6 := rmw16 22 (put_field 16256 (Z.shiftl (x_bg x) 7 mod 65536)) p5 in
  let p7 := rmw32 18 (put_field 4227858432 (w32 (Z.shiftl (x_fill x) 26))) p6 in
  let p8 := rmw16 8 (put_bit 1 (x_locked x)) p7 in
  let p9 := rmw16 8 (put_bit 2 (x_hidden x)) p8 in
  let p10 := rmw32 10 (put_bit 8 (x_wrap x)) p9 in
  let p11 := rmw32 14 (put_field 61440 (Z.shiftl (bs 0%nat) 12)) p10 in
  let p12 := rmw32 18 (put_field 16256 (Z.shiftl (bc 0%nat) 7)) p11 in
  let p13 := rmw32 14 (put_field 3840 (Z.shiftl (bs 1%nat) 8)) p12 in
  let p14 := rmw32 18 (put_field 127 (bc 1%nat)) p13 in
  let p15 := rmw32 14 (fun v => Z.lor (Z.ldiff v 8323087)
               (Z.lor (Z.land (Z.shiftl (bc 2%nat) 16) 8323072) (Z.land (bs 2%nat) 15))) p14 in
  let p16 := rmw32 14 (fun v => Z.lor (Z.ldiff v 1065353456)
               (Z.lor (Z.land (w32 (Z.shiftl (bc 3%nat) 23)) 1065353216)
                      (Z.land (Z.shiftl (bs 3%nat) 4) 240))) p15 in
  let p17 := rmw32 10 (put_field 4227858432 (Z.shiftl (x_flags x) 24)) p16 in
  if x_cell x then rmw16 8 (put_field 65520 0) p17 else p17.

(* ------------------------------------------------------------------ *)
(** * The format tables of CGlobalRecords *)

(** A font_t with its usage counter (an unsigned32_t, taken as unbounded). *)
Record fontobj := mkFO { fo_val : font; fo_use : Z }.
Record fmtobj := mkFmt { fmo_str : list Z; fmo_use : Z }.

(** m_DefaultFonts, m_Fonts, m_Formats, m_DefaultXFs, m_XFs.  The counters fontIndex,
    formatIndex and xfIndex (globalrec.cpp 126, 128, 199) always equal 6, 164 and 21 plus
    the length of their vector, so they are not stored; an object's index is its position
    plus that base, cut to 16 bits when it is written. *)
Record fstate := mkFS {
  fs_dfonts : list fontobj; fs_fonts : list fontobj; fs_formats : list fmtobj;
  fs_dxfs : list xf; fs_xfs : list xf }.

Definition set_fonts fs a b := mkFS a b (fs_formats fs) (fs_dxfs fs) (fs_xfs fs).
Definition set_formats fs l := mkFS (fs_dfonts fs) (fs_fonts fs) l (fs_dxfs fs) (fs_xfs fs).
Definition set_xfs fs a b := mkFS (fs_dfonts fs) (fs_fonts fs) (fs_formats fs) a b.

(** Default fonts carry the indices 0, 1, 2, 3 and 5 (globalrec.cpp 90-124). *)
Definition dfont_pos (i : Z) : nat := Z.to_nat (if i =? 5 then 4 else i).
Definition font_at (fs : fstate) (i : Z) : option fontobj :=
  if ((i <? 0) || (i =? 4))%bool then None
  else if i <? 6 then nth_error (fs_dfonts fs) (dfont_pos i)
  else nth_error (fs_fonts fs) (Z.to_nat (i - 6)).
Definition font_upd (fs : fstate) (i : Z) (f : fontobj -> fontobj) : fstate :=
  match font_at fs i with
  | None => fs
  | Some o =>
      if i <? 6 then set_fonts fs (upd (dfont_pos i) (f o) (fs_dfonts fs)) (fs_fonts fs)
      else set_fonts fs (fs_dfonts fs) (upd (Z.to_nat (i - 6)) (f o) (fs_fonts fs))
  end.
Definition xf_at (fs : fstate) (i : Z) : option xf :=
  if i <? 0 then None
  else if i <? 21 then nth_error (fs_dxfs fs) (Z.to_nat i)
  else nth_error (fs_xfs fs) (Z.to_nat (i - 21)).
Definition xf_upd (fs : fstate) (i : Z) (f : xf -> xf) : fstate :=
  match xf_at fs i with
  | None => fs
  | Some o =>
      if i <? 21 then set_xfs fs (upd (Z.to_nat i) (f o) (fs_dxfs fs)) (fs_xfs fs)
      else set_xfs fs (fs_dxfs fs) (upd (Z.to_nat (i - 21)) (f o) (fs_xfs fs))
  end.

(** font.cpp 214-224, format.cpp 137-147: MarkUsed, UnMarkUsed. *)
Definition use_up (n : Z) : Z := n + 1.
Definition use_down (n : Z) : Z := if n =? 0 then 0 else n - 1.
Definition fo_mark (o : fontobj) := mkFO (fo_val o) (use_up (fo_use o)).
Definition fo_unmark (o : fontobj) := mkFO (fo_val o) (use_down (fo_use o)).
Definition font_mark fs (p : option Z) :=
  match p with Some i => font_upd fs i fo_mark | None => fs end.
Definition font_unmark fs (p : option Z) :=
  match p with Some i => font_upd fs i fo_unmark | None => fs end.
Definition fmt_upd fs (i : Z) (f : Z -> Z) : fstate :=
  match nth_error (fs_formats fs) (Z.to_nat (i - 164)) with
  | Some o => set_formats fs (upd (Z.to_nat (i - 164)) (mkFmt (fmo_str o) (f (fmo_use o)))
                                  (fs_formats fs))
  | None => fs
  end.
Definition fmt_mark fs (p : option Z) :=
  match p with Some i => fmt_upd fs i use_up | None => fs end.
Definition fmt_unmark fs (p : option Z) :=
  match p with Some i => fmt_upd fs i use_down | None => fs end.

(** extformat.cpp 584-603: MarkUsed, UnMarkUsed of an XF. *)
Definition xf_mark (fs : fstate) (i : Z) : fstate :=
  xf_upd fs i (fun x => with_use (use_up (x_use x)) x).
Definition xf_unmark (fs : fstate) (i : Z) : fstate :=
  match xf_at fs i with
  | None => fs
  | Some x =>
      let n := use_down (x_use x) in
      let fs1 := xf_upd fs i (with_use n) in
      if n =? 0 then fmt_unmark (font_unmark fs1 (x_font x)) (x_format x) else fs1
  end.

(** extformat.cpp 631-645 SetFont. *)
Definition xf_set_font (fs : fstate) (x : xf) (nf : option Z) : fstate * xf :=
  let x1 := flag_if (match nf with Some _ => true | None => false end) ATRFONT x in
  (font_mark (font_unmark fs (x_font x1)) nf, with_font nf x1).
(** extformat.cpp 688-710 SetFormat(format_t* ). *)
Definition xf_set_format (fs : fstate) (x : xf) (fmt : Z) : fstate * xf :=
  let fs1 := fmt_unmark fs (x_format x) in
  (fmt_mark fs1 (Some fmt),
   with_format (Some fmt) (with_fmt fmt (flag_if (negb (fmt =? 0)) ATRNUM x))).

(** globalrec.cpp 664-668 AddXFormat. *)
Definition add_xf (fs : fstate) (x : xf) : fstate * Z :=
  (set_xfs fs (fs_dxfs fs) (fs_xfs fs ++ [x]), 21 + zlen (fs_xfs fs)).
(** globalrec.cpp 653-657 AddFont. *)
Definition add_font (fs : fstate) (f : font) : fstate * Z :=
  (set_fonts fs (fs_dfonts fs) (fs_fonts fs ++ [mkFO f 0]), 6 + zlen (fs_fonts fs)).
(** globalrec.cpp 647-651 AddFormat. *)
Definition add_format (fs : fstate) (s : list Z) : fstate * Z :=
  (set_formats fs (fs_formats fs ++ [mkFmt s 0]), 164 + zlen (fs_formats fs)).

(** extformat.cpp 384-424, extformat.h 455-459: xfDup. *)
Definition xf_dup (fs : fstate) (o : xf) : fstate * xf :=
  let x0 := mkXf (x_fmt o) None None (x_ha o) (x_va o) (x_ind o) (x_ori o) (x_fill o) (x_fg o)
                 (x_bg o) (x_locked o) (x_hidden o) (x_wrap o) true true (x_bs o) (x_bc o)
                 (x_flags o) 0 in
  let (fs1, x1) := xf_set_font fs x0 (x_font o) in
  match x_format o with
  | Some f => xf_set_format fs1 x1 f
  | None => (fs1, x1)
  end.

(** globalrec.cpp 920-946 findXF for the object just pushed at the end of m_XFs: position
    of the first equal element; if it is another object the last one is removed. *)
Fixpoint find_pos (l : list xf) (x : xf) (k : nat) : option nat :=
  match l with
  | [] => None
  | y :: t => if xf_eqb y x then Some k else find_pos t x (S k)
  end.
Definition find_xf (fs : fstate) (p : Z) : res (fstate * Z) :=
  match xf_at fs p with
  | None => UB
  | Some x =>
      match find_pos (fs_xfs fs) x 0 with
      | Some k =>
          let i := 21 + Z.of_nat k in
          if i =? p then Ok (fs, p)
          else Ok (set_xfs fs (fs_dxfs fs) (removelast (fs_xfs fs)), i)
      | None => Ok (fs, p)
      end
  end.

(** What a cell (or user) setter does to an xf_t. *)
Inductive fmtop :=
| FXf (o : xfop)
| FFont (f : option Z)                  (* font(font_t* ) *)
| FFormat (f : option Z).               (* format(format_t* ) *)
(** The fonts and formats that exist: a pointer to anything else cannot be passed. *)
Definition font_handle (fs : fstate) (f : option Z) : bool :=
  match f with None => true | Some i => match font_at fs i with Some _ => true | None => false end end.
Definition format_handle (fs : fstate) (f : Z) : bool :=
  ((164 <=? f) && (f <? 164 + zlen (fs_formats fs)))%bool.
Definition fmt_apply (fs : fstate) (x : xf) (o : fmtop) : res (fstate * xf) :=
  match o with
  | FXf o => let* y := xf_apply o x in Ok (fs, y)
  | FFont f => if font_handle fs f then Ok (xf_set_font fs x f) else UB
  | FFormat (Some f) => if format_handle fs f then Ok (xf_set_format fs x f) else UB
  | FFormat None => Ok (fs, x)
  end.

(** cell.cpp 76-272: every setter of the XF interface has this body.  [p] is the cell's
    pxf; the result is its new value. *)
Definition cell_format (fs : fstate) (p : Z) (o : fmtop) : res (fstate * Z) :=
  match xf_at fs p with
  | None => UB
  | Some x =>
      let (fs1, t0) := xf_dup fs x in
      let* (fs2, t) := fmt_apply fs1 t0 o in
      let (fs3, pt) := add_xf fs2 t in
      let fs4 := xf_unmark fs3 p in
      let* (fs5, q) := find_xf fs4 pt in
      Ok (xf_mark fs5 q, q)
  end.

(** The font setters, font.cpp 235-382. *)
Inductive fontop :=
| NName (s : list Z) | NHeight (h : Z) | NBold (v : Z) | NUnder (v : Z) | NScript (v : Z)
| NColor (c : Z) | NColorIdx (i : Z) | NAttr (a : Z)
| NItalic (b : bool) | NStrike (b : bool) | NOutline (b : bool) | NShadow (b : bool).
Definition font_apply (o : fontop) (f : font) : res font :=
  let mk n h a c b s u := mkFont n h a c b s u (fo_family f) (fo_charset f) in
  let n := fo_name f in let h := fo_height f in let a := fo_attr f in let c := fo_color f in
  let b := fo_bold f in let s := fo_script f in let u := fo_under f in
  match o with
  | NName v => Ok (mk v h a c b s u)
  | NHeight v => Ok (mk n v a c b s u)
  | NBold v => let* t := table_ub BOLD_TABLE v in Ok (mk n h a c t s u)
  | NUnder v => let* t := table_ub UNDERLINE_TABLE v in Ok (mk n h a c b s t)
  | NScript v => let* t := table_ub SCRIPT_TABLE v in Ok (mk n h a c b t u)
  | NColor v => let* t := table_ub COLOR_TABLE v in Ok (mk n h a t b s u)
  | NColorIdx v => Ok (mk n h a v b s u)
  | NAttr v => Ok (mk n h v c b s u)
  | NItalic v => Ok (mk n h (put_bit 2 v a) c b s u)
  | NStrike v => Ok (mk n h (put_bit 8 v a) c b s u)
  | NOutline v => Ok (mk n h (put_bit 16 v a) c b s u)
  | NShadow v => Ok (mk n h (put_bit 32 v a) c b s u)
  end.
Definition font_set (fs : fstate) (i : Z) (o : fontop) : res fstate :=
  match font_at fs i with
  | None => UB
  | Some fo => let* v := font_apply o (fo_val fo) in
               Ok (font_upd fs i (fun _ => mkFO v (fo_use fo)))
  end.

(** cell.cpp 277-296 set_cell_font. *)
Definition set_cell_font (fs : fstate) (p : Z) : res (fstate * Z) :=
  match xf_at fs p with
  | None => UB
  | Some x =>
      let (fs1, t0) := xf_dup fs x in
      let* (fs2, t) :=
        match x_font t0 with
        | None =>
            (* GetDefaultFont is *m_DefaultFonts.begin() *)
            match font_at fs1 0 with
            | None => UB
            | Some d => let (fs', nf) := add_font fs1 (fo_val d) in
                        Ok (xf_set_font fs' t0 (Some nf))
            end
        | Some i =>
            match font_at fs1 i with
            | None => UB
            | Some d =>
                if 1 <? fo_use d then
                  let (fs', nf) := add_font fs1 (fo_val d) in Ok (xf_set_font fs' t0 (Some nf))
                else Ok (fs1, t0)
            end
        end in
      let (fs3, pt) := add_xf fs2 t in
      let fs4 := xf_unmark fs3 p in
      let* (fs5, q) := find_xf fs4 pt in
      Ok (xf_mark fs5 q, q)
  end.
(** cell.cpp 298-371: set_cell_font(); pxf->GetFont()->SetX(v). *)
Definition cell_font (fs : fstate) (p : Z) (o : fontop) : res (fstate * Z) :=
  let* (fs1, q) := set_cell_font fs p in
  match xf_at fs1 q with
  | Some x => match x_font x with
              | Some i => let* fs2 := font_set fs1 i o in Ok (fs2, q)
              | None => UB
              end
  | None => UB
  end.
(** cell.cpp 373-381 SetXF (also reached by sheet.rowheight and friends). *)
Definition cell_setxf (fs : fstate) (p : Z) (q : option Z) : fstate * Z :=
  match q with
  | None => (fs, p)
  | Some q => (xf_unmark (xf_mark fs q) p, q)
  end.

(** Setters called by the user on an xf_t obtained from workbook::xformat. *)
Definition xf_user (fs : fstate) (p : Z) (o : fmtop) : res fstate :=
  match xf_at fs p with
  | None => UB
  | Some x => let* (fs1, y) := fmt_apply fs x o in Ok (xf_upd fs1 p (fun _ => y))
  end.
(** workbook.cpp 163-175 font(name), font(fontnum). *)
Definition wb_font (fs : fstate) (name : list Z) : fstate * Z :=
  add_font fs (mkFont name 200 0 32767 400 0 0 0 1).
Definition wb_fontnum (fs : fstate) (n : Z) : res (fstate * Z) :=
  match nth_error (fs_dfonts fs) (Z.to_nat n) with
  | Some d => Ok (add_font fs (fo_val d))
  | None => UB
  end.
(** workbook.cpp 203-233 xformat. *)
Definition wb_xformat (fs : fstate) (fnt : option (option Z)) (fmt : option (option Z)) :
  res (fstate * Z) :=
  let* x := xf_new true true false in
  let (fs1, p) := add_xf fs x in
  let* fs2 := match fnt with Some f => xf_user fs1 p (FFont f) | None => Ok fs1 end in
  let* fs3 := match fmt with Some f => xf_user fs2 p (FFormat f) | None => Ok fs2 end in
  Ok (fs3, p).

(** globalrec.cpp 81-197: default fonts (marked used twice) and default XFs. *)
Definition verdana : list Z := [86; 101; 114; 100; 97; 110; 97].
Definition dfont (bold attr : Z) : fontobj := mkFO (mkFont verdana 200 attr 0 bold 0 0 0 1) 2.
Definition default_fonts : list fontobj :=
  [dfont 400 0; dfont 700 1; dfont 400 2; dfont 700 3; dfont 400 0].
Definition dxf_font (i : Z) : option Z :=
  if i =? 0 then None else if i <=? 2 then Some 1 else if i <=? 4 then Some 2
  else if i =? 15 then None else if 16 <=? i then Some 5 else Some 0.
Definition dxf_fmt (i : Z) : Z :=
  if i =? 16 then 29 else if i =? 17 then 27 else if i =? 18 then 30 else if i =? 19 then 28
  else if i =? 20 then 9 else 0.
Fixpoint default_xfs (fs : fstate) (n : nat) (i : Z) : res fstate :=
  match n with
  | O => Ok fs
  | S m =>
      let* x0 := xf_new false (i =? 15) (i =? 0) in
      let (fs1, x1) := match dxf_font i with
                       | Some f => xf_set_font fs x0 (Some f)
                       | None => (fs, x0)
                       end in
      let x2 := if 16 <=? i then clear_flag ATRFONT x1 else x1 in
      let* x3 := if dxf_fmt i =? 0 then Ok x2 else xf_apply (XFormatNum (dxf_fmt i)) x2 in
      default_xfs (set_xfs fs1 (fs_dxfs fs1 ++ [with_use 2 x3]) (fs_xfs fs1)) m (i + 1)
  end.
Definition fstate_init : res fstate :=
  default_xfs (mkFS default_fonts [] [] [] []) 21 0.
