(** What each formatting call means for the attributes a BIFF8 reader sees.  Written from
    the API's enumerations (extformat.h, colors.h, format.h) and the BIFF8 codes. *)
From Coq Require Import ZArith List Bool.
From Verif Require Import Bytes RecModel XfModel SpecXf.
Import ListNotations.
Local Open Scope Z_scope.

(** Palette index of each colour name, in the order of the enumeration color_name_t. *)
Definition palette_of_name : list Z :=
  [0; (* ORIG_COLOR_BLACK *)
   8 (* BLACK *); 60 (* BROWN *); 59 (* OLIVE_GREEN *); 58 (* DARK_GREEN *); 56 (* DARK_TEAL *);
   18 (* DARK_BLUE *); 62 (* INDIGO *); 63 (* GRAY80 *);
   16 (* DARK_RED *); 53 (* ORANGE *); 19 (* DARK_YELLOW *); 17 (* GREEN *); 21 (* TEAL *);
   12 (* BLUE *); 54 (* BLUE_GRAY *); 23 (* GRAY50 *);
   10 (* RED *); 52 (* LITE_ORANGE *); 50 (* LIME *); 57 (* SEA_GREEN *); 49 (* AQUA *);
   48 (* LITE_BLUE *); 20 (* VIOLET *); 55 (* GRAY40 *);
   14 (* PINK *); 51 (* GOLD *); 13 (* YELLOW *); 11 (* BRITE_GREEN *); 15 (* TURQUOISE *);
   40 (* SKY_BLUE *); 61 (* PLUM *); 22 (* GRAY25 *);
   45 (* ROSE *); 47 (* TAN *); 43 (* LITE_YELLOW *); 42 (* LITE_GREEN *);
   41 (* LITE_TURQUOISE *); 44 (* PALE_BLUE *); 46 (* LAVENDER *); 9 (* WHITE *);
   24 (* PERIWINKLE *); 26 (* PLUM2 *); 28 (* IVORY *); 30 (* LITE_TURQUOISE2 *);
   32 (* DARK_PURPLE *); 34 (* CORAL *); 36 (* OCEAN_BLUE *); 38 (* ICE_BLUE *);
   25 (* DARK_BLUE2 *); 27 (* PINK2 *); 29 (* YELLOW2 *); 31 (* TURQUOISE2 *);
   33 (* VIOLET2 *); 35 (* DARK_RED2 *); 37 (* TEAL2 *); 39 (* BLUE2 *);
   64 (* SYS_WIND_FG *); 65 (* SYS_WIND_BG *)].
Definition palette_code (c : Z) : Z := nth (Z.to_nat c) palette_of_name 0.

(** Codes of the other enumerations. *)
Definition rotation_code (v : Z) : Z := nth (Z.to_nat v) [0; 255; 90; 180] 0.
Definition indent_code (v : Z) : Z := if v <=? 16 then v else if v =? 17 then 64 else 128.
Definition fill_code (v : Z) : Z :=
  nth (Z.to_nat v) [0; 1; 3; 2; 4; 17; 18; 5; 6; 7; 8; 9; 10; 11; 12; 13; 14; 15; 16] 0.
(** Built-in number formats: 0..22 keep their number, then 37..49. *)
Definition format_code (v : Z) : Z := if v <=? 22 then v else if v <=? 35 then v + 14 else 0.

Definition on (f : Z) (c : bool) (u : Z) : Z := if c then Z.lor u f else u.
Definition uNUM := 1. Definition uFONT := 2. Definition uTEXT := 4.
Definition uBORDER := 8. Definition uAREA := 16. Definition uPROT := 32.

(** Sides: 0 bottom, 1 top, 2 left, 3 right, 4 diagonal (not part of the record). *)
Definition on_side (side : Z) (f : Z * Z -> Z * Z) (a : xfattrs) (u : Z) : xfattrs :=
  let g k p := if side =? k then f p else p in
  mkXA (xa_font a) (xa_numfmt a) (xa_locked a) (xa_hidden a) (xa_halign a) (xa_wrap a)
       (xa_valign a) (xa_rotation a) (xa_indent a)
       (g 2 (xa_left a)) (g 3 (xa_right a)) (g 1 (xa_top a)) (g 0 (xa_bottom a))
       (xa_pattern a) (xa_fore a) (xa_back a) u.

Definition spec_set (o : fmtop) (a : xfattrs) : xfattrs :=
  let 'mkXA fo nf lk hd ha wr va ro ind l r t b pat fg bg u := a in
  match o with
  | FFont f => mkXA (match f with Some i => i | None => 0 end) nf lk hd ha wr va ro ind l r t b pat fg bg
                    (on uFONT (match f with Some _ => true | None => false end) u)
  | FFormat None => a
  | FFormat (Some f) => mkXA fo f lk hd ha wr va ro ind l r t b pat fg bg (on uNUM (negb (f =? 0)) u)
  | FXf (XFormatIdx i) => mkXA fo i lk hd ha wr va ro ind l r t b pat fg bg (on uNUM (negb (i =? 0)) u)
  | FXf (XFormatNum v) =>
      mkXA fo (format_code v) lk hd ha wr va ro ind l r t b pat fg bg
           (on uNUM (negb (format_code v =? 0)) u)
  | FXf (XHAlign v) => mkXA fo nf lk hd v wr va ro ind l r t b pat fg bg (on uTEXT (negb (v =? 0)) u)
  | FXf (XVAlign v) => mkXA fo nf lk hd ha wr v ro ind l r t b pat fg bg (on uTEXT (negb (v =? 2)) u)
  | FXf (XIndent v) => mkXA fo nf lk hd ha wr va ro (indent_code v) l r t b pat fg bg (on uTEXT (negb (v =? 0)) u)
  | FXf (XOrient v) => mkXA fo nf lk hd ha wr va (rotation_code v) ind l r t b pat fg bg (on uTEXT (negb (v =? 0)) u)
  | FXf (XFg c) => mkXA fo nf lk hd ha wr va ro ind l r t b pat (palette_code c) bg (on uAREA (negb (c =? 57)) u)
  | FXf (XFgIdx i) => mkXA fo nf lk hd ha wr va ro ind l r t b pat i bg (on uAREA true u)
  | FXf (XBg c) => mkXA fo nf lk hd ha wr va ro ind l r t b pat fg (palette_code c) (on uAREA (negb (c =? 58)) u)
  | FXf (XBgIdx i) => mkXA fo nf lk hd ha wr va ro ind l r t b pat fg i (on uAREA true u)
  | FXf (XFill v) => mkXA fo nf lk hd ha wr va ro ind l r t b (fill_code v) fg bg (on uAREA (negb (v =? 0)) u)
  | FXf (XLocked x) => mkXA fo nf x hd ha wr va ro ind l r t b pat fg bg (on uPROT (negb x) u)
  | FXf (XHidden x) => mkXA fo nf lk x ha wr va ro ind l r t b pat fg bg (on uPROT x u)
  | FXf (XWrap x) => mkXA fo nf lk hd ha x va ro ind l r t b pat fg bg (on uTEXT x u)
  (* a line style on a side without colour gives it the automatic colour, 64 *)
  | FXf (XBStyle side v) =>
      on_side side (fun p => (v, if snd p =? 0 then 64 else snd p)) a (on uBORDER (negb (v =? 0)) u)
  | FXf (XBColor side c) =>
      on_side side (fun p => (fst p, palette_code c)) a (on uBORDER (negb (palette_code c =? 0)) u)
  | FXf (XBColorIdx side i) =>
      on_side side (fun p => (fst p, i)) a (on uBORDER (negb (i =? 0)) u)
  end.

(** Attributes of a format just obtained from the workbook: bottom-aligned, locked, window
    text colour on window background, automatic border colour. *)
Definition default_attrs : xfattrs :=
  mkXA 0 0 true false 0 false 2 0 0 (0, 0) (0, 0) (0, 0) (0, 0) 0 64 65 0.

(** Arguments the file format can represent: palette indices below 128, 16-bit font and
    format indices; and colour names on which the library's table agrees with the names. *)
Definition name_agrees (c : Z) : Prop := c <= 41 \/ 56 <= c.
Definition fits (o : fmtop) : Prop :=
  match o with
  | FFont (Some i) => 0 <= i < 65536
  | FFormat (Some i) => 0 <= i < 65536
  | FXf (XFormatIdx i) => 0 <= i < 65536
  | FXf (XFormatNum v) => 0 <= v
  | FXf (XFgIdx i) | FXf (XBgIdx i) | FXf (XBColorIdx _ i) => 0 <= i < 128
  | FXf (XFg c) | FXf (XBg c) | FXf (XBColor _ c) => name_agrees c
  | _ => True
  end.
