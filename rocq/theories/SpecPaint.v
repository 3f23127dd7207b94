(** Histories with range::cellcolor and range::boxer, and what these two should do to a
    cell's attributes.  Written from the API documentation and the BIFF8 codes. *)
From Coq Require Import ZArith List Bool.
From Verif Require Import Bytes UnitModel SpecBuf RecModel SheetModel XfModel WbModel ApiModel RangeModel SpecXf SpecXfOps SpecApi SpecBiff SpecSaved SpecLook.
Import ListNotations.
Local Open Scope Z_scope.
Local Notation fits := SpecSaved.fits.

(** The rectangle painted. *)
Definition paints (x : xcall) (k : nat) (r1 c1 r2 c2 : Z) : Prop :=
  (exists color, x = XColor k r1 c1 r2 c2 color) \/ exists style fill bcolor fg bg, x = XBox k r1 c1 r2 c2 style fill bcolor fg bg.
(** An ordinary call on the same positions: for types, limits and contents the two paints
    count like any setter on the range. *)
Definition shape (x : xcall) : call :=
  match x with
  | XCall q => q
  | XColor k r1 c1 r2 c2 color => KRange k r1 c1 r2 c2 (CFormat (FXf (XFill 1)))
  | XBox k r1 c1 r2 c2 _ fill _ _ _ => KRange k r1 c1 r2 c2 (CFormat (FXf (XFill fill)))
  end.
Definition xargs (x : xcall) : Prop :=
  match x with
  | XCall q => args q
  | XColor _ _ _ _ _ color => name_agrees color
  | XBox _ _ _ _ _ _ _ bcolor fg bg => name_agrees bcolor /\ name_agrees fg /\ name_agrees bg
  end.

(** [saved] and [saved_ok] for these histories. *)
Definition xsaved (moves : Z -> nat -> bool) (xs : list xcall) (stream : list Z) : Prop :=
  exists w after, x_document xs = Ok w /\ exists fuel units,
    book_units fuel moves (wb_book w) = Some (Ok (units, after)) /\ stream = concat units.
Record xsaved_ok (R : Z) (moves : Z -> nat -> bool) (xs : list xcall) (stream : list Z) : Prop := {
  xo_rows : 0 <= R <= 65535;
  xo_typed : Forall typed (map shape xs);
  xo_fits : fits R (map shape xs);
  xo_calm : R <= 32819 \/ forall e n, moves e n = false;
  xo_saved : xsaved moves xs stream }.

(** Two histories leave the same document, formats apart. *)
Record same_facts (a b : list call) : Prop := {
  sf_names : sheet_names a = sheet_names b;
  sf_cells : forall k r c, cells_of k a r c = cells_of k b r c;
  sf_merges : forall k, merges_of k a = merges_of k b;
  sf_width : forall k c, width_of k a c = width_of k b c;
  sf_height : forall k r, height_of k a r = height_of k b r;
  sf_note : forall k r c, note_of k a r c = note_of k b r c;
  sf_links : forall k, links_of k a = links_of k b;
  sf_dvs : forall k, dvs_of k a = dvs_of k b;
  sf_colour : forall i, colour_of a i = colour_of b i;
  sf_long : filter long_label a = filter long_label b }.

(** Solid fill in one colour; everything else stays. *)
Definition coloured (color : Z) (a : xfattrs) : xfattrs :=
  mkXA (xa_font a) (xa_numfmt a) (xa_locked a) (xa_hidden a) (xa_halign a) (xa_wrap a) (xa_valign a) (xa_rotation a) (xa_indent a)
       (xa_left a) (xa_right a) (xa_top a) (xa_bottom a) 1 (palette_code color) (xa_back a) (Z.lor (xa_used a) uAREA).
(** Lines on the named sides, a fill pattern and fill colours; everything else stays.
    [area] tells whether the area attributes count as used. *)
Definition boxed (top bottom left right : bool) (style bcolor fill fore back : Z) (area : bool) (a : xfattrs) : xfattrs :=
  let line b p := if b : bool then (style, palette_code bcolor) else p in
  mkXA (xa_font a) (xa_numfmt a) (xa_locked a) (xa_hidden a) (xa_halign a) (xa_wrap a) (xa_valign a) (xa_rotation a) (xa_indent a)
       (line left (xa_left a)) (line right (xa_right a)) (line top (xa_top a)) (line bottom (xa_bottom a))
       (fill_code fill) fore back
       (on uAREA area (on uBORDER ((top || bottom || left || right) && (negb (style =? 0) || negb (palette_code bcolor =? 0))) (xa_used a))).
(** The look [l'] differs from [l] in the attributes only, which are [a]. *)
Definition reattributed (l : look) (a : xfattrs) (l' : option look) : Prop := l' = Some (mkLook a (lk_font l) (lk_number l)).
