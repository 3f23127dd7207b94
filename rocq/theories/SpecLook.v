(** What a cell looks like to a BIFF8 reader: the attributes of its XF record, the FONT
    record and the number format these refer to.  Written from the file format. *)
From Coq Require Import ZArith List Bool.
From Verif Require Import Bytes UnitModel SpecBuf RecModel XfModel SheetModel WbModel ApiModel SpecBiff SpecXf SpecXfOps SpecApi.
Import ListNotations.
Local Open Scope Z_scope.

(* ------------------------------------------------------------------ *)
(** * Records *)

Record rfont := mkRFont {
  rf_height : Z;                        (* twips *)
  rf_attr : Z;                          (* 2 italic, 8 struck out, 16 outline, 32 shadow *)
  rf_colour : Z; rf_weight : Z; rf_script : Z; rf_underline : Z; rf_family : Z; rf_charset : Z;
  rf_name : list Z }.
Definition read_font (p : list Z) : option rfont :=
  olet h := fld 2 p 0 in olet a := fld 2 p 2 in olet c := fld 2 p 4 in olet b := fld 2 p 6 in
  olet s := fld 2 p 8 in olet u := fld 1 p 10 in olet f := fld 1 p 11 in olet k := fld 1 p 12 in
  olet n := whole_string 1 (skipn 14 p) in
  Some (mkRFont h a c b s u f k n).
(** FONT records are numbered from 0; the number 4 is not used. *)
Definition font_record (g : list brec) (i : Z) : option rfont :=
  if ((i <? 0) || (i =? 4))%bool then None
  else olet p := nth_error (payloads T_FONT g) (Z.to_nat (if i <? 4 then i else i - 1)) in read_font p.

(** FORMAT records carry their own number; a number without record is a built-in format. *)
Inductive numform := Builtin (i : Z) | Custom (text : list Z).
Definition read_format (p : list Z) : option (Z * list Z) :=
  olet i := fld 2 p 0 in olet s := whole_string 2 (skipn 2 p) in Some (i, s).
Definition number_format (g : list brec) (i : Z) : option numform :=
  olet l := traverse read_format (payloads T_FORMAT g) in
  Some (match find (fun x => fst x =? i) l with Some x => Custom (snd x) | None => Builtin i end).

Record look := mkLook { lk_attrs : xfattrs; lk_font : rfont; lk_number : numform }.
Definition look_of (g : list brec) (a : xfattrs) : option look :=
  olet f := font_record g (xa_font a) in olet n := number_format g (xa_numfmt a) in Some (mkLook a f n).
(** The look described by the [i]-th XF record. *)
Definition read_look (g : list brec) (i : Z) : option look :=
  if i <? 0 then None else
  olet p := nth_error (payloads T_XF g) (Z.to_nat i) in olet a := read_xf p in look_of g a.

(** The cell at (row, col) on sheet [k] of a saved stream. *)
Definition globals_of (stream : list Z) : option (list brec) :=
  match substream stream 0 with Some (_, g) => Some g | None => None end.
Definition cell_record (stream : list Z) (k : nat) (r c : Z) : option rcell :=
  olet g := globals_of stream in
  match substream stream (S k) with
  | Some (_, b) => olet sst := read_sst g in olet l := read_cells sst b in
                   find (fun x => ((rc_row x =? r) && (rc_col x =? c))%bool) l
  | None => None
  end.
Definition cell_look (stream : list Z) (k : nat) (r c : Z) : option look :=
  olet g := globals_of stream in olet x := cell_record stream k r c in read_look g (rc_xf x).

(** Format and font records are few enough to be referred to by 16-bit numbers. *)
Definition few_records (stream : list Z) : Prop :=
  exists g, globals_of stream = Some g /\ zlen (payloads T_XF g) <= 65000
    /\ zlen (payloads T_FONT g) <= 65000 /\ zlen (payloads T_FORMAT g) <= 65000.

(* ------------------------------------------------------------------ *)
(** * Setters *)

Definition weight_code (v : Z) : Z := nth (Z.to_nat v) [700; 550; 400; 800] 0.
Definition underline_code (v : Z) : Z := nth (Z.to_nat v) [0; 1; 2; 33; 34] 0.
Definition flag (m : Z) (b : bool) (a : Z) : Z := if b then Z.lor a m else Z.ldiff a m.
Definition spec_font (o : fontop) (f : rfont) : rfont :=
  let 'mkRFont h a c b s u fa k n := f in
  match o with
  | NName v => mkRFont h a c b s u fa k v
  | NHeight v => mkRFont v a c b s u fa k n
  | NBold v => mkRFont h a c (weight_code v) s u fa k n
  | NUnder v => mkRFont h a c b s (underline_code v) fa k n
  | NScript v => mkRFont h a c b v u fa k n
  | NColor v => mkRFont h a (palette_code v) b s u fa k n
  | NColorIdx v => mkRFont h a v b s u fa k n
  | NAttr v => mkRFont h v c b s u fa k n
  | NItalic v => mkRFont h (flag 2 v a) c b s u fa k n
  | NStrike v => mkRFont h (flag 8 v a) c b s u fa k n
  | NOutline v => mkRFont h (flag 16 v a) c b s u fa k n
  | NShadow v => mkRFont h (flag 32 v a) c b s u fa k n
  end.
(** Arguments a FONT record can hold. *)
Definition font_arg (o : fontop) : Prop :=
  match o with
  | NName s => zlen s < 256 /\ Forall (fun c => 0 <= c < 65536) s
  | NHeight v | NAttr v | NColorIdx v => 0 <= v < 65536
  | NColor c => name_agrees c
  | _ => True
  end.
(** The look of a cell after a setter, [g] being the records saved afterwards: the
    attribute asked for changes and nothing else.  A font setter refers the cell to a font
    record (of some number) that differs from the previous font in that attribute. *)
Definition with_font_index (j : Z) (a : xfattrs) : xfattrs := spec_set (FFont (Some j)) a.
Definition restyled (g : list brec) (o : cellop) (l : look) (l' : option look) : Prop :=
  match o with
  | CFormat o => l' = look_of g (spec_set o (lk_attrs l))
  | CFont o => exists j, l' = Some (mkLook (with_font_index j (lk_attrs l)) (spec_font o (lk_font l)) (lk_number l))
  | CSetXF (Some i) => l' = read_look g i
  | CSetXF None => l' = Some l
  end.

(** Arguments that fit the file format; format objects handed in were made by the user
    (the numbers below 21 belong to the library's own), and so were fonts (below 6). *)
Definition op_args (o : cellop) : Prop :=
  match o with
  | CFormat (FXf o) => fits (FXf o)
  | CFont o => font_arg o
  | CSetXF (Some p) => 21 <= p
  | _ => True
  end.
Definition args (q : call) : Prop :=
  match q with
  | KCell _ _ _ _ (Some p) | KColwidth _ _ _ (Some p) | KRowheight _ _ _ (Some p) => 21 <= p
  | KCellOp _ _ _ o | KRange _ _ _ _ _ o => op_args o
  | KXfSet p o => 21 <= p /\ op_args (CFormat o)
  | KFontSet i o => 6 <= i /\ font_arg o
  | KFont n => font_arg (NName n)
  | KFormat t => text_typed t
  | _ => True
  end.

(* ------------------------------------------------------------------ *)
(** * Careful histories

    The library shares fonts between format objects and decides by usage counters whether a
    font may be changed in place.  The counters are right as long as format objects that
    carry a font are given to cells while they are new or still shown by some cell. *)

(** The call gives the format object [p] to a cell, a column or a row. *)
Definition hands (q : call) (p : Z) : Prop :=
  match q with
  | KCell _ _ _ _ o | KColwidth _ _ _ o | KRowheight _ _ _ o
  | KCellOp _ _ _ (CSetXF o) | KRange _ _ _ _ _ (CSetXF o) => o = Some p
  | _ => False
  end.
(** The format object [p] was returned by xformat with the font argument [f]; [since] are
    the calls made since then. *)
Definition made (calls : list call) (f : option (option Z)) (p : Z) (since : list call) : Prop :=
  exists earlier m w fs, calls = earlier ++ KXformat f m :: since
    /\ document earlier = Ok w /\ wb_xformat (wb_fs w) f m = Ok (fs, p).
Definition fresh (calls : list call) (p : Z) : Prop :=
  (exists f since, made calls f p since) /\ Forall (fun q => ~ hands q p) calls.
Definition shown (calls : list call) (p : Z) : Prop := exists k r c, fmt_of k calls r c = Known p.
Definition without_font (calls : list call) (p : Z) : Prop :=
  exists f since, made calls f p since /\ (f = None \/ f = Some None) /\ Forall (fun q => forall i, q <> KXfSet p (FFont (Some i))) since.
(** No cell setter has run since [p] was made, and it was not given away. *)
Definition untouched (calls : list call) (p : Z) : Prop :=
  exists f since, made calls f p since
    /\ Forall (fun q => ~ hands q p /\ match q with KCellOp _ _ _ _ | KRange _ _ _ _ _ _ => False | _ => True end) since.

Definition careful_call (calls : list call) (q : call) : Prop :=
  match q with
  | KCell _ _ _ _ (Some p) | KColwidth _ _ _ (Some p) | KCellOp _ _ _ (CSetXF (Some p)) =>
      fresh calls p \/ shown calls p \/ without_font calls p
  | KRange _ _ _ _ _ (CSetXF (Some p)) => without_font calls p
  | KRowheight _ _ _ o => o = None
  | KXfSet p (FFont _) => shown calls p \/ untouched calls p
  | _ => True
  end.
Definition careful (calls : list call) : Prop :=
  forall earlier q later, calls = earlier ++ q :: later -> careful_call earlier q.
(** Font setters are only covered in careful histories, all other setters in every one. *)
Definition covered (calls : list call) (o : cellop) : Prop :=
  match o with CFont _ => careful calls /\ Forall args calls | _ => True end.

(* ------------------------------------------------------------------ *)
(** * What creation calls return *)

(** The call [q], made after [calls], returns the object with number [h]. *)
Definition returns (calls : list call) (q : call) (h : Z) : Prop :=
  exists w, document calls = Ok w /\
  match q with
  | KFont n => snd (wb_font (wb_fs w) n) = h
  | KFontNum n => exists fs, wb_fontnum (wb_fs w) n = Ok (fs, h)
  | KFormat t => snd (add_format (wb_fs w) (to16 t)) = h
  | KXformat f m => exists fs, wb_xformat (wb_fs w) f m = Ok (fs, h)
  | _ => False
  end.
Inductive kind := AFont | ANumberFormat | ACellFormat.
Definition kind_of (q : call) : option kind :=
  match q with
  | KFont _ | KFontNum _ => Some AFont
  | KFormat _ => Some ANumberFormat
  | KXformat _ _ => Some ACellFormat
  | _ => None
  end.
(** What the user made of an object: its state when new, changed by the setters called on
    it since. *)
Definition new_font (name : list Z) : rfont := mkRFont 200 0 32767 400 0 0 0 1 name.
Definition stock_font (n : Z) : rfont :=
  mkRFont 200 (nth (Z.to_nat n) [0; 1; 2; 3; 0] 0) 0 (nth (Z.to_nat n) [400; 700; 400; 700; 400] 0) 0 0 0 1 [86; 101; 114; 100; 97; 110; 97].
Definition font_made (q : call) : option rfont :=
  match q with KFont n => Some (new_font n) | KFontNum n => Some (stock_font n) | _ => None end.
Definition font_since (h : Z) (later : list call) (f : rfont) : rfont :=
  fold_left (fun f q => match q with KFontSet i o => if i =? h then spec_font o f else f | _ => f end) later f.
Definition attrs_made (f m : option (option Z)) : xfattrs :=
  let a := match f with Some x => spec_set (FFont x) default_attrs | None => default_attrs end in
  match m with Some x => spec_set (FFormat x) a | None => a end.
Definition attrs_since (h : Z) (later : list call) (a : xfattrs) : xfattrs :=
  fold_left (fun a q => match q with KXfSet i o => if i =? h then spec_set o a else a | _ => a end) later a.
