(** What a program asks about the looks of its notes, and how a reader finds the fill colour
    and the place of a note in the drawing of a sheet (MS-ODRAW: the property table of a shape,
    OfficeArtCOLORREF, and the client anchor of MS-XLS).  Works on bytes and calls only. *)
From Coq Require Import ZArith List Bool.
From Verif Require Import Bytes UnitModel RecModel ApiModel WbModel NoteModel SpecBiff SpecObj SpecApi SpecSaved.
Import ListNotations.
Local Open Scope Z_scope.

(** * Asked for *)

(** A colour of the system's scheme or one made of red, green and blue. *)
Inductive colour := Scheme (i : Z) | RGB (red green blue : Z).
Definition same_place (k k' : nat) (r r' c c' : Z) : bool := (Nat.eqb k k' && (r =? r') && (c =? c'))%bool.
(** A new note has the colour 80 of the scheme (that of tool tips); writing a note again makes
    a new one. *)
Definition fill_step (k : nat) (r c : Z) (now : colour) (x : ncall) : colour :=
  match x with
  | NCall (KNote k' r' c' _ _) => if same_place k k' r r' c c' then Scheme 80 else now
  | NFill k' r' c' red green blue => if same_place k k' r r' c c' then RGB red green blue else now
  | _ => now
  end.
Definition fill_of (k : nat) (p : list ncall) (r c : Z) : colour := fold_left (fill_step k r c) p (Scheme 80).
(** The place last given to the note, if any was. *)
Definition place_step (k : nat) (r c : Z) (now : option noterec) (x : ncall) : option noterec :=
  match x with
  | NCall (KNote k' r' c' _ _) => if same_place k k' r r' c c' then None else now
  | NRect k' r' c' rect => if same_place k k' r r' c c' then Some rect else now
  | _ => now
  end.
Definition place_of (k : nat) (p : list ncall) (r c : Z) : option noterec := fold_left (place_step k r c) p None.

(** The program without the calls that only change looks. *)
Definition plain (p : list ncall) : list call := flat_map (fun x => match x with NCall q => [q] | _ => [] end) p.
(** Every such call goes to a note that is there. *)
Definition proper_step (before : list ncall) (x : ncall) : Prop :=
  match x with
  | NCall _ => True
  | NFill k r c _ _ _ | NRect k r c _ => note_of k (plain before) r c <> None
  end.
Definition proper_notes (p : list ncall) : Prop := forall a x b, p = a ++ x :: b -> proper_step a x.
(** The arguments are of their C++ types. *)
Definition look_typed (x : ncall) : Prop :=
  match x with
  | NCall q => typed q
  | NFill _ _ _ red green blue => 0 <= red < 256 /\ 0 <= green < 256 /\ 0 <= blue < 256
  | NRect _ _ _ r =>
      Forall (fun v => 0 <= v < 65536)
        [nr_flag r; nr_col1 r; nr_dx1 r; nr_row1 r; nr_dy1 r; nr_col2 r; nr_dx2 r; nr_row2 r; nr_dy2 r]
  end.

(** * Read back *)

(** The first [n] entries of a property table, each an identifier (its low 14 bits) and a
    32-bit value. *)
Fixpoint properties (n : nat) (p : list Z) : option (list (Z * Z)) :=
  match n with
  | O => Some []
  | S m => olet (id, p) := take_num 2 p in
           olet (v, p) := take_num 4 p in
           olet l := properties m p in
           Some ((id mod 16384, v) :: l)
  end.
Definition OPTIONS := 61451.
Definition FILL_COLOR := 385.
Definition read_colour (v : Z) : option colour :=
  let flags := v / 16777216 in
  if flags =? 0 then Some (RGB (v mod 256) (v / 256 mod 256) (v / 65536 mod 256))
  else if flags =? 8 then Some (Scheme (v mod 16777216))
  else None.
(** The fill colour of a shape: the value of its one property of that name. *)
Definition shape_fill (x : node) : option colour :=
  match x with
  | Box _ t kids =>
      if t =? SP_CONTAINER then
        match filter (fun y => match y with Atom _ _ t _ => t =? OPTIONS | _ => false end) kids with
        | [Atom _ n _ d] =>
            olet l := properties (Z.to_nat n) d in
            match filter (fun e => fst e =? FILL_COLOR) l with
            | [(_, v)] => read_colour v
            | _ => None
            end
        | _ => None
        end
      else None
  | _ => None
  end.
(** The place of a shape: flags, left column and offset, top row and offset, right column and
    offset, bottom row and offset. *)
Definition shape_place (x : node) : option (list Z) :=
  match x with
  | Box _ t kids =>
      if t =? SP_CONTAINER then
        match filter (fun y => match y with Atom _ _ t _ => t =? ANCHOR | _ => false end) kids with
        | [Atom _ _ _ d] => if zlen d =? 18 then traverse (fun i => fld 2 d (2 * i)%nat) (seq 0 9) else None
        | _ => None
        end
      else None
  | _ => None
  end.
Definition place_numbers (r : noterec) : list Z :=
  [nr_flag r; nr_col1 r; nr_dx1 r; nr_row1 r; nr_dy1 r; nr_col2 r; nr_dx2 r; nr_row2 r; nr_dy2 r].

(** One shape shows the look the program asked for. *)
Definition shows (k : nat) (p : list ncall) (n : rnote) (x : node) : Prop :=
  shape_fill x = Some (fill_of k p (rn_row n) (rn_col n))
  /\ match place_of k p (rn_row n) (rn_col n) with
     | Some rect => shape_place x = Some (place_numbers rect)
     | None => shape_cell x = Some (rn_row n, rn_col n + 1)
     end.
(** The drawing of a sheet with the notes [ns], in their order. *)
Definition looks_drawn (k : nat) (p : list ncall) (ns : list rnote) (tree : list node) : Prop :=
  match ns with
  | [] => tree = []
  | _ => exists info first shapes,
      tree = [Box 0 DG_CONTAINER [Atom 0 1 DG info; Box 0 SPGR_CONTAINER (first :: shapes)]]
      /\ Forall2 (shows k p) ns shapes
  end.

(** Two records that differ at most in the drawing, and there not in length. *)
Definition but_drawing (a b : brec) : Prop :=
  fst a = fst b /\ zlen (snd a) = zlen (snd b) /\ (fst a <> T_MSODRAWING -> snd a = snd b).

(** A program of such calls saved as [stream], under the hypotheses of [saved_ok] about its
    plain calls. *)
Record nsaved_ok (R : Z) (moves : Z -> nat -> bool) (p : list ncall) (stream : list Z) : Prop := {
  ns_rows : 0 <= R <= 65535;
  ns_typed : Forall look_typed p;
  ns_fits : fits R (plain p);
  ns_calm : R <= 32819 \/ forall e n, moves e n = false;
  ns_saved : exists w after, ndocument p = Ok w /\ exists fuel units,
    book_units fuel moves (wb_book w) = Some (Ok (units, after)) /\ stream = concat units }.
