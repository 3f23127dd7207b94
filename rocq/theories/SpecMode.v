(** What the mode of a format and its setters mean to a reader. *)
From Coq Require Import ZArith List Bool.
From Verif Require Import Bytes UnitModel RecModel XfModel SpecXf SpecXfOps ModeModel SpecBook ApiModel.
Import ListNotations.
Local Open Scope Z_scope.

Definition marked (u : Z) (a : xfattrs) : xfattrs :=
  mkXA (xa_font a) (xa_numfmt a) (xa_locked a) (xa_hidden a) (xa_halign a) (xa_wrap a) (xa_valign a)
       (xa_rotation a) (xa_indent a) (xa_left a) (xa_right a) (xa_top a) (xa_bottom a) (xa_pattern a)
       (xa_fore a) (xa_back a) u.
(** The groups of attributes (used-attribute bits) a setter gives a value other than the
    default. *)
Definition touches (o : fmtop) : Z := xa_used (spec_set o (marked 0 default_attrs)).
(** In style mode a setter clears the mark of its group, and a line style gets no colour of its
    own. *)
Definition style_set (o : fmtop) (a : xfattrs) : xfattrs :=
  let u := Z.ldiff (xa_used a) (touches o) in
  match o with
  | FXf (XBStyle side v) => on_side side (fun p => (v, snd p)) a u
  | _ => marked u (spec_set o a)
  end.
(** Attributes and mode after each call. *)
Definition mode_step (s : xfattrs * bool) (x : mset) : xfattrs * bool :=
  match x with
  | MMode b => (fst s, b)
  | MSet o => (if snd s then spec_set o (fst s) else style_set o (fst s), snd s)
  end.
Definition mode_run (l : list mset) (a : xfattrs) : xfattrs * bool := fold_left mode_step l (a, true).
Definition setters (l : list mset) : list fmtop := flat_map (fun x => match x with MSet o => [o] | _ => [] end) l.

(** The same but for the marks and the colours of lines. *)
Definition same_look (a b : xfattrs) : Prop :=
  xa_font a = xa_font b /\ xa_numfmt a = xa_numfmt b /\ xa_locked a = xa_locked b /\ xa_hidden a = xa_hidden b
  /\ xa_halign a = xa_halign b /\ xa_wrap a = xa_wrap b /\ xa_valign a = xa_valign b /\ xa_rotation a = xa_rotation b
  /\ xa_indent a = xa_indent b /\ fst (xa_left a) = fst (xa_left b) /\ fst (xa_right a) = fst (xa_right b)
  /\ fst (xa_top a) = fst (xa_top b) /\ fst (xa_bottom a) = fst (xa_bottom b) /\ xa_pattern a = xa_pattern b
  /\ xa_fore a = xa_fore b /\ xa_back a = xa_back b.

(** Whether a reader takes the attributes of group [g] from the format: cells mark what is
    theirs, styles mark what they leave alone. *)
Definition own (k : xfkind) (g : Z) (a : xfattrs) : bool :=
  match k with CellXf _ => negb (Z.land (xa_used a) g =? 0) | StyleXf => Z.land (xa_used a) g =? 0 end.

Definition mplain (p : list mcall) : list call := flat_map (fun x => match x with MCall q => [q] | _ => [] end) p.
(** Every group is the format's own exactly when one of its attributes was given a value other
    than the default. *)
Definition marks_right (l : list mset) : Prop :=
  forall g, In g [uNUM; uFONT; uTEXT; uBORDER; uAREA; uPROT] ->
    let s := mode_run l default_attrs in
    own (if snd s then CellXf 0 else StyleXf) g (fst s) = true <-> exists o, In (MSet o) l /\ touches o = g.
