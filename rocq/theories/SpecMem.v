(** What a program may do with the objects of a workbook, in terms of the calls it made and the
    pointers it got.  A pointer is the number of the object, counted in the order in which
    objects come into being; it is never used again.

    The calls are those of the public classes, reduced to what matters for the life of objects:
    which objects they are given and what they return. *)
From Coq Require Import ZArith List.
Import ListNotations.

(** What a cell holds: a value, a text longer than 255 characters, the root of a formula tree
    (with the flag saying whether the cell is to delete the tree), or a formula made with
    formula_data. *)
Inductive held := HPlain | HLong | HTree (root : nat) (auto : bool) | HStack (f : nat).

Inductive mcall :=
| MSheet                                                    (* workbook::sheet *)
| MFont | MFontDup (f : nat) | MFontSet (f : nat)           (* font(name), fontDup, font setters *)
| MFormat                                                   (* workbook::format *)
| MXf (f m : option nat) | MXfDup (x : nat)                 (* xformat(font, format), xfDup *)
| MXfSet (x : nat) (f m : option nat)                       (* a setter of a format object *)
| MColor (fits : bool)                                      (* setColor *)
| MProp (doc : bool) (key : Z)                              (* property *)
| MCell (s : nat) (row col : Z) (x : option nat) (h : held) (* label, number, formula, ... *)
| MNote (s : nat) (row col : Z) (x : option nat)            (* note *)
| MCellSet (c : nat) (f m : option nat) (own : bool) (same : nat) (* a setter of a cell *)
| MCellXf (c x : nat)                                       (* SetXF *)
| MMerge (s : nat) | MRange (s : nat)                       (* merge, rangegroup *)
| MCol (s : nat) (col : Z) (x : option nat)                 (* colwidth *)
| MRow (s : nat) (row : Z) (x : option nat)                 (* rowheight *)
| MStack (s : nat) | MPush (f : nat) (c : option nat)       (* formula_data, Push... *)
| MValid (s : nat) (conds : list nat)                       (* validate *)
| MLink (s c : nat)                                         (* hyperLink *)
| MFind (s : nat) (row col : Z)                             (* FindCell *)
| MNode (kids : list nat) | MArg (n k : nat)                (* formula nodes, PushArg *)
| MSave.                                                    (* Dump *)

(** What happened so far: the calls with the pointers they returned, oldest first. *)
Definition story := list (mcall * option nat).

Definition made_sheet (h : story) (p : nat) : Prop := In (MSheet, Some p) h.
Definition made_font (h : story) (p : nat) : Prop := In (MFont, Some p) h \/ exists f, In (MFontDup f, Some p) h.
Definition made_format (h : story) (p : nat) : Prop := In (MFormat, Some p) h.
Definition made_xf (h : story) (p : nat) : Prop := (exists f m, In (MXf f m, Some p) h) \/ exists x, In (MXfDup x, Some p) h.
Definition made_stack (h : story) (p : nat) : Prop := exists s, In (MStack s, Some p) h.
Definition made_node (h : story) (p : nat) : Prop := exists kids, In (MNode kids, Some p) h.

(** The place a call writes to: notes and cells are kept apart. *)
Definition place (c : mcall) : option (bool * nat * Z * Z) :=
  match c with
  | MCell s row col _ _ => Some (false, s, row, col)
  | MNote s row col _ => Some (true, s, row, col)
  | _ => None
  end.
(** [p] was returned for a cell or note, and nothing was written to its place since. *)
Definition standing (h : story) (p : nat) : Prop :=
  exists h1 c h2 pl, h = h1 ++ (c, Some p) :: h2 /\ place c = Some pl /\ Forall (fun e => place (fst e) <> Some pl) h2.

(** Node [k] was made a child of node [q]. *)
Definition gave (h : story) (q k : nat) : Prop :=
  (exists kids, In (MNode kids, Some q) h /\ In k kids) \/ exists a, In (MArg q k, a) h.
(** Node [p] is the root of a tree a cell was told to delete. *)
Definition entrusted (h : story) (p : nat) : Prop := exists s row col x a, In (MCell s row col x (HTree p true), a) h.
(** Node [p] is the root of a tree a cell uses and was told not to delete. *)
Definition lent (h : story) (p : nat) : Prop := exists s row col x a, In (MCell s row col x (HTree p false), a) h.
Definition given (h : story) (p : nat) : Prop := entrusted h p \/ exists q, gave h q p.
(** A node the program still has to itself. *)
Definition own (h : story) (p : nat) : Prop := made_node h p /\ ~ given h p /\ ~ lent h p.

Definition maybe (P : nat -> Prop) (o : option nat) : Prop := match o with Some p => P p | None => True end.

(** Proper use: objects are passed that were got from this workbook; cells that have been
    overwritten are not used any more; and a formula node is given away at most once. *)
Definition proper (h : story) (c : mcall) : Prop :=
  match c with
  | MSheet | MFont | MFormat | MColor _ | MProp _ _ | MSave => True
  | MFontDup f | MFontSet f => made_font h f
  | MXf f m => maybe (made_font h) f /\ maybe (made_format h) m
  | MXfDup x => made_xf h x
  | MXfSet x f m => made_xf h x /\ maybe (made_font h) f /\ maybe (made_format h) m
  | MCell s _ _ x w =>
      made_sheet h s /\ maybe (made_xf h) x
      /\ match w with
         | HPlain | HLong => True
         | HTree p true => own h p
         | HTree p false => made_node h p /\ ~ given h p
         | HStack f => made_stack h f
         end
  | MNote s _ _ x | MCol s _ x | MRow s _ x => made_sheet h s /\ maybe (made_xf h) x
  | MCellSet c f m _ _ => standing h c /\ maybe (made_font h) f /\ maybe (made_format h) m
  | MCellXf c x => standing h c /\ made_xf h x
  | MMerge s | MRange s | MStack s | MFind s _ _ => made_sheet h s
  | MPush f c => made_stack h f /\ maybe (standing h) c
  | MValid s conds => made_sheet h s /\ Forall (made_stack h) conds
  | MLink s c => made_sheet h s /\ standing h c
  | MNode kids => NoDup kids /\ Forall (own h) kids
  | MArg n k => made_node h n /\ ~ given h n /\ own h k /\ n <> k
  end.

(** The nodes that belong to the workbook: those of the trees that cells were told to delete. *)
Inductive belongs (h : story) : nat -> Prop :=
| belongs_root p : entrusted h p -> belongs h p
| belongs_kid q k : belongs h q -> gave h q k -> belongs h k.
