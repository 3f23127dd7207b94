(** What a history of calls means to the user.  Only the call type (ApiModel.call) is taken
    from the model; every meaning below is read off the list of calls. *)
From Coq Require Import ZArith List Bool.
From Verif Require Import Bytes UnitModel RecModel SheetModel XfModel ApiModel.
Import ListNotations.
Local Open Scope Z_scope.

(** Arguments within the range of their C++ types: rows and columns are unsigned32_t,
    text units unsigned16_t, widths and heights unsigned16_t, doubles 64-bit patterns. *)
Definition u8 (x : Z) : Prop := 0 <= x < 256.
Definition u16 (x : Z) : Prop := 0 <= x < 65536.
Definition u32 (x : Z) : Prop := 0 <= x < 4294967296.
Definition text_typed (t : text) : Prop :=
  match t with TChar b => Forall u8 b | TWide w => Forall u32 w | T16 u => Forall u16 u end.
Definition val_typed (v : uval) : Prop :=
  match v with
  | UInt n => -2147483648 <= n < 2147483648
  | UUnsigned n => u32 n
  | UDouble b => 0 <= b < 18446744073709551616
  | UErr e => u8 e
  | ULabel t => text_typed t
  | UFormula _ toks _ e =>
      Forall u8 toks /\ 0 <= fe_enc e < 18446744073709551616 /\ u16 (fe_flags e)
      /\ match fe_str e with Some s => Forall u16 s | None => True end
  | _ => True
  end.
Definition dv_typed (d : dvalid) : Prop :=
  u16 (rg_fr (dv_range d)) /\ u16 (rg_lr (dv_range d)) /\ u16 (rg_fc (dv_range d)) /\ u16 (rg_lc (dv_range d))
  /\ u32 (dv_options d)
  /\ (forall t, dv_cond1 d = Some t -> Forall u8 t) /\ (forall t, dv_cond2 d = Some t -> Forall u8 t)
  /\ Forall u16 (dv_ptitle d) /\ Forall u16 (dv_ptext d) /\ Forall u16 (dv_etitle d) /\ Forall u16 (dv_etext d).
Definition typed (c : call) : Prop :=
  match c with
  | KSheet n => text_typed n
  | KCell _ r c v _ => u32 r /\ u32 c /\ val_typed v
  | KNote _ r c a t => u32 r /\ u32 c /\ text_typed a /\ text_typed t
  | KRange _ r1 c1 r2 c2 _ => u32 r1 /\ u32 c1 /\ u32 r2 /\ u32 c2
  | KMerge _ r1 c1 r2 c2 => u32 r1 /\ u32 c1 /\ u32 r2 /\ u32 c2
  | KColwidth _ c w _ => u32 c /\ u16 w
  | KRowheight _ r h _ => u32 r /\ u16 h
  | KHyperlink _ r c u m => u32 r /\ u32 c /\ text_typed u /\ text_typed m
  | KValidate _ d => dv_typed d
  | KSetColor r g b i => u8 r /\ u8 g /\ u8 b /\ u8 i
  | _ => True
  end.

Definition inside (a b x : Z) : bool := ((a <=? x) && (x <=? b))%bool.

(** The content of the positions of sheet [k] after one more call. *)
Definition cells_step (k : nat) (m : Z -> Z -> option uval) (q : call) (r c : Z) : option uval :=
  match q with
  | KCell k' r' c' v _ =>
      if (Nat.eqb k k' && (r =? r') && (c =? c'))%bool then Some v else m r c
  | KRange k' r1 c1 r2 c2 _ =>
      if (Nat.eqb k k' && inside r1 r2 r && inside c1 c2 c)%bool
      then match m r c with None => Some UBlank | o => o end
      else m r c
  | _ => m r c
  end.
Definition no_cells (r c : Z) : option uval := None.
Definition cells_of (k : nat) (calls : list call) : Z -> Z -> option uval :=
  fold_left (cells_step k) calls no_cells.

(** Names of the sheets, in order of creation. *)
Definition names_step (q : call) : list text := match q with KSheet n => [n] | _ => [] end.
Definition sheet_names (calls : list call) : list text := flat_map names_step calls.

(** The ranges merged on sheet [k], as (first row, first column, last row, last column). *)
Definition merges_step (k : nat) (q : call) : list (Z * Z * Z * Z) :=
  match q with
  | KMerge k' r1 c1 r2 c2 => if Nat.eqb k k' then [(r1, c1, r2, c2)] else []
  | _ => []
  end.
Definition merges_of (k : nat) (calls : list call) : list (Z * Z * Z * Z) := flat_map (merges_step k) calls.

(** Width and format last set for a column, height and format last set for a row. *)
Definition width_step (k : nat) (col : Z) (o : option (Z * option Z)) (q : call) : option (Z * option Z) :=
  match q with
  | KColwidth k' c w p => if (Nat.eqb k k' && (c =? col))%bool then Some (w, p) else o
  | _ => o
  end.
Definition width_of (k : nat) (calls : list call) (col : Z) := fold_left (width_step k col) calls None.
Definition height_step (k : nat) (row : Z) (o : option (Z * option Z)) (q : call) : option (Z * option Z) :=
  match q with
  | KRowheight k' r h p => if (Nat.eqb k k' && (r =? row))%bool then Some (h, p) else o
  | _ => o
  end.
Definition height_of (k : nat) (calls : list call) (row : Z) := fold_left (height_step k row) calls None.

(** Author and text of the note last put at a position. *)
Definition note_step (k : nat) (r c : Z) (o : option (text * text)) (q : call) : option (text * text) :=
  match q with
  | KNote k' r' c' a t => if (Nat.eqb k k' && (r' =? r) && (c' =? c))%bool then Some (a, t) else o
  | _ => o
  end.
Definition note_of (k : nat) (calls : list call) (r c : Z) := fold_left (note_step k r c) calls None.

(** Hyperlinks and data validations, in order. *)
Definition links_step (k : nat) (q : call) : list (Z * Z * text * text) :=
  match q with
  | KHyperlink k' r c u m => if Nat.eqb k k' then [(r, c, u, m)] else []
  | _ => []
  end.
Definition links_of (k : nat) (calls : list call) := flat_map (links_step k) calls.
Definition dvs_step (k : nat) (q : call) : list dvalid :=
  match q with KValidate k' d => if Nat.eqb k k' then [d] else [] | _ => [] end.
Definition dvs_of (k : nat) (calls : list call) := flat_map (dvs_step k) calls.

(** The colour last set for a palette index by a call the library accepts (8..63). *)
Definition colour_step (i : Z) (o : option (Z * Z * Z)) (q : call) : option (Z * Z * Z) :=
  match q with
  | KSetColor r g b j => if ((j =? i) && inside 8 63 j)%bool then Some (r, g, b) else o
  | _ => o
  end.
Definition colour_of (calls : list call) (i : Z) := fold_left (colour_step i) calls None.

(** The format of a cell, as the index of the format object the user assigned last: when the
    cell was made (15, the default cell format, if none was given) or with SetXF
    (SetXF(NULL) does nothing).  [Known]
    only as long as no formatting call has been made on the cell since. *)
Inductive fmt_state := NoCell | Known (i : Z) | Derived.
Definition given (p : option Z) : Z := match p with Some i => i | None => 15 end.
Definition after_op (o : cellop) (f : fmt_state) : fmt_state :=
  match o, f with
  | _, NoCell => NoCell
  | CSetXF (Some i), _ => Known i
  | CSetXF None, _ => f
  | _, _ => Derived
  end.
Definition fmt_step (k : nat) (r c : Z) (f : fmt_state) (q : call) : fmt_state :=
  match q with
  | KCell k' r' c' _ p => if (Nat.eqb k k' && (r =? r') && (c =? c'))%bool then Known (given p) else f
  | KCellOp k' r' c' o => if (Nat.eqb k k' && (r =? r') && (c =? c'))%bool then after_op o f else f
  | KRange k' r1 c1 r2 c2 o =>
      if (Nat.eqb k k' && inside r1 r2 r && inside c1 c2 c)%bool
      then after_op o (match f with NoCell => Known 15 | _ => f end) else f
  | _ => f
  end.
Definition fmt_of (k : nat) (calls : list call) (r c : Z) : fmt_state := fold_left (fmt_step k r c) calls NoCell.
