(** What a reader should find in a saved sheet beside its cells, in terms of the calls. *)
From Coq Require Import ZArith List Bool.
From Verif Require Import Bytes UnitModel RecModel SpecBuf SheetModel XfModel WbModel ApiModel SpecBiff SpecApi SpecSaved.
Import ListNotations.
Local Open Scope Z_scope.

(** A position is in use when it holds a cell or a note. *)
Definition used (k : nat) (calls : list call) (r c : Z) : Prop :=
  cells_of k calls r c <> None \/ note_of k calls r c <> None.
(** [d] is the smallest rectangle with all the positions in use, the last row and column
    being given one too large, as the format wants them. *)
Record bounding (u : Z -> Z -> Prop) (d : rdims) : Prop := {
  bx_in : forall r c, u r c -> rd_row0 d <= r < rd_row1 d /\ rd_col0 d <= c < rd_col1 d;
  bx_top : exists c, u (rd_row0 d) c;
  bx_bottom : exists c, u (rd_row1 d - 1) c;
  bx_left : exists r, u r (rd_col0 d);
  bx_right : exists r, u r (rd_col1 d - 1) }.

(** A merged range as the reader returns it. *)
Definition as_range (m : Z * Z * Z * Z) : rrange := let '(r1, c1, r2, c2) := m in mkRRg r1 r2 c1 c2.

(** The column record [x] says what was last set for its column, which is not hidden. *)
Definition column_says (k : nat) (calls : list call) (x : rcolinfo) : Prop :=
  rl_last x = rl_first x /\ exists w p, width_of k calls (rl_first x) = Some (w, p)
    /\ rl_width x = w /\ rl_xf x = given p mod 65536 /\ rl_options x = 0.

(** The k-th sheet begins at byte [pos] of the stream: what precedes splits into the globals
    and k sheets, and what follows starts with the substream of the k-th sheet. *)
Definition sheet_begins (stream : list Z) (k : nat) (pos : Z) : Prop :=
  exists a b la lb body,
    records (firstn (Z.to_nat pos) stream) = Some a /\ substreams (length a) a = Some la /\ length la = S k
    /\ records (skipn (Z.to_nat pos) stream) = Some b /\ substreams (length b) b = Some ((K_SHEET, body) :: lb)
    /\ sheet_in stream k body.

(** The colour of a palette index after [calls]: the one last set, or the library's default. *)
Definition colour_at (calls : list call) (i : Z) : Z * Z * Z :=
  match colour_of calls i with Some c => c | None => nth (Z.to_nat (i - 8)) default_palette (0, 0, 0) end.

(** The records of a sheet, cut after every DBCELL record: each group but the last is a row
    block. *)
Fixpoint row_groups (rs : list brec) : list (list brec) :=
  match rs with
  | [] => [[]]
  | r :: t =>
      if fst r =? T_DBCELL then [] :: row_groups t
      else match row_groups t with g :: gs => (r :: g) :: gs | [] => [] end
  end.
(** The j-th group is a row block and holds the row record [x]. *)
Definition row_in_block (body : list brec) (j : nat) (x : rrow) : Prop :=
  (S j < length (row_groups body))%nat
  /\ exists g p, nth_error (row_groups body) j = Some g /\ In (T_ROW, p) g /\ read_row p = Some x.
(** The j-th group holds a cell record of row [r]. *)
Definition cell_in_block (body : list brec) (j : nat) (r : Z) : Prop :=
  exists g t p, nth_error (row_groups body) j = Some g /\ In (t, p) g /\ is_cell t = true /\ fld 2 p 0 = Some r.

Definition has_cell (k : nat) (calls : list call) (r c : Z) : Prop := cells_of k calls r c <> None.
(** The row record [x] says what the calls said about its row: the span of its cells, the
    height last set (with the flag without which readers ignore it) and the format.
    It says that the format counts and that the row is neither hidden nor part of an outline.
    264 (13.2 points) is the height and 15 the format of a row for which none was set. *)
Record row_says (k : nat) (calls : list call) (x : rrow) : Prop := {
  ry_span : (exists c, has_cell k calls (rr_row x) c) ->
    has_cell k calls (rr_row x) (rr_col0 x) /\ has_cell k calls (rr_row x) (rr_col1 x - 1)
    /\ forall c, has_cell k calls (rr_row x) c -> rr_col0 x <= c < rr_col1 x;
  ry_height : rr_height x = match height_of k calls (rr_row x) with Some (h, _) => h | None => 264 end;
  ry_flag : rr_height x <> 264 -> Z.testbit (rr_flags x) 6 = true;
  ry_used : Z.testbit (rr_flags x) 7 = true;
  ry_shown : Z.land (rr_flags x) 55 = 0;
  ry_xf : rr_xf x = match height_of k calls (rr_row x) with Some (_, p) => given p mod 65536 | None => 15 end }.
(** The last cell is not alone in its row, or at most 16 rows are in use (rows with a height
    below the last cell do not count). *)
Definition tidy (k : nat) (calls : list call) : Prop :=
  (exists r c1 c2, c1 <> c2 /\ has_cell k calls r c1 /\ has_cell k calls r c2 /\ forall r' c, has_cell k calls r' c -> r' <= r)
  \/ (exists rows, (length rows <= 16)%nat /\ forall r,
        (exists c, has_cell k calls r c) \/ (height_of k calls r <> None /\ exists r' c, r <= r' /\ has_cell k calls r' c) -> In r rows).

(** Positions of the DBCELL records among records that start at byte [pos]. *)
Fixpoint dbcell_positions (pos : Z) (rs : list brec) : list Z :=
  match rs with
  | [] => []
  | (t, p) :: rest => (if t =? T_DBCELL then [pos] else []) ++ dbcell_positions (pos + 4 + zlen p) rest
  end.
(** Positions of the records of type [t] among records that start at byte [pos]. *)
Fixpoint record_positions (t pos : Z) (rs : list brec) : list Z :=
  match rs with
  | [] => []
  | (u, p) :: rest => (if u =? t then [pos] else []) ++ record_positions t (pos + 4 + zlen p) rest
  end.
(** Number of bytes of records, a header of four bytes included for each. *)
Fixpoint records_size (rs : list brec) : Z :=
  match rs with [] => 0 | (_, p) :: rest => 4 + zlen p + records_size rest end.
(** Number of bytes from the first ROW record of a group to its end. *)
Fixpoint from_first_row (rs : list brec) : option Z :=
  match rs with [] => None | (t, p) :: rest => if t =? T_ROW then Some (records_size rs) else from_first_row rest end.
(** Positions at which the cell records of another row than the one before begin; [pos] is
    where the records begin. *)
Fixpoint row_firsts (pos : Z) (last : option Z) (rs : list brec) : list Z :=
  match rs with
  | [] => []
  | (t, p) :: rest =>
      let next := pos + 4 + zlen p in
      if is_cell t then
        match fld 2 p 0, last with
        | Some r, Some r' => if r =? r' then row_firsts next last rest else pos :: row_firsts next (Some r) rest
        | r, _ => pos :: row_firsts next r rest
        end
      else row_firsts next last rest
  end.
Fixpoint steps (from : Z) (l : list Z) : list Z := match l with [] => [] | x :: t => (x - from) :: steps x t end.
(** The offsets the format wants after the first field of a DBCELL record, one for each row with cells
    in the block, which here begins with its first ROW record: the distance from the second
    ROW record to the first cell, then from each row's first cell to the next row's. *)
Definition wanted_offsets (block : list brec) : list Z := steps 20 (row_firsts 0 None block).
Fixpoint read_u16s (fuel : nat) (p : list Z) : option (list Z) :=
  match fuel, p with
  | _, [] => Some []
  | S f, _ => olet v := fld 2 p 0 in olet l := read_u16s f (skipn 2 p) in Some (v :: l)
  | O, _ => None
  end.
Definition read_offsets (p : list Z) : option (list Z) := read_u16s (length p) (skipn 4 p).
Fixpoint drop_to_row (rs : list brec) : list brec :=
  match rs with [] => [] | (t, p) :: rest => if t =? T_ROW then rs else drop_to_row rest end.
(** Cells of which the library knows the size of the record. *)
Definition plain_size (u : uval) : Prop :=
  match u with
  | ULabel t => text_len t <= 255
  | UFormula arr toks n est => arr = false /\ n = zlen toks /\ fe_str est = None
  | _ => True
  end.
(** The cells lie in at most 16 rows, rows with a height above the last cell have cells, and
    the sizes of the records are known. *)
Record one_block (k : nat) (calls : list call) : Prop := {
  ob_rows : exists rows, (length rows <= 16)%nat /\ forall r c, has_cell k calls r c -> In r rows;
  ob_heights : forall r, height_of k calls r <> None -> (exists c, has_cell k calls r c) \/ forall r' c, has_cell k calls r' c -> r' < r;
  ob_sizes : forall r c u, cells_of k calls r c = Some u -> plain_size u }.
