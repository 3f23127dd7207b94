(** worksheet: cell store, row-block sizes, and the two dump state machines
    (sheetrec.cpp).  File names are relative to /repo/xlslib/src/xlslib. *)
From Coq Require Import ZArith List Bool.
From Verif Require Import Bytes UnitModel RecModel.
Import ListNotations.
Local Open Scope Z_scope.

(** 32-bit wrap. *)
Definition w32 (v : Z) : Z := v mod 4294967296.

(* ------------------------------------------------------------------ *)
(** * Units handed to the workbook *)

(** What a constructor leaves behind: its bytes and the "already continued" flag
    (record.h).  Back-patch levels are not represented: they decide when wrapper
    objects are freed, not which bytes are stored. *)
Record bunit := mkBU { bu_bytes : list Z; bu_cont : bool }.

(** Run a constructor (UnitModel.arun_ops); an assertion failure is [Throw]. *)
Definition build (ops : list uop) : res bunit :=
  match arun_ops None ops with
  | Ok (_, Some l) => Ok (mkBU l false)
  | Ok (_, None) => Throw
  | Throw => Throw
  | UB => UB
  end.

Definition bu_size (u : bunit) : Z := zlen (bu_bytes u).

(* ------------------------------------------------------------------ *)
(** * Cells *)

(** The concrete cell classes: blank_t, boolean_t, err_t, number_t (integer or double
    bit pattern, number.h), label_t (identified by [id], the object's address),
    formula_cell_t ([fsize] is what the expression's GetSize() reports). *)
Inductive cval :=
| VBlank
| VBool (b : bool)
| VErr (e : Z)
| VInt (n : Z)
| VDouble (bits : Z)
| VLabel (id : Z) (s : list Z)
| VFormula (arr : bool) (toks : list Z) (fsize : Z) (est : estimate).

(** cell.h: row, col (unsigned32_t), pxf (through its index, immutable once assigned). *)
Record cell := mkCell { c_row : Z; c_col : Z; c_xf : Z; c_val : cval }.

(** label.cpp 46-95: a label longer than 255 units goes to the shared string table. *)
Definition in_sst (s : list Z) : bool := 255 <? zlen s.

(** GetSize() of each class: blank.h 53, boolean.h 51, err.h, number.cpp 92-101,
    label.cpp 97-108, formula_cell.cpp 102-126. *)
Definition cell_size (c : cell) : Z :=
  match c_val c with
  | VBlank => 10
  | VBool _ => 12
  | VErr _ => 12
  | VInt _ => 14
  | VDouble _ => 18
  | VLabel _ s =>
      if in_sst s then 12 else 10 + 3 + zlen s * (if is_ascii s then 1 else 2)
  | VFormula _ _ fsize e =>
      26 + fsize + match fe_str e with
                   | None => 0
                   | Some s => 4 + zlen s * (if is_ascii s then 1 else 2)
                   end
  end.

(** The shared string vector m_Labels: label objects (identity and text) in insertion
    order. *)
Notation labels := (list (Z * list Z)).

(** globalrec.cpp 677-689 GetLabelSSTIndex: position of the object, assertion failure
    when it is missing. *)
Fixpoint label_index (ls : labels) (id : Z) (k : Z) : res Z :=
  match ls with
  | [] => Throw
  | (i, _) :: t => if i =? id then Ok k else label_index t id (k + 1)
  end.

(** GetData of each class. *)
Definition cell_ops (ls : labels) (c : cell) : res (list uop) :=
  let r := c_row c in let k := c_col c in let x := c_xf c in
  match c_val c with
  | VBlank => Ok (rec_blank r k x)
  | VBool b => Ok (rec_boolean r k x b)
  | VErr e => Ok (rec_err r k x e)
  | VInt n => Ok (rec_rk r k x n)
  | VDouble bits => Ok (rec_number r k x bits)
  | VLabel id s =>
      if in_sst s then let* i := label_index ls id 0 in Ok (rec_labelsst r k x i)
      else Ok (rec_label r k x s)
  | VFormula arr toks _ e =>
      (* formula_cell.cpp 207: XL_ASSERT(strlen < 256) *)
      match fe_str e with
      | Some s => let* _ := xl_assert (zlen s <? 256) in Ok (rec_formula r k x arr toks e)
      | None => Ok (rec_formula r k x arr toks e)
      end
  end.
Definition cell_unit (ls : labels) (c : cell) : res bunit :=
  let* ops := cell_ops ls c in build ops.

(* ------------------------------------------------------------------ *)
(** * Row-block sizes *)

(** sheetrec.h 81-119 rowblocksize_t. *)
Record rbsize := mkRB {
  rb_rc : Z; rb_db : Z; rb_rows : Z; rb_cells : Z;
  rb_fc : Z; rb_lc : Z; rb_fr : Z; rb_lr : Z }.
Definition rb_new := mkRB 0 0 0 0 4294967295 0 4294967295 0.

(** sheetrec.cpp 56-60, 224; row.h 54; rectypes.h 54-58. *)
Definition MAX_ROWBLOCK := 16.
Definition ROW_SIZE := 20.

Definition rb_row (rb : rbsize) (r : Z) : rbsize :=
  mkRB (rb_rc rb) (rb_db rb) (rb_rows rb) (rb_cells rb) (rb_fc rb) (rb_lc rb)
       (Z.min (rb_fr rb) r) (Z.max (rb_lr rb) r).
Definition rb_cell (rb : rbsize) (c : cell) : rbsize :=
  mkRB (rb_rc rb + cell_size c) (rb_db rb) (rb_rows rb) (rb_cells rb)
       (Z.min (rb_fc rb) (c_col c)) (Z.max (rb_lc rb) (c_col c)) (rb_fr rb) (rb_lr rb).

(** The loop of GetRowBlockSizes, sheetrec.cpp 1098-1127: remaining cells, row counter,
    cell counter, accumulated sizes. *)
Fixpoint size_scan (cells : list cell) (row rows ncells : Z) (rb : rbsize) :
  list cell * Z * Z * rbsize :=
  match cells with
  | [] => ([], rows, ncells, rb)
  | c :: t =>
      if c_row c =? row then size_scan t row rows (ncells + 1) (rb_cell rb c)
      else if MAX_ROWBLOCK <=? rows then (cells, rows, ncells, rb)
      else size_scan t (c_row c) (rows + 1) (ncells + 1) (rb_cell (rb_row rb (c_row c)) c)
  end.

(** Members used by the size computation: m_SizesCalculated, m_RBSizes,
    m_Current_RBSize, m_CurrentSizeCell (iterators as the remaining elements). *)
Record rbcache := mkCache {
  ch_calc : bool; ch_sizes : list rbsize; ch_cur : list rbsize; ch_cell : list cell }.

(** sheetrec.cpp 1066-1182 GetRowBlockSizes(rbsize), called with [rb] freshly
    constructed at both call sites. *)
Definition get_rbsize (cells : list cell) (ch : rbcache) : res (bool * rbsize * rbcache) :=
  let rb := rb_new in
  if negb (ch_calc ch) then
    match cells with
    | [] => Ok (false, rb, ch)
    | _ =>
        match ch_cell ch with
        | [] => UB                      (* *m_CurrentSizeCell at end() *)
        | c :: _ =>
            let '(rest, rows, n, rb1) :=
              size_scan (ch_cell ch) (c_row c) 1 0 (rb_row rb (c_row c)) in
            let payload := 2 * n in
            let over := if MAX_RECORD_SIZE <? payload
                        then ((payload + MAX_RECORD_SIZE - 1) / MAX_RECORD_SIZE - 1) * 4 else 0 in
            let rb2 := mkRB (rb_rc rb1 + ROW_SIZE * rows) (8 + payload + over)
                            (rb_rows rb1 + rows) (rb_cells rb1 + n)
                            (rb_fc rb1) (rb_lc rb1) (rb_fr rb1) (rb_lr rb1) in
            let sizes := ch_sizes ch ++ [rb2] in
            match rest with
            | [] => Ok (false, rb2, mkCache true sizes sizes cells)
            | _ => Ok (true, rb2, mkCache false sizes (ch_cur ch) rest)
            end
        end
    end
  else
    match ch_cur ch with
    | [] => UB                          (* *m_Current_RBSize at end() *)
    | rb :: t =>
        match t with
        | [] => Ok (false, rb, mkCache true (ch_sizes ch) (ch_sizes ch) (ch_cell ch))
        | _ => Ok (true, rb, mkCache true (ch_sizes ch) t (ch_cell ch))
        end
    end.

(** Accumulation of sheetrec.cpp 1264-1279. *)
Definition rb_merge (a b : rbsize) : rbsize :=
  mkRB (rb_rc a + rb_rc b) (rb_db a + rb_db b) (rb_rows a + rb_rows b) (rb_cells a + rb_cells b)
       (Z.min (rb_fc a) (rb_fc b)) (Z.max (rb_lc a) (rb_lc b))
       (Z.min (rb_fr a) (rb_fr b)) (Z.max (rb_lr a) (rb_lr b)).

(** do { ... } while(cont), sheetrec.cpp 1259-1280; running out of fuel is reported as
    [UB] and excluded by SheetProofs. *)
Fixpoint num_rb_loop (fuel : nat) (cells : list cell) (ch : rbcache) (acc : rbsize) :
  res (rbsize * rbcache) :=
  match fuel with
  | O => UB
  | S f =>
      let* (cont, rb, ch1) := get_rbsize cells ch in
      let acc1 := rb_merge acc rb in
      if (cont : bool) then num_rb_loop f cells ch1 acc1 else Ok (acc1, ch1)
  end.

(** sheetrec.cpp 1244-1289 GetNumRowBlocks(&rbsize): block count, totals, cache. *)
Definition num_row_blocks (cells : list cell) (ch : rbcache) : res (Z * rbsize * rbcache) :=
  match cells with
  | [] => Ok (0, rb_new, ch)
  | _ =>
      let ch0 := mkCache (ch_calc ch) (ch_sizes ch) (ch_sizes ch) cells in
      let* (rb, ch1) := num_rb_loop (S (length cells)) cells ch0 rb_new in
      Ok (zlen (ch_sizes ch1), rb, ch1)
  end.

(* ------------------------------------------------------------------ *)
(** * The sheet *)

Record sheet := mkSheet {
  sh_index : Z;                         (* sheetIndex, unsigned16_t *)
  sh_cells : list cell;                 (* m_Cells, ordered by (row, col): cell.h 136-149 *)
  sh_notes : list note;                 (* m_Notes, same order *)
  sh_heights : list rowheight;          (* m_RowHeights, by row: row.h 106-115 *)
  sh_cols : list colinfo;               (* m_Colinfos, by column: colinfo.h 54-63 *)
  sh_merged : list range;               (* m_MergedRanges *)
  sh_links : list hlink;                (* m_HyperLinks *)
  sh_dvs : list dvalid;                 (* m_DataValidations *)
  sh_minr : Z; sh_maxr : Z; sh_minc : Z; sh_maxc : Z;
  sh_defrh : Z; sh_defcw : Z; sh_rsplit : Z; sh_csplit : Z;
  sh_spid : Z;                          (* currentSPIDidx *)
  sh_calc : bool; sh_sizes : list rbsize (* m_SizesCalculated, m_RBSizes *)
}.

(** sheetrec.cpp 78-124 worksheet::worksheet. *)
Definition sheet_new (idx : Z) : sheet :=
  mkSheet idx [] [] [] [] [] [] [] 4294967295 0 4294967295 0 15 10 0 0 0 false [].

(** cell.h 136-147 insertsort. *)
Definition key_lt (r c r' c' : Z) : bool :=
  if r =? r' then c <? c' else r <? r'.

(** std::set insert: [None] when an equivalent element is present. *)
Fixpoint set_insert (x : cell) (l : list cell) : option (list cell) :=
  match l with
  | [] => Some [x]
  | y :: t =>
      if key_lt (c_row x) (c_col x) (c_row y) (c_col y) then Some (x :: l)
      else if key_lt (c_row y) (c_col y) (c_row x) (c_col x) then
        match set_insert x t with Some t' => Some (y :: t') | None => None end
      else None
  end.
(** std::set erase by key; also returns the erased element. *)
Fixpoint set_erase (r c : Z) (l : list cell) : option cell * list cell :=
  match l with
  | [] => (None, [])
  | y :: t => if ((c_row y =? r) && (c_col y =? c))%bool then (Some y, t)
              else let '(e, t') := set_erase r c t in (e, y :: t')
  end.

(** sheetrec.cpp 937-986 AddCell: bounds, then insert; on a duplicate erase the old
    cell and insert again.  The insertion hint only affects speed.  Returns the
    deleted cell (its destructor runs) and the sheet; the loop runs at most twice. *)
Definition with_cells (s : sheet) (l : list cell) (r c : Z) : sheet :=
  mkSheet (sh_index s) l (sh_notes s) (sh_heights s) (sh_cols s) (sh_merged s) (sh_links s)
          (sh_dvs s) (Z.min (sh_minr s) r) (Z.max (sh_maxr s) r) (Z.min (sh_minc s) c)
          (Z.max (sh_maxc s) c) (sh_defrh s) (sh_defcw s) (sh_rsplit s) (sh_csplit s) (sh_spid s)
          false [].
Definition add_cell (s : sheet) (x : cell) : res (option cell * sheet) :=
  match set_insert x (sh_cells s) with
  | Some l => Ok (None, with_cells s l (c_row x) (c_col x))
  | None =>
      let '(old, l1) := set_erase (c_row x) (c_col x) (sh_cells s) in
      match set_insert x l1 with
      | Some l => Ok (old, with_cells s l (c_row x) (c_col x))
      | None => UB
      end
  end.

(** sheetrec.cpp 988-1033 AddNote, the same on m_Notes (sizes untouched). *)
Fixpoint note_put (x : note) (l : list note) : list note :=
  match l with
  | [] => [x]
  | y :: t =>
      if key_lt (no_row x) (no_col x) (no_row y) (no_col y) then x :: l
      else if key_lt (no_row y) (no_col y) (no_row x) (no_col x) then y :: note_put x t
      else x :: t
  end.
Definition add_note (s : sheet) (x : note) : sheet :=
  mkSheet (sh_index s) (sh_cells s) (note_put x (sh_notes s)) (sh_heights s) (sh_cols s)
          (sh_merged s) (sh_links s) (sh_dvs s) (Z.min (sh_minr s) (no_row x))
          (Z.max (sh_maxr s) (no_row x)) (Z.min (sh_minc s) (no_col x))
          (Z.max (sh_maxc s) (no_col x)) (sh_defrh s) (sh_defcw s) (sh_rsplit s) (sh_csplit s)
          (sh_spid s) (sh_calc s) (sh_sizes s).

(** sheetrec.cpp 1035-1050 FindCell. *)
Definition find_cell (s : sheet) (r c : Z) : option cell :=
  find (fun x => ((c_row x =? r) && (c_col x =? c))%bool) (sh_cells s).

(** sheetrec.cpp 1304-1335 colwidth: find, erase, insert in the set. *)
Fixpoint col_put (x : colinfo) (l : list colinfo) : list colinfo :=
  match l with
  | [] => [x]
  | y :: t => if ci_col x <? ci_col y then x :: l
              else if ci_col y <? ci_col x then y :: col_put x t
              else x :: t
  end.
(** sheetrec.cpp 1337-1361 rowheight. *)
Fixpoint rh_put (x : rowheight) (l : list rowheight) : list rowheight :=
  match l with
  | [] => [x]
  | y :: t => if rh_row x <? rh_row y then x :: l
              else if rh_row y <? rh_row x then y :: rh_put x t
              else x :: t
  end.
Definition set_cols (s : sheet) (l : list colinfo) : sheet :=
  mkSheet (sh_index s) (sh_cells s) (sh_notes s) (sh_heights s) l (sh_merged s) (sh_links s)
          (sh_dvs s) (sh_minr s) (sh_maxr s) (sh_minc s) (sh_maxc s) (sh_defrh s) (sh_defcw s)
          (sh_rsplit s) (sh_csplit s) (sh_spid s) (sh_calc s) (sh_sizes s).
Definition set_heights (s : sheet) (l : list rowheight) : sheet :=
  mkSheet (sh_index s) (sh_cells s) (sh_notes s) l (sh_cols s) (sh_merged s) (sh_links s)
          (sh_dvs s) (sh_minr s) (sh_maxr s) (sh_minc s) (sh_maxc s) (sh_defrh s) (sh_defcw s)
          (sh_rsplit s) (sh_csplit s) (sh_spid s) (sh_calc s) (sh_sizes s).
Definition set_merged (s : sheet) (l : list range) : sheet :=
  mkSheet (sh_index s) (sh_cells s) (sh_notes s) (sh_heights s) (sh_cols s) l (sh_links s)
          (sh_dvs s) (sh_minr s) (sh_maxr s) (sh_minc s) (sh_maxc s) (sh_defrh s) (sh_defcw s)
          (sh_rsplit s) (sh_csplit s) (sh_spid s) (sh_calc s) (sh_sizes s).
Definition set_links (s : sheet) (l : list hlink) : sheet :=
  mkSheet (sh_index s) (sh_cells s) (sh_notes s) (sh_heights s) (sh_cols s) (sh_merged s) l
          (sh_dvs s) (sh_minr s) (sh_maxr s) (sh_minc s) (sh_maxc s) (sh_defrh s) (sh_defcw s)
          (sh_rsplit s) (sh_csplit s) (sh_spid s) (sh_calc s) (sh_sizes s).
Definition set_dvs (s : sheet) (l : list dvalid) : sheet :=
  mkSheet (sh_index s) (sh_cells s) (sh_notes s) (sh_heights s) (sh_cols s) (sh_merged s)
          (sh_links s) l (sh_minr s) (sh_maxr s) (sh_minc s) (sh_maxc s) (sh_defrh s) (sh_defcw s)
          (sh_rsplit s) (sh_csplit s) (sh_spid s) (sh_calc s) (sh_sizes s).
(** Members changed while dumping: note indices, currentSPIDidx, the size cache. *)
Definition set_dumped (s : sheet) (notes : list note) (spid : Z) (calc : bool)
  (sizes : list rbsize) : sheet :=
  mkSheet (sh_index s) (sh_cells s) notes (sh_heights s) (sh_cols s) (sh_merged s)
          (sh_links s) (sh_dvs s) (sh_minr s) (sh_maxr s) (sh_minc s) (sh_maxc s) (sh_defrh s)
          (sh_defcw s) (sh_rsplit s) (sh_csplit s) spid calc sizes.

(** sheetrec.cpp 1291-1302 merge (note the argument order). *)
Definition sheet_merge (s : sheet) (fr fc lr lc : Z) : sheet :=
  set_merged s (sh_merged s ++ [mkRange fr lr fc lc]).
Definition sheet_colwidth (s : sheet) (col w : Z) (xf : option Z) : sheet :=
  set_cols s (col_put (mkCol col w xf) (sh_cols s)).
Definition sheet_rowheight (s : sheet) (row h : Z) (xf : option Z) : sheet :=
  set_heights s (rh_put (mkRH row h xf) (sh_heights s)).
(** sheetrec.cpp 1411-1432 hyperLink: row and column of the cell, cut to 16 bits. *)
Definition sheet_hyperlink (s : sheet) (row col : Z) (url mark : list Z) : sheet :=
  set_links s (sh_links s ++ [mkLink (row mod 65536) (col mod 65536) url mark]).
Definition sheet_validate (s : sheet) (d : dvalid) : sheet :=
  set_dvs s (sh_dvs s ++ [d]).

(* ------------------------------------------------------------------ *)
(** * RowBlocksDump *)

(** sheetrec.h 124-133. *)
Inductive rbstate := RBInit | RBFirstRow | RBRows | RBFirstCell | RBCells | RBDbcell | RBFinish.

(** Members used by RowBlocksDump; iterators are the remaining elements, so that
    [it == end()] is [it = []] and [it == --end()] is "one element left". *)
Record rbdump := mkRBD {
  d_rb : rbstate;                       (* m_DumpRBState *)
  d_rows : Z;                           (* m_RowCounter *)
  d_cnt : Z;                            (* m_CellCounter, unsigned32_t *)
  d_start : list cell;                  (* m_Starting_RBCell *)
  d_cur : list cell;                    (* m_CurrentCell *)
  d_dboff : Z;                          (* m_DBCellOffset *)
  d_first : Z;                          (* m_FirstRowOffset *)
  d_offs : list Z;                      (* m_CellOffsets *)
  d_rh : list rowheight                 (* m_Current_RowHeight *)
}.

Definition at_last {A} (l : list A) : bool := match l with [_] => true | _ => false end.

(** The column loop, sheetrec.cpp 616-629. *)
Fixpoint row_scan (cells : list cell) (row fc lc cnt : Z) : list cell * Z * Z * Z :=
  match cells with
  | [] => ([], fc, lc, cnt)
  | c :: t =>
      if c_row c =? row
      then row_scan t row (Z.min fc (c_col c)) (Z.max lc (c_col c)) (w32 (cnt + 1))
      else (cells, fc, lc, cnt)
  end.

(** Result of one switch: stay in the loop, or leave it with rb_record. *)
Inductive stepres := Again | Give (u : option bunit).

(** One pass through the switch of RowBlocksDump, sheetrec.cpp 564-749.  [cells] and
    [heights] are the whole containers, [pos] the offset argument. *)
Definition rb_step (ls : labels) (cells : list cell) (heights : list rowheight) (pos : Z)
  (d : rbdump) : res (stepres * rbdump) :=
  match d_rb d with
  | RBInit =>
      Ok (Again, mkRBD RBFirstRow 0 (d_cnt d) (d_start d) (d_cur d) (d_dboff d) (d_first d)
                       (d_offs d) heights)
  | RBFirstRow =>
      let* _ := xl_assert (negb (zlen cells =? 0)) in
      match d_cur d with
      | [] => Ok (Again, mkRBD RBFinish (d_rows d) (d_cnt d) (d_start d) (d_cur d) (d_dboff d)
                               (d_first d) (d_offs d) (d_rh d))
      | _ => Ok (Again, mkRBD RBRows (d_rows d) 0 (d_cur d) (d_cur d) 0 pos [] (d_rh d))
      end
  | RBRows =>
      match d_cur d with
      | [] => UB                        (* *m_CurrentCell at end() *)
      | c :: _ =>
          let row := match d_rh d with
                     | h :: _ => if rh_row h <? c_row c then rh_row h else c_row c
                     | [] => c_row c
                     end in
          let '(rest, fc0, lc0, cnt) := row_scan (d_cur d) row 4294967295 0 (d_cnt d) in
          let '(fc, lc) := if lc0 <? fc0 then (1, 0) else (fc0, lc0) in
          let* (ops, rh) :=
            match d_rh d with
            | h :: t =>
                let* _ := xl_assert (row <=? rh_row h) in
                if rh_row h =? row then Ok (rec_row row fc lc (rh_height h) (rh_xf h), t)
                else Ok (rec_row row fc lc 264 None, d_rh d)
            | [] => Ok (rec_row row fc lc 264 None, d_rh d)
            end in
          let* u := build ops in
          let* _ := xl_assert (bu_size u =? ROW_SIZE) in
          let rows := w32 (d_rows d + 1) in
          let full := ((MAX_ROWBLOCK <=? rows) || match rest with [] => true | _ => false end)%bool in
          if full then
            Ok (Give (Some u),
                mkRBD RBFirstCell 0 (if at_last rest then w32 (cnt + 1) else cnt) (d_start d) rest
                      (d_dboff d + ROW_SIZE) (d_first d) (d_offs d) rh)
          else
            Ok (Give (Some u),
                mkRBD RBRows rows cnt (d_start d) rest (d_dboff d + ROW_SIZE) (d_first d)
                      (d_offs d) rh)
      end
  | RBFirstCell =>
      match d_start d with
      | [] => UB
      | c :: t =>
          let* u := cell_unit ls c in
          let cnt := w32 (d_cnt d - 1) in
          Ok (Give (Some u),
              mkRBD (if cnt =? 0 then RBDbcell else RBCells) (d_rows d) cnt
                    (if cnt =? 0 then d_start d else t) (d_cur d) (d_dboff d + bu_size u)
                    (d_first d) (d_offs d ++ [pos - d_first d]) (d_rh d))
      end
  | RBCells =>
      if d_cnt d =? 0 then
        Ok (Again, mkRBD RBDbcell (d_rows d) (d_cnt d) (d_start d) (d_cur d) (d_dboff d)
                         (d_first d) (d_offs d) (d_rh d))
      else
        match d_start d with
        | [] => UB
        | c :: t =>
            let* u := cell_unit ls c in
            Ok (Give (Some u),
                mkRBD RBCells (d_rows d) (w32 (d_cnt d - 1)) t (d_cur d) (d_dboff d + bu_size u)
                      (d_first d) (d_offs d ++ [bu_size u]) (d_rh d))
        end
  | RBDbcell =>
      let* u := build (rec_dbcell (d_dboff d) (d_offs d)) in
      Ok (Give (Some u),
          mkRBD (if at_last (d_cur d) then RBFinish else RBFirstRow) (d_rows d) (d_cnt d)
                (d_start d) (d_cur d) (d_dboff d) (d_first d) (d_offs d) (d_rh d))
  | RBFinish =>
      Ok (Give None,
          mkRBD RBInit (d_rows d) (d_cnt d) (d_start d) (d_cur d) (d_dboff d) (d_first d)
                (d_offs d) (d_rh d))
  end.

(** do { ... } while(repeat), sheetrec.cpp 564-752.  At most four passes are needed
    (SheetProofs); exhausting the fuel is reported as [UB]. *)
Fixpoint rb_loop (fuel : nat) (ls : labels) (cells : list cell) (heights : list rowheight)
  (pos : Z) (d : rbdump) : res (option bunit * rbdump) :=
  match fuel with
  | O => UB
  | S f =>
      let* (r, d1) := rb_step ls cells heights pos d in
      match r with
      | Again => rb_loop f ls cells heights pos d1
      | Give u => Ok (u, d1)
      end
  end.
Definition row_blocks_dump := rb_loop 4.

(* ------------------------------------------------------------------ *)
(** * worksheet::DumpData *)

(** sheetrec.h 55-79. *)
Inductive shstate :=
| SInit | SBof | SIndex | SDfltRow | SColinfo | SDfltCol | SDimension | SRowblocks | SDrawings
| SNotes | SMerged | SWindow2 | SPane | SHlinks | SValHead | SValBody | SEof | SFinish.

Record shdump := mkSD {
  e_state : shstate;
  e_sheet : sheet;                      (* containers, size cache, currentSPIDidx *)
  e_col : list colinfo;                 (* m_Current_Colinfo *)
  e_note : nat;                         (* m_CurrentNote, as a position *)
  e_noteidx : Z;                        (* m_CurrentNoteIdx, unsigned16_t *)
  e_link : list hlink;                  (* m_CurrentHlink *)
  e_dv : list dvalid;                   (* m_CurrentDval *)
  e_range : list range;                 (* m_Current_Range *)
  e_rb : rbdump
}.

(** A sheet that has never been dumped. *)
Definition rbd_new : rbdump := mkRBD RBInit 0 0 [] [] 0 0 [] [].
Definition sd_new (s : sheet) : shdump := mkSD SInit s [] 0 0 [] [] [] rbd_new.

Definition to_state (d : shdump) (st : shstate) : shdump :=
  mkSD st (e_sheet d) (e_col d) (e_note d) (e_noteidx d) (e_link d) (e_dv d) (e_range d) (e_rb d).

(** The loop of the INDEX case, sheetrec.cpp 282-301: offsets of the DBCELLs. *)
Fixpoint index_loop (n : nat) (cells : list cell) (ch : rbcache) (acc off : Z) :
  res (list Z * rbcache) :=
  match n with
  | O => Ok ([], ch)
  | S m =>
      let* (state, rb, ch1) := get_rbsize cells ch in
      let* _ := xl_assert (Bool.eqb state (match m with O => false | _ => true end)) in
      let acc1 := acc + rb_rc rb in
      let off1 := off + acc1 in
      let* (l, ch2) := index_loop m cells ch1 (acc1 + rb_db rb) off1 in
      Ok (off1 :: l, ch2)
  end.

(** Replace the note at a position (SetIndex through the pointer). *)
Definition note_set_idx (l : list note) (k : nat) (i : Z) : list note :=
  match nth_error l k with
  | Some n => firstn k l ++ mkNote (no_row n) (no_col n) (no_author n) (no_text n) (no_rect n)
                                   (no_fill n) i :: skipn (S k) l
  | None => l
  end.

(** One pass through the switch of worksheet::DumpData, sheetrec.cpp 233-554; [active] is
    the active-sheet index of WINDOW1 and [pos] is offset + writeLen (only their sum is
    used). *)
Definition sh_step (ls : labels) (active : Z) (pos : Z) (d : shdump) : res (stepres * shdump) :=
  let s := e_sheet d in
  let give ops st := let* u := build ops in Ok (Give (Some u), to_state d st) in
  match e_state d with
  | SInit =>
      let rb := e_rb d in
      Ok (Again, mkSD SBof s (sh_cols s) 0 0 (sh_links s) (sh_dvs s) (sh_merged s)
                      (mkRBD (d_rb rb) (d_rows rb) (d_cnt rb) (d_start rb) (sh_cells s)
                             (d_dboff rb) (d_first rb) (d_offs rb) (d_rh rb)))
  | SBof => give (rec_bof 16) SIndex
  | SIndex =>
      let ch := mkCache (sh_calc s) (sh_sizes s) (sh_sizes s) (sh_cells s) in
      let* (numrb, rb, ch1) := num_row_blocks (sh_cells s) ch in
      let off0 := pos + (20 + 4 * numrb) + 8 + 16 * zlen (sh_cols s) in
      let* (offs, ch2) := index_loop (Z.to_nat numrb) (sh_cells s) ch1 0 (off0 + 6 + 18) in
      let* u := build (rec_index (rb_fr rb) (rb_lr rb) (off0 :: offs)) in
      Ok (Give (Some u),
          mkSD SDfltRow (set_dumped s (sh_notes s) (sh_spid s) (ch_calc ch2) (ch_sizes ch2))
               (e_col d) (e_note d) (e_noteidx d) (e_link d) (e_dv d) (e_range d) (e_rb d))
  | SDfltRow => give (rec_defrowheight (sh_defrh s)) SColinfo
  | SColinfo =>
      match sh_cols s with
      | [] => Ok (Again, to_state d SDfltCol)
      | _ =>
          match e_col d with
          | [] => UB
          | c :: t =>
              let* u := build (rec_colinfo c) in
              Ok (Give (Some u),
                  mkSD (match t with [] => SDfltCol | _ => SColinfo end) s t (e_note d)
                       (e_noteidx d) (e_link d) (e_dv d) (e_range d) (e_rb d))
          end
      end
  | SDfltCol => give (rec_defcolwidth (sh_defcw s)) SDimension
  | SDimension =>
      give (rec_dimension (sh_minr s) (sh_maxr s) (sh_minc s) (sh_maxc s)) SRowblocks
  | SRowblocks =>
      match sh_cells s with
      | [] => Ok (Again, to_state d SDrawings)
      | _ =>
          let* (u, rb) := row_blocks_dump ls (sh_cells s) (sh_heights s) pos (e_rb d) in
          let d1 := mkSD SRowblocks s (e_col d) (e_note d) (e_noteidx d) (e_link d) (e_dv d)
                         (e_range d) rb in
          match u with
          | None => Ok (Again, to_state d1 SDrawings)
          | Some u => Ok (Give (Some u), d1)
          end
      end
  | SDrawings =>
      match sh_notes s with
      | [] => Ok (Again, to_state d SNotes)
      | _ =>
          match nth_error (sh_notes s) (e_note d) with
          | None =>
              Ok (Again, mkSD SNotes s (e_col d) 0 (e_noteidx d) (e_link d) (e_dv d) (e_range d)
                              (e_rb d))
          | Some _ =>
              let notes := note_set_idx (sh_notes s) (e_note d) (e_noteidx d) in
              match nth_error notes (e_note d) with
              | None => UB
              | Some n =>
                  let* u := build (rec_drawing n (sh_index s) (sh_spid s)
                                               (zlen (sh_notes s) mod 65536)) in
                  Ok (Give (Some u),
                      mkSD SDrawings
                           (set_dumped s notes (w32 (sh_spid s + spid_step (no_idx n))) (sh_calc s)
                                       (sh_sizes s))
                           (e_col d) (S (e_note d)) ((e_noteidx d + 1) mod 65536) (e_link d)
                           (e_dv d) (e_range d) (e_rb d))
              end
          end
      end
  | SNotes =>
      match sh_notes s with
      | [] => Ok (Again, to_state d SMerged)
      | _ =>
          match nth_error (sh_notes s) (e_note d) with
          | None => Ok (Again, to_state d SMerged)
          | Some n =>
              let* u := build (rec_note n) in
              Ok (Give (Some u),
                  mkSD SNotes s (e_col d) (S (e_note d)) (e_noteidx d) (e_link d) (e_dv d)
                       (e_range d) (e_rb d))
          end
      end
  | SMerged =>
      match sh_merged s, e_range d with
      | [], _ => Ok (Again, to_state d SWindow2)
      | _, [] => Ok (Again, to_state d SWindow2)
      | _, rs =>
          let n := Nat.min (length rs) 1027 in
          let* u := build (rec_merged (firstn n rs)) in
          Ok (Give (Some u),
              mkSD SMerged s (e_col d) (e_note d) (e_noteidx d) (e_link d) (e_dv d) (skipn n rs)
                   (e_rb d))
      end
  | SWindow2 => give (rec_window2 (sh_index s =? active)) SPane
  | SPane =>
      if ((sh_rsplit s =? 0) && (sh_csplit s =? 0))%bool then Ok (Again, to_state d SHlinks)
      else give (rec_pane (sh_rsplit s) (sh_csplit s)) SHlinks
  | SHlinks =>
      match sh_links s with
      | [] => Ok (Again, to_state d SValHead)
      | _ =>
          match e_link d with
          | [] => UB
          | h :: t =>
              let* u := build (rec_hlink h) in
              Ok (Give (Some u),
                  mkSD (match t with [] => SValHead | _ => SHlinks end) s (e_col d) (e_note d)
                       (e_noteidx d) t (e_dv d) (e_range d) (e_rb d))
          end
      end
  | SValHead =>
      match sh_dvs s with
      | [] => Ok (Again, to_state d SValBody)
      | _ => give (rec_dval (zlen (sh_dvs s))) SValBody
      end
  | SValBody =>
      match sh_dvs s with
      | [] => Ok (Again, to_state d SEof)
      | _ =>
          match e_dv d with
          | [] => UB
          | v :: t =>
              let* u := build (rec_dv v) in
              Ok (Give (Some u),
                  mkSD (match t with [] => SEof | _ => SValBody end) s (e_col d) (e_note d)
                       (e_noteidx d) (e_link d) t (e_range d) (e_rb d))
          end
      end
  | SEof => give rec_eof SFinish
  | SFinish => Ok (Give None, to_state d SInit)
  end.

(** do { ... } while(repeat); eight passes suffice (SheetProofs). *)
Fixpoint sh_loop (fuel : nat) (ls : labels) (active pos : Z) (d : shdump) :
  res (option bunit * shdump) :=
  match fuel with
  | O => UB
  | S f =>
      let* (r, d1) := sh_step ls active pos d in
      match r with
      | Again => sh_loop f ls active pos d1
      | Give u => Ok (u, d1)
      end
  end.
Definition sheet_dump_data := sh_loop 8.
