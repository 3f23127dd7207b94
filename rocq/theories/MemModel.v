(** The life of the objects of a workbook: which calls allocate and delete which objects, which
    objects each call follows pointers to, and what deleting the workbook does.  Destructors
    and allocations of workbook.cpp, globalrec.cpp, sheetrec.cpp, cell.cpp, label.cpp,
    formula_cell.cpp, formula_expr.cpp, formula.cpp, colors.cpp, HPSF.cpp, summinfo.cpp and
    docsumminfo.cpp in /repo/xlslib/src/xlslib.

    Simplifications.  The contents of objects are left out except for pointers and the keys by
    which objects are found.  Objects are numbered in the order they are allocated and numbers
    are not used again, so that any use of a deleted object is seen.  Memory owned by standard
    containers, strings and record buffers is not modelled (the latter is UnitModel).  Where
    the code follows a pointer only under a condition on contents that is left out, the model
    always follows it.  The records made and deleted while saving are left out here. *)
From Coq Require Import ZArith List Bool Arith.
From Verif Require Import UnitModel SpecMem.
Import ListNotations.

(* ------------------------------------------------------------------ *)
(** * The heap *)

Record heap := mkHeap { h_next : nat; h_live : list nat }.
Definition h_has (h : heap) (p : nat) : bool := existsb (Nat.eqb p) (h_live h).
Definition h_new (h : heap) : nat * heap := (h_next h, mkHeap (S (h_next h)) (h_next h :: h_live h)).
Definition h_use (h : heap) (p : nat) : res unit := if h_has h p then Ok tt else UB.
Definition h_del (h : heap) (p : nat) : res heap :=
  if h_has h p then Ok (mkHeap (h_next h) (remove Nat.eq_dec p (h_live h))) else UB.
Fixpoint h_uses (h : heap) (ps : list nat) : res unit :=
  match ps with [] => Ok tt | p :: t => let* _ := h_use h p in h_uses h t end.
Fixpoint h_dels (h : heap) (ps : list nat) : res heap :=
  match ps with [] => Ok h | p :: t => let* h1 := h_del h p in h_dels h1 t end.
Fixpoint h_news (n : nat) (h : heap) : list nat * heap :=
  match n with O => ([], h) | S m => let (p, h1) := h_new h in let (ps, h2) := h_news m h1 in (p :: ps, h2) end.

(* ------------------------------------------------------------------ *)
(** * Objects *)

(** extformat.h: xf_t with its font and format pointers. *)
Record xfo := mkXfo { xo_ptr : nat; xo_font : option nat; xo_fmt : option nat }.
(** globalrec.h 150-170: the lists of CGlobalRecords, and the palette array of colors_t. *)
Record glob := mkGlob { g_dfonts : list nat; g_fonts : list nat; g_fmts : list nat; g_dxfs : list xfo; g_xfs : list xfo;
  g_styles : list nat; g_bsheets : list nat; g_palette : option nat; g_labels : list nat; g_default : nat }.
(** cell.h 78-84, formula_cell.h: a cell. *)
Record mcell := mkMcell { mc_ptr : nat; mc_row : Z; mc_col : Z; mc_xf : nat; mc_held : held }.
(** colinfo.h, row.h: a column or row entry. *)
Record mline := mkLine { ml_key : Z; ml_ptr : nat; ml_xf : option nat }.
(** formula.h: a formula with its storage and the two units in it. *)
Record mstack := mkStack { st_ptr : nat; st_parts : list nat }.
(** sheetrec.h: what a worksheet holds; the hints are the pointers cellHint and noteHint. *)
Record msheet := mkMsheet { ms_ptr : nat; ms_cells : list mcell; ms_hint : option nat; ms_notes : list mcell; ms_nhint : option nat;
  ms_merged : list nat; ms_cols : list mline; ms_rows : list mline; ms_ranges : list nat; ms_stacks : list mstack;
  ms_dvs : list (nat * list nat); ms_links : list nat }.
(** HPSF.h: a property set; each item has its key and perhaps a string. *)
Record hitem := mkItem { hi_key : Z; hi_ptr : nat; hi_str : option nat }.
Record hdoc := mkDoc { hd_ptr : nat; hd_items : list hitem }.
(** The heap, the formula nodes with their children, and the global lists. *)
Record world := mkW { w_heap : heap; w_nodes : list (nat * list nat); w_glob : glob }.
Record mem := mkMem { m_self : nat; m_w : world; m_sheets : list msheet; m_sum : hdoc; m_doc : hdoc }.

Definition up_heap (w : world) (h : heap) : world := mkW h (w_nodes w) (w_glob w).
Definition up_glob (w : world) (g : glob) : world := mkW (w_heap w) (w_nodes w) g.
Definition w_use (w : world) (p : nat) : res unit := h_use (w_heap w) p.
Definition w_uses (w : world) (ps : list nat) : res unit := h_uses (w_heap w) ps.
Definition w_new (w : world) : nat * world := let (p, h) := h_new (w_heap w) in (p, up_heap w h).
Definition w_del (w : world) (p : nat) : res world := let* h := h_del (w_heap w) p in Ok (up_heap w h).
Definition opt_list (o : option nat) : list nat := match o with Some p => [p] | None => [] end.

(* ------------------------------------------------------------------ *)
(** * Formats *)

Definition find_xf (g : glob) (p : nat) : option xfo := find (fun x => Nat.eqb (xo_ptr x) p) (g_dxfs g ++ g_xfs g).
(** extformat.cpp 584-606 MarkUsed, UnMarkUsed: the latter may follow the pointers to the font
    and the number format. *)
Definition touch_xf (w : world) (p : nat) : res unit :=
  let* _ := w_use w p in
  match find_xf (w_glob w) p with
  | Some x => let* _ := w_uses w (opt_list (xo_font x)) in w_uses w (opt_list (xo_fmt x))
  | None => UB
  end.
Definition touch_opt (w : world) (o : option nat) : res unit := match o with Some p => touch_xf w p | None => Ok tt end.
Definition pick (o d : option nat) : option nat := match o with Some p => Some p | None => d end.

Definition add_font (w : world) : nat * world :=
  let (p, w1) := w_new w in
  let g := w_glob w1 in
  (p, up_glob w1 (mkGlob (g_dfonts g) (g_fonts g ++ [p]) (g_fmts g) (g_dxfs g) (g_xfs g) (g_styles g) (g_bsheets g) (g_palette g) (g_labels g) (g_default g))).
Definition add_fmt (w : world) : nat * world :=
  let (p, w1) := w_new w in
  let g := w_glob w1 in
  (p, up_glob w1 (mkGlob (g_dfonts g) (g_fonts g) (g_fmts g ++ [p]) (g_dxfs g) (g_xfs g) (g_styles g) (g_bsheets g) (g_palette g) (g_labels g) (g_default g))).
Definition put_xfs (w : world) (l : list xfo) : world :=
  let g := w_glob w in
  up_glob w (mkGlob (g_dfonts g) (g_fonts g) (g_fmts g) (g_dxfs g) l (g_styles g) (g_bsheets g) (g_palette g) (g_labels g) (g_default g)).
Definition put_labels (w : world) (l : list nat) : world :=
  let g := w_glob w in
  up_glob w (mkGlob (g_dfonts g) (g_fonts g) (g_fmts g) (g_dxfs g) (g_xfs g) (g_styles g) (g_bsheets g) (g_palette g) l (g_default g)).
(** globalrec.cpp 664-668 AddXFormat, called by the constructors of xf_t (extformat.cpp
    366-479); SetFont and SetFormat mark the font and the number format as used. *)
Definition add_xf (w : world) (f m : option nat) : res (nat * world) :=
  let* _ := w_uses w (opt_list f) in
  let* _ := w_uses w (opt_list m) in
  let (p, w1) := w_new w in
  Ok (p, put_xfs w1 (g_xfs (w_glob w1) ++ [mkXfo p f m])).
(** extformat.h 455-459 xfDup, extformat.cpp 380-423. *)
Definition dup_xf (w : world) (x : nat) : res (nat * world) :=
  let* _ := w_use w x in
  match find_xf (w_glob w) x with
  | Some o => add_xf w (xo_font o) (xo_fmt o)
  | None => UB
  end.
(** extformat.cpp 627-645 SetFont and SetFormat: the old font is unmarked, the new one marked. *)
Definition set_xf (w : world) (x : nat) (f m : option nat) : res world :=
  let* _ := touch_xf w x in
  let* _ := w_uses w (opt_list f) in
  let* _ := w_uses w (opt_list m) in
  Ok (put_xfs w (map (fun o => if Nat.eqb (xo_ptr o) x then mkXfo x (pick f (xo_font o)) (pick m (xo_fmt o)) else o) (g_xfs (w_glob w)))).
(** globalrec.cpp 920-947 findXF.  Comparing formats follows the pointers to all of them;
    [same] is the position of the first equal one.  If that is another object than the one
    asked for, the last object of the list is deleted. *)
Definition find_equal (w : world) (x : nat) (same : nat) : res (nat * world) :=
  let l := g_xfs (w_glob w) in
  let* _ := w_uses w (map xo_ptr l) in
  match nth_error l same with
  | Some o =>
      if Nat.eqb (xo_ptr o) x then Ok (x, w)
      else
        match rev l with
        | z :: _ => let* w1 := w_del w (xo_ptr z) in Ok (xo_ptr o, put_xfs w1 (removelast l))
        | [] => UB
        end
  | None => Ok (x, w)
  end.

(* ------------------------------------------------------------------ *)
(** * Formula trees *)

Fixpoint kids_of (nodes : list (nat * list nat)) (p : nat) : option (list nat) :=
  match nodes with [] => None | (q, ks) :: t => if Nat.eqb q p then Some ks else kids_of t p end.
(** formula_expr.cpp 70-85 DestroyAST: the children from the last to the first, then the node.
    Recursion that never ends overflows the stack. *)
Fixpoint destroy_tree (fuel : nat) (nodes : list (nat * list nat)) (h : heap) (p : nat) : res heap :=
  match fuel with
  | O => UB
  | S n =>
      let* _ := h_use h p in
      match kids_of nodes p with
      | None => UB
      | Some ks => let* h1 := fold_left (fun r k => let* g := r in destroy_tree n nodes g k) (rev ks) (Ok h) in h_del h1 p
      end
  end.
(** The nodes GetSize, GetResultEstimate and DumpData visit (formula_expr.cpp). *)
Fixpoint visit_tree (fuel : nat) (nodes : list (nat * list nat)) (h : heap) (p : nat) : res unit :=
  match fuel with
  | O => UB
  | S n =>
      let* _ := h_use h p in
      match kids_of nodes p with
      | None => UB
      | Some ks => fold_left (fun r k => let* _ := r in visit_tree n nodes h k) ks (Ok tt)
      end
  end.
Definition tree_fuel (w : world) : nat := S (length (w_nodes w)).

(* ------------------------------------------------------------------ *)
(** * Cells *)

(** cell.cpp 37-46 with the constructors of the derived classes: label.cpp 60-85 (a long text
    goes into the shared strings), formula_cell.cpp 52-83. *)
Definition new_cell (w : world) (row col : Z) (x : option nat) (what : held) : res (mcell * world) :=
  let (p, w1) := w_new w in
  let pxf := match x with Some q => q | None => g_default (w_glob w) end in
  let* _ := touch_xf w1 pxf in
  let w2 := match what with HLong => put_labels w1 (g_labels (w_glob w1) ++ [p]) | _ => w1 end in
  Ok (mkMcell p row col pxf what, w2).
(** label.cpp 87-94 and globalrec.cpp 691-700 (the label leaves the shared strings),
    formula_cell.cpp 86-91 (the tree is deleted if the cell was told to), cell.cpp 48-51. *)
Definition delete_cell (w : world) (c : mcell) : res world :=
  let w1 := match mc_held c with HLong => put_labels w (remove Nat.eq_dec (mc_ptr c) (g_labels (w_glob w))) | _ => w end in
  let* w2 := match mc_held c with
             | HTree p true => let* h := destroy_tree (tree_fuel w1) (w_nodes w1) (w_heap w1) p in Ok (up_heap w1 h)
             | _ => Ok w1
             end in
  let* _ := touch_xf w2 (mc_xf c) in
  w_del w2 (mc_ptr c).
Fixpoint delete_cells (w : world) (l : list mcell) : res world :=
  match l with [] => Ok w | c :: t => let* w1 := delete_cell w c in delete_cells w1 t end.
Definition same_place (row col : Z) (c : mcell) : bool := (Z.eqb (mc_row c) row && Z.eqb (mc_col c) col)%bool.
(** Erasing the element of a set that equals another one: the first that matches. *)
Fixpoint take_out {A} (f : A -> bool) (l : list A) : option (A * list A) :=
  match l with
  | [] => None
  | a :: t => if f a then Some (a, t) else match take_out f t with Some (b, r) => Some (b, a :: r) | None => None end
  end.
(** sheetrec.cpp 937-985 AddCell, 987-1028 AddNote: the hint is followed; inserting compares
    with cells of the set; a cell at the same place is taken out and deleted, the hint is
    cleared and the new one inserted.  The order of the set does not matter here: new cells
    are put at the end. *)
Definition add_at (w : world) (cells : list mcell) (hint : option nat) (c : mcell) : res (world * list mcell * option nat) :=
  let* _ := w_uses w (opt_list hint) in
  let* _ := w_uses w (map mc_ptr cells) in
  match take_out (same_place (mc_row c) (mc_col c)) cells with
  | None => Ok (w, cells ++ [c], Some (mc_ptr c))
  | Some (old, rest) =>
      let* w1 := delete_cell w old in
      let* _ := w_uses w1 (map mc_ptr rest) in
      Ok (w1, rest ++ [c], Some (mc_ptr c))
  end.

(** sheetrec.cpp 1303-1334 colwidth, 1336-1361 rowheight: an entry for the same column or row
    is deleted. *)
Definition put_line (w : world) (l : list mline) (k : Z) (x : option nat) : res (world * list mline) :=
  let (p, w1) := w_new w in
  let* _ := touch_opt w1 x in
  let* _ := w_uses w1 (map ml_ptr l) in
  match take_out (fun e => Z.eqb (ml_key e) k) l with
  | None => Ok (w1, l ++ [mkLine k p x])
  | Some (e, rest) =>
      let* _ := touch_opt w1 (ml_xf e) in
      let* w2 := w_del w1 (ml_ptr e) in
      Ok (w2, rest ++ [mkLine k p x])
  end.

(** HPSF.cpp 160-174 insert and HPSF.h 137 addItem, HPSF.cpp 57-65, 103-108: an item with the
    same key is deleted together with its string. *)
Definition delete_item (w : world) (i : hitem) : res world :=
  let* h := h_dels (w_heap w) (opt_list (hi_str i)) in w_del (up_heap w h) (hi_ptr i).
Definition put_item (w : world) (d : hdoc) (k : Z) : res (world * hdoc) :=
  let* _ := w_use w (hd_ptr d) in
  let (p, w1) := w_new w in
  let (s, w2) := w_new w1 in
  let* _ := w_uses w2 (map hi_ptr (hd_items d)) in
  match take_out (fun i => Z.eqb (hi_key i) k) (hd_items d) with
  | None => Ok (w2, mkDoc (hd_ptr d) (hd_items d ++ [mkItem k p (Some s)]))
  | Some (i, rest) =>
      let* w3 := delete_item w2 i in
      Ok (w3, mkDoc (hd_ptr d) (rest ++ [mkItem k p (Some s)]))
  end.

(* ------------------------------------------------------------------ *)
(** * Calls *)

(** Do something with the sheet at pointer [s]. *)
Fixpoint on_sheet (w : world) (l : list msheet) (s : nat) (f : world -> msheet -> res (world * msheet * option nat)) : res (world * list msheet * option nat) :=
  match l with
  | [] => UB
  | x :: t =>
      if Nat.eqb (ms_ptr x) s then
        let* _ := w_use w s in
        let* (w1, x1, a) := f w x in Ok (w1, x1 :: t, a)
      else let* (w1, t1, a) := on_sheet w t s f in Ok (w1, x :: t1, a)
  end.
Definition at_sheet (m : mem) (s : nat) (f : world -> msheet -> res (world * msheet * option nat)) : res (mem * option nat) :=
  let* (w, l, a) := on_sheet (m_w m) (m_sheets m) s f in Ok (mkMem (m_self m) w l (m_sum m) (m_doc m), a).
(** Do something with the cell or note at pointer [p]: it is found in the sheets. *)
Fixpoint on_cell (l : list mcell) (p : nat) (x : nat) : list mcell :=
  match l with
  | [] => []
  | c :: t => (if Nat.eqb (mc_ptr c) p then mkMcell (mc_ptr c) (mc_row c) (mc_col c) x (mc_held c) else c) :: on_cell t p x
  end.
Definition all_cells (m : mem) : list mcell := flat_map (fun s => ms_cells s ++ ms_notes s) (m_sheets m).
Definition cell_at (m : mem) (p : nat) : option mcell := find (fun c => Nat.eqb (mc_ptr c) p) (all_cells m).
Definition set_cell_xf (m : mem) (w : world) (p x : nat) : mem :=
  mkMem (m_self m) w
    (map (fun s => mkMsheet (ms_ptr s) (on_cell (ms_cells s) p x) (ms_hint s) (on_cell (ms_notes s) p x) (ms_nhint s)
                     (ms_merged s) (ms_cols s) (ms_rows s) (ms_ranges s) (ms_stacks s) (ms_dvs s) (ms_links s)) (m_sheets m))
    (m_sum m) (m_doc m).

(** workbook.cpp 115-155 sheet; sheetrec.cpp 70-124. *)
Definition new_sheet (p : nat) : msheet := mkMsheet p [] None [] None [] [] [] [] [] [] [].

Definition all_stacks (m : mem) : list nat := flat_map (fun s => map st_ptr (ms_stacks s)) (m_sheets m).
Definition use_held (m : mem) (h : held) : res unit :=
  match h with
  | HPlain | HLong => Ok tt
  | HTree p _ => visit_tree (tree_fuel (m_w m)) (w_nodes (m_w m)) (w_heap (m_w m)) p
  | HStack f => w_use (m_w m) f
  end.
Fixpoint every {A} (f : A -> res unit) (l : list A) : res unit :=
  match l with [] => Ok tt | a :: t => let* _ := f a in every f t end.
(** workbook.cpp 258-334 Dump with CGlobalRecords::DumpData and worksheet::DumpData: the
    pointers that are followed; nothing but records is allocated or deleted, and these are left out. *)
Definition save_cell (m : mem) (c : mcell) : res unit :=
  let* _ := w_use (m_w m) (mc_ptr c) in
  let* _ := touch_xf (m_w m) (mc_xf c) in
  use_held m (mc_held c).
Definition save_line (m : mem) (e : mline) : res unit := let* _ := w_use (m_w m) (ml_ptr e) in touch_opt (m_w m) (ml_xf e).
Definition save_sheet (m : mem) (s : msheet) : res unit :=
  let* _ := w_use (m_w m) (ms_ptr s) in
  let* _ := every (save_line m) (ms_cols s) in
  let* _ := every (save_cell m) (ms_cells s) in
  let* _ := every (save_line m) (ms_rows s) in
  let* _ := every (save_cell m) (ms_notes s) in
  let* _ := w_uses (m_w m) (ms_merged s) in
  let* _ := w_uses (m_w m) (ms_links s) in
  every (fun d => let* _ := w_use (m_w m) (fst d) in w_uses (m_w m) (snd d)) (ms_dvs s).
Definition save_doc (m : mem) (d : hdoc) : res unit :=
  let* _ := w_use (m_w m) (hd_ptr d) in
  every (fun i => let* _ := w_use (m_w m) (hi_ptr i) in w_uses (m_w m) (opt_list (hi_str i))) (hd_items d).
Definition save (m : mem) : res unit :=
  let g := w_glob (m_w m) in
  let* _ := w_use (m_w m) (m_self m) in
  let* _ := w_uses (m_w m) (g_dfonts g ++ g_fonts g ++ g_fmts g) in
  let* _ := every (fun x => touch_xf (m_w m) (xo_ptr x)) (g_dxfs g ++ g_xfs g) in
  let* _ := w_uses (m_w m) (g_styles g ++ g_bsheets g ++ opt_list (g_palette g) ++ g_labels g) in
  let* _ := every (save_sheet m) (m_sheets m) in
  let* _ := save_doc m (m_sum m) in
  save_doc m (m_doc m).

Definition keep (m : mem) (w : world) : mem := mkMem (m_self m) w (m_sheets m) (m_sum m) (m_doc m).

Definition mrun (m : mem) (c : mcall) : res (mem * option nat) :=
  let* _ := w_use (m_w m) (m_self m) in
  let w := m_w m in
  match c with
  | MSheet =>
      (* workbook.cpp 115-134; globalrec.cpp 596-603 *)
      let (p, w1) := w_new w in
      let (b, w2) := w_new w1 in
      let g := w_glob w2 in
      let w3 := up_glob w2 (mkGlob (g_dfonts g) (g_fonts g) (g_fmts g) (g_dxfs g) (g_xfs g) (g_styles g) (g_bsheets g ++ [b]) (g_palette g) (g_labels g) (g_default g)) in
      Ok (mkMem (m_self m) w3 (m_sheets m ++ [new_sheet p]) (m_sum m) (m_doc m), Some p)
  | MFont => let (p, w1) := add_font w in Ok (keep m w1, Some p)                       (* workbook.cpp 163-170 *)
  | MFontDup f => let* _ := w_use w f in let (p, w1) := add_font w in Ok (keep m w1, Some p)   (* font.h 197-202 *)
  | MFontSet f => let* _ := w_use w f in Ok (m, None)
  | MFormat => let (p, w1) := add_fmt w in Ok (keep m w1, Some p)                      (* workbook.cpp 177-201 *)
  | MXf f fm => let* (p, w1) := add_xf w f fm in Ok (keep m w1, Some p)               (* workbook.cpp 203-232 *)
  | MXfDup x => let* (p, w1) := dup_xf w x in Ok (keep m w1, Some p)
  | MXfSet x f fm => let* w1 := set_xf w x f fm in Ok (keep m w1, None)
  | MColor fits =>
      (* colors.cpp 68-88 *)
      if fits then
        match g_palette (w_glob w) with
        | Some _ => Ok (m, None)
        | None =>
            let (p, w1) := w_new w in
            let g := w_glob w1 in
            Ok (keep m (up_glob w1 (mkGlob (g_dfonts g) (g_fonts g) (g_fmts g) (g_dxfs g) (g_xfs g) (g_styles g) (g_bsheets g) (Some p) (g_labels g) (g_default g))), None)
        end
      else Ok (m, None)
  | MProp doc k =>
      (* summinfo.cpp 89-97, docsumminfo.cpp 77-88 *)
      if doc then let* (w1, d) := put_item w (m_doc m) k in Ok (mkMem (m_self m) w1 (m_sheets m) (m_sum m) d, None)
      else let* (w1, d) := put_item w (m_sum m) k in Ok (mkMem (m_self m) w1 (m_sheets m) d (m_doc m), None)
  | MCell s row col x h =>
      (* sheetrec.cpp 799-935 *)
      at_sheet m s (fun w t =>
        let* (c, w1) := new_cell w row col x h in
        let* (w2, cells, hint) := add_at w1 (ms_cells t) (ms_hint t) c in
        Ok (w2, mkMsheet (ms_ptr t) cells hint (ms_notes t) (ms_nhint t) (ms_merged t) (ms_cols t) (ms_rows t) (ms_ranges t) (ms_stacks t) (ms_dvs t) (ms_links t),
            Some (mc_ptr c)))
  | MNote s row col x =>
      (* sheetrec.cpp 881-898 *)
      at_sheet m s (fun w t =>
        let* (c, w1) := new_cell w row col x HPlain in
        let* (w2, notes, hint) := add_at w1 (ms_notes t) (ms_nhint t) c in
        Ok (w2, mkMsheet (ms_ptr t) (ms_cells t) (ms_hint t) notes hint (ms_merged t) (ms_cols t) (ms_rows t) (ms_ranges t) (ms_stacks t) (ms_dvs t) (ms_links t),
            Some (mc_ptr c)))
  | MCellSet p f fm own same =>
      (* cell.cpp 71-320: a copy of the format is changed; an equal one is looked for.  The
         font setters (set_cell_font) may also copy the font. *)
      let* _ := w_use w p in
      match cell_at m p with
      | None => UB
      | Some c =>
          let* (t, w1) := dup_xf w (mc_xf c) in
          let (fd, w2) := if own then let (q, w2) := add_font w1 in (Some q, w2) else (f, w1) in
          let* w3 := set_xf w2 t fd fm in
          let* _ := touch_xf w3 (mc_xf c) in
          let* (x, w4) := find_equal w3 t same in
          let* _ := touch_xf w4 x in
          Ok (set_cell_xf m w4 p x, None)
      end
  | MCellXf p x =>
      (* cell.cpp 411-419 SetXF *)
      let* _ := w_use w p in
      match cell_at m p with
      | None => UB
      | Some c =>
          let* _ := touch_xf w x in
          let* _ := touch_xf w (mc_xf c) in
          Ok (set_cell_xf m w p x, None)
      end
  | MMerge s =>
      (* sheetrec.cpp 1290-1301 *)
      at_sheet m s (fun w t => let (p, w1) := w_new w in
        Ok (w1, mkMsheet (ms_ptr t) (ms_cells t) (ms_hint t) (ms_notes t) (ms_nhint t) (ms_merged t ++ [p]) (ms_cols t) (ms_rows t) (ms_ranges t) (ms_stacks t) (ms_dvs t) (ms_links t), None))
  | MRange s =>
      (* sheetrec.cpp 1363-1370 *)
      at_sheet m s (fun w t => let (p, w1) := w_new w in
        Ok (w1, mkMsheet (ms_ptr t) (ms_cells t) (ms_hint t) (ms_notes t) (ms_nhint t) (ms_merged t) (ms_cols t) (ms_rows t) (ms_ranges t ++ [p]) (ms_stacks t) (ms_dvs t) (ms_links t), Some p))
  | MCol s k x =>
      at_sheet m s (fun w t => let* (w1, l) := put_line w (ms_cols t) k x in
        Ok (w1, mkMsheet (ms_ptr t) (ms_cells t) (ms_hint t) (ms_notes t) (ms_nhint t) (ms_merged t) l (ms_rows t) (ms_ranges t) (ms_stacks t) (ms_dvs t) (ms_links t), None))
  | MRow s k x =>
      at_sheet m s (fun w t => let* (w1, l) := put_line w (ms_rows t) k x in
        Ok (w1, mkMsheet (ms_ptr t) (ms_cells t) (ms_hint t) (ms_notes t) (ms_nhint t) (ms_merged t) (ms_cols t) l (ms_ranges t) (ms_stacks t) (ms_dvs t) (ms_links t), None))
  | MStack s =>
      (* sheetrec.cpp 789-797 formula_data; formula.cpp 57-68: the formula, its storage and two units *)
      at_sheet m s (fun w t =>
        let (p, w1) := w_new w in
        let (parts, h2) := h_news 3 (w_heap w1) in
        Ok (up_heap w1 h2, mkMsheet (ms_ptr t) (ms_cells t) (ms_hint t) (ms_notes t) (ms_nhint t) (ms_merged t) (ms_cols t) (ms_rows t) (ms_ranges t) (ms_stacks t ++ [mkStack p parts]) (ms_dvs t) (ms_links t), Some p))
  | MPush f c =>
      (* formula.cpp 75-260: into the units of the formula; cell references follow the cell pointer *)
      let* _ := w_use w f in
      match find (fun k => Nat.eqb (st_ptr k) f) (flat_map ms_stacks (m_sheets m)) with
      | None => UB
      | Some k => let* _ := w_uses w (st_parts k) in let* _ := w_uses w (opt_list c) in Ok (m, None)
      end
  | MValid s conds =>
      (* sheetrec.cpp 1372-1408: the pointers to the conditions are kept *)
      at_sheet m s (fun w t => let (p, w1) := w_new w in
        Ok (w1, mkMsheet (ms_ptr t) (ms_cells t) (ms_hint t) (ms_notes t) (ms_nhint t) (ms_merged t) (ms_cols t) (ms_rows t) (ms_ranges t) (ms_stacks t) (ms_dvs t ++ [(p, conds)]) (ms_links t), None))
  | MLink s c =>
      (* sheetrec.cpp 1411-1432: row and column are copied *)
      at_sheet m s (fun w t => let* _ := w_use w c in let (p, w1) := w_new w in
        Ok (w1, mkMsheet (ms_ptr t) (ms_cells t) (ms_hint t) (ms_notes t) (ms_nhint t) (ms_merged t) (ms_cols t) (ms_rows t) (ms_ranges t) (ms_stacks t) (ms_dvs t) (ms_links t ++ [p]), None))
  | MFind s row col =>
      (* sheetrec.cpp 1030-1046: a blank cell on the stack marks and unmarks the default format *)
      at_sheet m s (fun w t =>
        let* _ := touch_xf w (g_default (w_glob w)) in
        let* _ := w_uses w (map mc_ptr (ms_cells t)) in
        Ok (w, t, option_map mc_ptr (find (same_place row col) (ms_cells t))))
  | MNode kids =>
      (* formula_expr.cpp 1043-1130 *)
      let (p, w1) := w_new w in
      Ok (keep m (mkW (w_heap w1) ((p, kids) :: w_nodes w1) (w_glob w1)), Some p)
  | MArg n k =>
      (* formula_expr.cpp 954-974 PushArg *)
      let* _ := w_use w n in
      match kids_of (w_nodes w) n with
      | None => UB
      | Some ks => Ok (keep m (mkW (w_heap w) ((n, ks ++ [k]) :: w_nodes w) (w_glob w)), None)
      end
  | MSave => let* _ := save m in Ok (m, None)
  end.

(* ------------------------------------------------------------------ *)
(** * The beginning and the end *)

(** globalrec.cpp 126-187: which default font each default format has. *)
Definition default_font (fonts : list nat) (i : nat) : option nat :=
  match i with
  | 0 | 15 => None
  | 1 | 2 => nth_error fonts 1
  | 3 | 4 => nth_error fonts 2
  | _ => if Nat.ltb i 15 then nth_error fonts 0 else nth_error fonts 4
  end.
(** workbook.cpp 68-85, globalrec.cpp 45-245, summinfo.cpp 60-79, docsumminfo.cpp 60-68: the
    workbook; five fonts, 21 formats, six styles; two property sets with their items. *)
Definition mem_new : mem :=
  let (self, h0) := h_new (mkHeap 0 []) in
  let (fonts, h1) := h_news 5 h0 in
  let (xfs, h2) := h_news 21 h1 in
  let (styles, h3) := h_news 6 h2 in
  let (sum, h4) := h_new h3 in
  let (is, h5) := h_news 5 h4 in
  let (str, h6) := h_new h5 in
  let (doc, h7) := h_new h6 in
  let (ds, h8) := h_news 1 h7 in
  let dxfs := map (fun ix => mkXfo (snd ix) (default_font fonts (fst ix)) None) (combine (seq 0 21) xfs) in
  let keys := [1; 12; 13; 19; 18]%Z in
  let sitems := map (fun kp => mkItem (fst kp) (snd kp) (if Z.eqb (fst kp) 18 then Some str else None)) (combine keys is) in
  let ditems := map (fun p => mkItem 1 p None) ds in
  mkMem self (mkW h8 [] (mkGlob fonts [] [] dxfs [] styles [] None [] (nth 15 xfs 0%nat))) [] (mkDoc sum sitems) (mkDoc doc ditems).

(** formula.cpp 70-73 and datast.cpp 92-117: the units and the storage of a formula. *)
Fixpoint delete_stacks (h : heap) (l : list mstack) : res heap :=
  match l with [] => Ok h | k :: t => let* h1 := h_dels h (st_parts k) in let* h2 := h_del h1 (st_ptr k) in delete_stacks h2 t end.
(** sheetrec.cpp 126-221 and the deletion of the sheet object. *)
Definition delete_sheet (w : world) (s : msheet) : res world :=
  let* w1 := delete_cells w (ms_cells s) in
  let* w2 := delete_cells w1 (ms_notes s) in
  let* h3 := h_dels (w_heap w2) (ms_merged s) in
  let* h4 := h_dels h3 (map ml_ptr (ms_cols s)) in
  let* h5 := h_dels h4 (map ml_ptr (ms_rows s)) in
  let* h6 := h_dels h5 (ms_ranges s) in
  let* h7 := delete_stacks h6 (ms_stacks s) in
  let* h8 := h_dels h7 (map fst (ms_dvs s)) in
  let* h9 := h_dels h8 (ms_links s) in
  let* h10 := h_del h9 (ms_ptr s) in
  Ok (up_heap w2 h10).
Fixpoint delete_sheets (w : world) (l : list msheet) : res world :=
  match l with [] => Ok w | s :: t => let* w1 := delete_sheet w s in delete_sheets w1 t end.
(** HPSF.cpp 148-158, summinfo.cpp 81-86. *)
Fixpoint delete_items (w : world) (l : list hitem) : res world :=
  match l with [] => Ok w | i :: t => let* w1 := delete_item w i in delete_items w1 t end.
Definition delete_doc (w : world) (d : hdoc) : res world :=
  let* w1 := delete_items w (hd_items d) in w_del w1 (hd_ptr d).
(** globalrec.cpp 247-297, then the palette member (colors.cpp 95-98). *)
Definition delete_glob (h : heap) (g : glob) : res heap :=
  let* h1 := h_dels h (g_dfonts g) in
  let* h2 := h_dels h1 (g_fonts g) in
  let* h3 := h_dels h2 (g_fmts g) in
  let* h4 := h_dels h3 (map xo_ptr (g_dxfs g)) in
  let* h5 := h_dels h4 (map xo_ptr (g_xfs g)) in
  let* h6 := h_dels h5 (g_styles g) in
  let* h7 := h_dels h6 (g_bsheets g) in
  h_dels h7 (opt_list (g_palette g)).
(** workbook.cpp 87-95: the sheets; then the members in the opposite order of their
    declaration (workbook.h 109-114); then the workbook itself. *)
Definition delete_workbook (m : mem) : res heap :=
  let* _ := w_use (m_w m) (m_self m) in
  let* w1 := delete_sheets (m_w m) (m_sheets m) in
  let* w2 := delete_doc w1 (m_doc m) in
  let* w3 := delete_doc w2 (m_sum m) in
  let* h4 := delete_glob (w_heap w3) (w_glob w3) in
  h_del h4 (m_self m).
