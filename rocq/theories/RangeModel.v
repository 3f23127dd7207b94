(** The two operations on ranges that remember formats: cellcolor and boxer (range.cpp). *)
From Coq Require Import ZArith List Bool.
From Verif Require Import Bytes UnitModel RecModel SheetModel XfModel WbModel ApiModel.
Import ListNotations.
Local Open Scope Z_scope.

(** range.h 111-130 xf_Pair_Set_t: a set of (format, flags, resulting format), ordered by
    the format's 16-bit index and the flags; [find] and [insert] compare nothing else.  An
    entry is (index, flags, result). *)
Definition memo := list (Z * Z * Z).
Definition memo_find (m : memo) (i f : Z) : option Z :=
  option_map snd (find (fun e => ((fst (fst e) =? i) && (snd (fst e) =? f))%bool) m).
Definition memo_insert (m : memo) (i f q : Z) : memo :=
  match memo_find m i f with Some _ => m | None => m ++ [(i, f, q)] end.

(** cell.cpp 383 GetXF. *)
Definition cell_pxf (w : wb) (k : nat) (r c : Z) : res Z :=
  match nth_error (wb_sheets w) k with
  | Some s => match find_cell s r c with Some x => Ok (c_xf x) | None => UB end
  | None => UB
  end.
Definition xf_flags (fs : fstate) (p : Z) : res Z := match xf_at fs p with Some x => Ok (x_flags x) | None => UB end.
(** Setters called on one cell, in order. *)
Definition setters (w : wb) (k : nat) (r c : Z) (ops : list fmtop) : res wb :=
  fold_res (fun w o => api_cellop w k r c (CFormat o)) ops w.

(** range.cpp 66-100 cellcolor, the body of the loop.  The flags in the inserted key are
    read again after the setters. *)
Definition color_step (color : Z) (k : nat) (st : wb * memo) (rc : Z * Z) : res (wb * memo) :=
  let (r, c) := rc in let (w, m) := st in
  let* w0 := find_or_blank w k r c in
  let* p := cell_pxf w0 k r c in
  let* f := xf_flags (wb_fs w0) p in
  match memo_find m (p mod 65536) f with
  | Some q => let* w1 := api_cellop w0 k r c (CSetXF (Some q)) in Ok (w1, m)
  | None =>
      let* w1 := setters w0 k r c [FXf (XFg color); FXf (XFill 1)] in
      let* f1 := xf_flags (wb_fs w1) p in
      let* q := cell_pxf w1 k r c in
      Ok (w1, memo_insert m (p mod 65536) f1 q)
  end.

(** range.cpp 118-180 boxer.  Sides: BORDER_BOTTOM 0, BORDER_TOP 1, BORDER_LEFT 2,
    BORDER_RIGHT 3 (extformat.h); bits: range.h 104-109. *)
Definition edge_bits (r1 c1 r2 c2 r c : Z) : Z :=
  let b0 := 0 in
  let b1 := if r =? r1 then Z.lor b0 2 else b0 in
  let b2 := if r =? r2 then Z.lor b1 1 else b1 in
  let b3 := if c =? c1 then Z.lor b2 4 else b2 in
  if c =? c2 then Z.lor b3 8 else b3.
Definition edge_ops (here : bool) (side style color : Z) : list fmtop :=
  if here then [FXf (XBStyle side style); FXf (XBColor side color)] else [].
(** The background colour is passed to fillfgcolor (range.cpp 169-170). *)
Definition box_ops (r1 c1 r2 c2 r c : Z) (style fill bcolor fg bg : Z) : list fmtop :=
  edge_ops (r =? r1) 1 style bcolor ++ edge_ops (r =? r2) 0 style bcolor
  ++ edge_ops (c =? c1) 2 style bcolor ++ edge_ops (c =? c2) 3 style bcolor
  ++ [FXf (XFg fg); FXf (XFg bg); FXf (XFill fill)].
Definition box_step (r1 c1 r2 c2 style fill bcolor fg bg : Z) (k : nat) (st : wb * memo) (rc : Z * Z) : res (wb * memo) :=
  let (r, c) := rc in let (w, m) := st in
  let b := edge_bits r1 c1 r2 c2 r c in
  let* w0 := find_or_blank w k r c in
  let* p := cell_pxf w0 k r c in
  match memo_find m (p mod 65536) b with
  | Some q => let* w1 := api_cellop w0 k r c (CSetXF (Some q)) in Ok (w1, m)
  | None =>
      let* w1 := setters w0 k r c (box_ops r1 c1 r2 c2 r c style fill bcolor fg bg) in
      let* q := cell_pxf w1 k r c in
      Ok (w1, memo_insert m (p mod 65536) b q)
  end.

(** The constructor's assertions and the loops, as in [api_range]. *)
Definition range_loop (step : wb * memo -> Z * Z -> res (wb * memo)) (w : wb) (r1 c1 r2 c2 : Z) : res wb :=
  if negb ((r1 <=? r2) && (c1 <=? c2))%bool then Throw
  else if ((r2 =? 4294967295) || (c2 =? 4294967295))%bool then UB
  else let* (w', _) := fold_res step (block_of r1 c1 r2 c2) (w, []) in Ok w'.
Definition api_cellcolor (w : wb) (k : nat) (r1 c1 r2 c2 color : Z) : res wb :=
  range_loop (color_step color k) w r1 c1 r2 c2.
Definition api_boxer (w : wb) (k : nat) (r1 c1 r2 c2 style fill bcolor fg bg : Z) : res wb :=
  range_loop (box_step r1 c1 r2 c2 style fill bcolor fg bg k) w r1 c1 r2 c2.

(** Histories with these calls. *)
Inductive xcall :=
| XCall (q : call)
| XColor (k : nat) (r1 c1 r2 c2 color : Z)
| XBox (k : nat) (r1 c1 r2 c2 style fill bcolor fg bg : Z).
Definition x_call (w : wb) (x : xcall) : res wb :=
  match x with
  | XCall q => api_call w q
  | XColor k r1 c1 r2 c2 color => api_cellcolor w k r1 c1 r2 c2 color
  | XBox k r1 c1 r2 c2 style fill bcolor fg bg => api_boxer w k r1 c1 r2 c2 style fill bcolor fg bg
  end.
Definition x_document (xs : list xcall) : res wb := let* w := wb_new in fold_res x_call xs w.
