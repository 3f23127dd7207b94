(** Independent specification: a BIFF8 reader.  It works on bytes only, knows nothing of
    the library's objects, and follows the published layout of the records.  The only
    imports are byte lists (Bytes) and the string reader (SpecBuf). *)
From Coq Require Import ZArith List Bool.
From Verif Require Import Bytes SpecBuf.
Import ListNotations.
Local Open Scope Z_scope.

(* ------------------------------------------------------------------ *)
(** * Framing: type (2 bytes), length (2 bytes, at most 8224), payload *)

Notation brec := (Z * list Z)%type.
Fixpoint split_records (fuel : nat) (b : list Z) : option (list brec) :=
  match fuel, b with
  | _, [] => Some []
  | S f, t0 :: t1 :: l0 :: l1 :: rest =>
      let n := le_value [l0; l1] in
      if ((8224 <? n) || (zlen rest <? n))%bool then None
      else match split_records f (skipn (Z.to_nat n) rest) with
           | Some rs => Some ((le_value [t0; t1], firstn (Z.to_nat n) rest) :: rs)
           | None => None
           end
  | _, _ => None
  end.
Definition records (b : list Z) : option (list brec) := split_records (length b) b.

(** Record types of the published format. *)
Definition T_FORMULA := 6.      Definition T_EOF := 10.       Definition T_FONT := 49.
Definition T_CONTINUE := 60.    Definition T_BOUNDSHEET := 133. Definition T_COLINFO := 125.
Definition T_PALETTE := 146.    Definition T_XF := 224.       Definition T_MERGEDCELLS := 229.
Definition T_SST := 252.        Definition T_LABELSST := 253. Definition T_FORMAT := 1054.
Definition T_DIMENSIONS := 512. Definition T_BLANK := 513.    Definition T_NUMBER := 515.
Definition T_LABEL := 516.      Definition T_BOOLERR := 517.  Definition T_STRING := 519.
Definition T_ROW := 520.        Definition T_INDEX := 523.    Definition T_ARRAY := 545.
Definition T_RK := 638.         Definition T_DBCELL := 215.   Definition T_BOF := 2057.
Definition T_EXTERNSHEET := 23. Definition T_SUPBOOK := 430.

(* ------------------------------------------------------------------ *)
(** * Substreams: BOF ... EOF, one after the other *)

Fixpoint until_eof (rs : list brec) : option (list brec * list brec) :=
  match rs with
  | [] => None
  | (t, p) :: rest =>
      if t =? T_EOF then Some ([], rest)
      else if t =? T_BOF then None
      else match until_eof rest with
           | Some (body, r) => Some ((t, p) :: body, r)
           | None => None
           end
  end.
(** A BOF record of the BIFF8 version: 16 bytes, version 0x0600. *)
Definition biff8 (p : list Z) : bool := ((zlen p =? 16) && (le_value (firstn 2 p) =? 1536))%bool.
(** Each substream: the kind announced by its BOF record and the records up to EOF. *)
Fixpoint substreams (fuel : nat) (rs : list brec) : option (list (Z * list brec)) :=
  match fuel, rs with
  | _, [] => Some []
  | S f, (t, p) :: rest =>
      if ((t =? T_BOF) && biff8 p)%bool then
        match until_eof rest with
        | Some (body, r) =>
            match substreams f r with
            | Some l => Some ((le_value (firstn 2 (skipn 2 p)), body) :: l)
            | None => None
            end
        | None => None
        end
      else None
  | _, _ => None
  end.
(** The k-th substream of a stream: kind and records. *)
Definition substream (b : list Z) (k : nat) : option (Z * list brec) :=
  match records b with
  | Some rs => match substreams (length rs) rs with Some l => nth_error l k | None => None end
  | None => None
  end.
Definition K_GLOBALS := 5.
Definition K_SHEET := 16.

(* ------------------------------------------------------------------ *)
(** * Fields *)

Definition fld (n : nat) (p : list Z) (off : nat) : option Z :=
  if Nat.leb (off + n) (length p) then Some (le_value (firstn n (skipn off p))) else None.
Definition payloads (t : Z) (rs : list brec) : list (list Z) :=
  map snd (filter (fun r => fst r =? t) rs).
Fixpoint traverse {A B} (f : A -> option B) (l : list A) : option (list B) :=
  match l with
  | [] => Some []
  | x :: t => match f x, traverse f t with Some y, Some ys => Some (y :: ys) | _, _ => None end
  end.
Notation "'olet' x := a 'in' b" := (match a with Some x => b | None => None end)
  (at level 200, x pattern, a at level 100, b at level 200).

(* ------------------------------------------------------------------ *)
(** * Numbers *)

Inductive num := NInt (n : Z) | NCents (n : Z) | NDouble (bits : Z) | NDoubleCents (bits : Z).
Definition signed (w v : Z) : Z := if v <? 2 ^ (w - 1) then v else v - 2 ^ w.
(** An RK value: bit 0 divides by 100, bit 1 selects a signed 30-bit integer, otherwise
    the upper 30 bits are those of a double. *)
Definition rk_num (r : Z) : num :=
  if Z.testbit r 1 then
    let n := signed 30 (r / 4) in if Z.testbit r 0 then NCents n else NInt n
  else
    let d := (r / 4) * 4 * 4294967296 in if Z.testbit r 0 then NDoubleCents d else NDouble d.
(** The value of a finite IEEE-754 double as mantissa and exponent: m * 2^e. *)
Definition double_parts (bits : Z) : option (Z * Z) :=
  let s := bits / 2 ^ 63 in
  let e := (bits / 2 ^ 52) mod 2048 in
  let f := bits mod 2 ^ 52 in
  let sg := if s =? 0 then 1 else -1 in
  if e =? 2047 then None
  else if e =? 0 then Some (sg * f, -1074)
  else Some (sg * (f + 2 ^ 52), e - 1075).
(** The number denotes exactly the integer [z]. *)
Definition denotes (x : num) (z : Z) : Prop :=
  match x with
  | NInt n => n = z
  | NDouble bits =>
      match double_parts bits with
      | Some (m, e) => if 0 <=? e then m * 2 ^ e = z else m = z * 2 ^ (- e)
      | None => False
      end
  | _ => False
  end.

(* ------------------------------------------------------------------ *)
(** * Cells *)

Record rformula := mkRF {
  rf_result : Z; rf_flags : Z; rf_array : bool; rf_toks : list Z; rf_string : option (list Z) }.
Inductive rval :=
| RBlank | RBool (b : bool) | RErr (e : Z) | RNum (n : num) | RText (s : list Z)
| RFormula (f : rformula).
Record rcell := mkRC { rc_row : Z; rc_col : Z; rc_xf : Z; rc_val : rval }.

Definition whole_string (lenbytes : nat) (p : list Z) : option (list Z) :=
  match read_string lenbytes p with Some (s, []) => Some s | _ => None end.
Definition bytes_exactly (n : Z) (p : list Z) : option (list Z) :=
  if zlen p =? n then Some p else None.

(** The cell described by one record, if it is a cell record. *)
Definition read_cell (sst : list (list Z)) (r : brec) : option rval :=
  let p := snd r in
  if fst r =? T_BLANK then (if zlen p =? 6 then Some RBlank else None)
  else if fst r =? T_BOOLERR then
    match skipn 6 p with
    | [v; 0] => Some (RBool (negb (v =? 0)))
    | [v; 1] => Some (RErr v)
    | _ => None
    end
  else if fst r =? T_RK then
    (if zlen p =? 10 then olet v := fld 4 p 6 in Some (RNum (rk_num v)) else None)
  else if fst r =? T_NUMBER then
    (if zlen p =? 14 then olet v := fld 8 p 6 in Some (RNum (NDouble v)) else None)
  else if fst r =? T_LABEL then
    olet s := whole_string 2 (skipn 6 p) in Some (RText s)
  else if fst r =? T_LABELSST then
    (if zlen p =? 10 then
       olet i := fld 4 p 6 in olet s := nth_error sst (Z.to_nat i) in Some (RText s)
     else None)
  else if fst r =? T_FORMULA then
    olet res := fld 8 p 6 in olet fl := fld 2 p 14 in olet n := fld 2 p 20 in
    olet toks := bytes_exactly n (skipn 22 p) in
    Some (RFormula (mkRF res fl false toks None))
  else None.
Definition is_cell (t : Z) : bool :=
  existsb (Z.eqb t) [T_BLANK; T_BOOLERR; T_RK; T_NUMBER; T_LABEL; T_LABELSST; T_FORMULA].

(** An ARRAY record gives the tokens of the array formula whose FORMULA record precedes it;
    that record holds only a token that refers to the cell, and the range of the ARRAY record
    is the cell (columns have 8 bits there).  A STRING record gives its text result.  [acc]: the cells read so far, latest first. *)
Definition refers_to (row col : Z) (toks : list Z) : bool :=
  match toks with [1; a; b; c; d] => ((le_value [a; b] =? row) && (le_value [c; d] =? col))%bool | _ => false end.
Definition read_step (sst : list (list Z)) (acc : list rcell) (r : brec) : option (list rcell) :=
  let p := snd r in
  if is_cell (fst r) then
    olet row := fld 2 p 0 in olet col := fld 2 p 2 in olet xf := fld 2 p 4 in
    olet v := read_cell sst r in Some (mkRC row col xf v :: acc)
  else if fst r =? T_ARRAY then
    match acc with
    | mkRC row col xf (RFormula f) :: t =>
        olet r1 := fld 2 p 0 in olet r2 := fld 2 p 2 in olet c1 := fld 1 p 4 in olet c2 := fld 1 p 5 in
        olet n := fld 2 p 12 in olet toks := bytes_exactly n (skipn 14 p) in
        if negb ((r1 =? row) && (r2 =? row) && (c1 =? col mod 256) && (c2 =? col mod 256) && refers_to row col (rf_toks f)) then None else
        Some (mkRC row col xf (RFormula (mkRF (rf_result f) (rf_flags f) true toks (rf_string f))) :: t)
    | _ => None
    end
  else if fst r =? T_STRING then
    match acc with
    | mkRC row col xf (RFormula f) :: t =>
        olet s := whole_string 2 p in
        Some (mkRC row col xf (RFormula (mkRF (rf_result f) (rf_flags f) (rf_array f) (rf_toks f) (Some s))) :: t)
    | _ => None
    end
  else Some acc.
Fixpoint read_loop (sst : list (list Z)) (rs : list brec) (acc : list rcell) : option (list rcell) :=
  match rs with
  | [] => Some (rev acc)
  | r :: t => olet acc1 := read_step sst acc r in read_loop sst t acc1
  end.
Definition read_cells (sst : list (list Z)) (rs : list brec) : option (list rcell) := read_loop sst rs [].

(* ------------------------------------------------------------------ *)
(** * Shared strings: the SST record and the CONTINUE records right after it *)

(** Strings filling a payload exactly. *)
Fixpoint read_strings (fuel : nat) (p : list Z) : option (list (list Z)) :=
  match fuel, p with
  | _, [] => Some []
  | S f, _ => olet (s, r) := read_string 2 p in olet ss := read_strings f r in Some (s :: ss)
  | O, _ => None
  end.
Definition strings (p : list Z) : option (list (list Z)) := read_strings (length p) p.
Fixpoint continued_strings (rs : list brec) : option (list (list Z)) :=
  match rs with
  | (t, p) :: rest =>
      if t =? T_CONTINUE then
        olet a := strings p in olet b := continued_strings rest in Some (a ++ b)
      else Some []
  | [] => Some []
  end.
(** The table of a globals substream; both counters of the SST record must be right. *)
Fixpoint read_sst (rs : list brec) : option (list (list Z)) :=
  match rs with
  | [] => Some []
  | (t, p) :: rest =>
      if t =? T_SST then
        olet n := fld 4 p 0 in olet m := fld 4 p 4 in
        olet a := strings (skipn 8 p) in olet b := continued_strings rest in
        if ((n =? zlen (a ++ b)) && (m =? zlen (a ++ b)))%bool then Some (a ++ b) else None
      else read_sst rest
  end.

(* ------------------------------------------------------------------ *)
(** * Other records *)

Record rsheetentry := mkRSE { se_pos : Z; se_flags : Z; se_name : list Z }.
Definition read_boundsheet (p : list Z) : option rsheetentry :=
  olet pos := fld 4 p 0 in olet fl := fld 2 p 4 in
  olet s := whole_string 1 (skipn 6 p) in Some (mkRSE pos fl s).
Definition read_boundsheets (rs : list brec) : option (list rsheetentry) :=
  traverse read_boundsheet (payloads T_BOUNDSHEET rs).

Record rdims := mkRD { rd_row0 : Z; rd_row1 : Z; rd_col0 : Z; rd_col1 : Z }.
Definition read_dims (p : list Z) : option rdims :=
  if zlen p =? 14 then
    olet a := fld 4 p 0 in olet b := fld 4 p 4 in olet c := fld 2 p 8 in olet d := fld 2 p 10 in
    Some (mkRD a b c d)
  else None.

(** Flags: bits 0 to 2 are the outline level, bit 4 marks a collapsed outline, bit 5 hides the
    row, bit 6 is on if the height was set and bit 7 if the format counts. *)
Record rrow := mkRR { rr_row : Z; rr_col0 : Z; rr_col1 : Z; rr_height : Z; rr_flags : Z; rr_xf : Z }.
Definition read_row (p : list Z) : option rrow :=
  if zlen p =? 16 then
    olet r := fld 2 p 0 in olet a := fld 2 p 2 in olet b := fld 2 p 4 in olet h := fld 2 p 6 in
    olet f := fld 2 p 12 in olet x := fld 2 p 14 in Some (mkRR r a b h f x)
  else None.
Definition read_rows (rs : list brec) : option (list rrow) := traverse read_row (payloads T_ROW rs).

(** Bit 0 of the options hides the columns, bits 8 to 10 are the outline level, bit 12 marks
    a collapsed outline. *)
Record rcolinfo := mkRCol { rl_first : Z; rl_last : Z; rl_width : Z; rl_xf : Z; rl_options : Z }.
Definition read_colinfo (p : list Z) : option rcolinfo :=
  if zlen p =? 12 then
    olet a := fld 2 p 0 in olet b := fld 2 p 2 in olet w := fld 2 p 4 in olet x := fld 2 p 6 in
    olet o := fld 2 p 8 in Some (mkRCol a b w x o)
  else None.
Definition read_colinfos (rs : list brec) : option (list rcolinfo) :=
  traverse read_colinfo (payloads T_COLINFO rs).

Record rrange := mkRRg { g_row0 : Z; g_row1 : Z; g_col0 : Z; g_col1 : Z }.
Fixpoint read_ranges (n : nat) (p : list Z) : option (list rrange) :=
  match n with
  | O => match p with [] => Some [] | _ => None end
  | S m => olet a := fld 2 p 0 in olet b := fld 2 p 2 in olet c := fld 2 p 4 in olet d := fld 2 p 6 in
           olet l := read_ranges m (skipn 8 p) in Some (mkRRg a b c d :: l)
  end.
Definition read_merged (p : list Z) : option (list rrange) :=
  olet n := fld 2 p 0 in read_ranges (Z.to_nat n) (skipn 2 p).

Record rindex := mkRI { ri_row0 : Z; ri_row1 : Z; ri_offsets : list Z }.
Fixpoint read_u32s (fuel : nat) (p : list Z) : option (list Z) :=
  match fuel, p with
  | _, [] => Some []
  | S f, _ => olet v := fld 4 p 0 in olet l := read_u32s f (skipn 4 p) in Some (v :: l)
  | O, _ => None
  end.
(** INDEX: reserved, first row, one past last row, position of DEFCOLWIDTH, then one
    position per row block. *)
Definition read_index (p : list Z) : option rindex :=
  olet a := fld 4 p 4 in olet b := fld 4 p 8 in
  olet l := read_u32s (length p) (skipn 16 p) in Some (mkRI a b l).

Fixpoint read_colors (fuel : nat) (p : list Z) : option (list (Z * Z * Z)) :=
  match fuel, p with
  | _, [] => Some []
  | S f, r :: g :: b :: _ :: t => olet l := read_colors f t in Some ((r, g, b) :: l)
  | _, _ => None
  end.
(** PALETTE: count, then red, green, blue, unused; the first entry is colour index 8. *)
Definition read_palette (p : list Z) : option (list (Z * Z * Z)) :=
  olet n := fld 2 p 0 in olet l := read_colors (length p) (skipn 2 p) in
  if zlen l =? n then Some l else None.

(* ------------------------------------------------------------------ *)
(** * A sheet of a workbook *)

Record rsheet := mkRSh { rs_name : list Z; rs_body : list brec; rs_cells : list rcell }.
