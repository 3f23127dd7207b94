(** Independent specification: reading a whole .xls file.  The compound file reader gives the
    Workbook stream (followed by padding); the BIFF8 reader starts at byte 0 for the globals
    and at the byte positions the sheet entries give for the sheets, and reads each substream
    from its BOF record to its EOF record, whatever follows. *)
From Coq Require Import ZArith List Bool.
From Verif Require Import Bytes SpecBuf SpecCFB SpecBiff.
Import ListNotations.
Local Open Scope Z_scope.

(** The record at the head of [b], and the rest. *)
Definition next_record (b : list Z) : option (brec * list Z) :=
  match b with
  | t0 :: t1 :: l0 :: l1 :: rest =>
      let n := le_value [l0; l1] in
      if ((8224 <? n) || (zlen rest <? n))%bool then None
      else Some ((le_value [t0; t1], firstn (Z.to_nat n) rest), skipn (Z.to_nat n) rest)
  | _ => None
  end.
(** The records up to EOF. *)
Fixpoint body_from (fuel : nat) (b : list Z) : option (list brec) :=
  match fuel with
  | O => None
  | S f =>
      match next_record b with
      | Some ((t, p), rest) =>
          if t =? T_EOF then Some []
          else if t =? T_BOF then None
          else match body_from f rest with Some l => Some ((t, p) :: l) | None => None end
      | None => None
      end
  end.
(** The substream that starts at byte [pos]: its kind and its records. *)
Definition substream_at (b : list Z) (pos : Z) : option (Z * list brec) :=
  if ((pos <? 0) || (zlen b <=? pos))%bool then None else
  match next_record (skipn (Z.to_nat pos) b) with
  | Some ((t, p), rest) =>
      if ((t =? T_BOF) && biff8 p)%bool then
        match fld 2 p 2, body_from (length rest) rest with
        | Some kind, Some body => Some (kind, body)
        | _, _ => None
        end
      else None
  | None => None
  end.
Definition sheet_from (b : list Z) (sst : list (list Z)) (e : rsheetentry) : option rsheet :=
  match substream_at b (se_pos e) with
  | Some (k, body) =>
      if k =? K_SHEET then olet cells := read_cells sst body in Some (mkRSh (se_name e) body cells)
      else None
  | None => None
  end.
Definition read_book (b : list Z) : option (list rsheet) :=
  match substream_at b 0 with
  | Some (k, globals) =>
      if k =? K_GLOBALS then
        olet sst := read_sst globals in olet es := read_boundsheets globals in
        traverse (sheet_from b sst) es
      else None
  | None => None
  end.
(** The directory name of the stream, in UTF-16. *)
Definition WORKBOOK : list Z := [87; 111; 114; 107; 98; 111; 111; 107].
Definition read_file (f : list Z) : option (list rsheet) :=
  olet b := cfb_read f WORKBOOK in read_book b.
