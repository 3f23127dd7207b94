(** The workbook: global records, their dump state machine (globalrec.cpp), and the
    machine that interleaves globals, sheets and CONTINUE records (workbook.cpp).  File
    names are relative to /repo/xlslib/src/xlslib.  size_t arithmetic is unbounded. *)
From Coq Require Import ZArith List Bool.
From Verif Require Import Bytes UnitModel RecModel SheetModel XfModel.
Import ListNotations.
Local Open Scope Z_scope.

(** recdef.h 340-365 boundsheet_t: the name and the note counter (unsigned16_t). *)
Record bsheet := mkBS { bs_name : list Z; bs_notes : Z }.

(** Members of CGlobalRecords that reach the file.  The style list is the constant one
    of globalrec.cpp 201-236. *)
Record globals := mkG {
  g_fs : fstate;
  g_palette : list (Z * Z * Z);
  g_labels : labels;
  g_w1 : window1;
  g_bs : list bsheet }.

(** globalrec.cpp 201-236. *)
Definition default_styles : list style :=
  [mkStyle 16 3 255; mkStyle 17 6 255; mkStyle 18 4 255; mkStyle 19 7 255; mkStyle 0 0 255;
   mkStyle 20 5 255].

(** Formats with the index they carry (AddFormat, globalrec.cpp 647-651). *)
Fixpoint indexed_formats (l : list fmtobj) (i : Z) : list format :=
  match l with
  | [] => []
  | f :: t => mkFormat i (fmo_str f) :: indexed_formats t (i + 1)
  end.

(** datast.cpp 452-489 MakeDrawingGroup: sheet index and count of every sheet with notes
    ([None]: NULL). *)
Fixpoint noted_sheets (l : list bsheet) (i : Z) : list (Z * Z) :=
  match l with
  | [] => []
  | b :: t => if bs_notes b =? 0 then noted_sheets t (i + 1)
              else (i, bs_notes b) :: noted_sheets t (i + 1)
  end.

(* ------------------------------------------------------------------ *)
(** * CGlobalRecords::DumpData *)

(** globalrec.h GlobalRecordDumpState_t. *)
Inductive gstate :=
| GInit | GBof | GCodepage | GWindow1 | GDatemode | GDefFonts | GFonts | GFormats | GDefXfs
| GXfs | GStyles | GPalette | GBsheets | GLink1 | GLink2 | GDrawing | GSst | GEof | GFinish.

(** Members used while dumping; iterators are the remaining elements. *)
Record gdump := mkGD {
  gd_state : gstate;
  gd_dfont : list fontobj; gd_font : list fontobj; gd_format : list format;
  gd_dxf : list xf; gd_xf : list xf; gd_style : list style; gd_bs : list bsheet }.
Definition gd_new : gdump := mkGD GInit [] [] [] [] [] [] [].

Definition gto (d : gdump) (s : gstate) : gdump :=
  mkGD s (gd_dfont d) (gd_font d) (gd_format d) (gd_dxf d) (gd_xf d) (gd_style d) (gd_bs d).

(** [if(it != --end) it++ else state = next]: whether the element just written was the
    last one. *)
Definition after {A} (t : list A) (stay next : gstate) : gstate :=
  match t with [] => next | _ => stay end.

(** A step result that also says whether the unit is a BOUNDSHEET record, which the
    boundsheet_t object remembers (recdef.cpp 92-102 SetSheetData). *)
Inductive gres := GAgain | GGive (u : option bunit) (isbs : bool).

(** One pass through the switch of globalrec.cpp 312-594. *)
Definition g_step (g : globals) (d : gdump) : res (gres * gdump) :=
  let give ops st := let* u := build ops in Ok (GGive (Some u) false, gto d st) in
  match gd_state d with
  | GInit =>
      Ok (GAgain, mkGD GBof (fs_dfonts (g_fs g)) (fs_fonts (g_fs g))
                       (indexed_formats (fs_formats (g_fs g)) 164) (fs_dxfs (g_fs g))
                       (fs_xfs (g_fs g)) default_styles (g_bs g))
  | GBof => give (rec_bof 5) GCodepage
  | GCodepage => give (rec_codepage 1200) GWindow1
  | GWindow1 => give (rec_window1 (g_w1 g)) GDatemode
  | GDatemode => give rec_datemode GDefFonts
  | GDefFonts =>
      match gd_dfont d with
      | [] => UB                        (* *font_dflt at end() *)
      | f :: t =>
          let* u := build (rec_font (fo_val f)) in
          Ok (GGive (Some u) false,
              mkGD (after t GDefFonts GFonts) t (gd_font d) (gd_format d) (gd_dxf d) (gd_xf d)
                   (gd_style d) (gd_bs d))
      end
  | GFonts =>
      match fs_fonts (g_fs g) with
      | [] => Ok (GAgain, gto d GFormats)
      | _ =>
          match gd_font d with
          | [] => UB
          | f :: t =>
              let* u := build (rec_font (fo_val f)) in
              Ok (GGive (Some u) false,
                  mkGD (after t GFonts GFormats) (gd_dfont d) t (gd_format d) (gd_dxf d)
                       (gd_xf d) (gd_style d) (gd_bs d))
          end
      end
  | GFormats =>
      match fs_formats (g_fs g) with
      | [] => Ok (GAgain, gto d GDefXfs)
      | _ =>
          match gd_format d with
          | [] => UB
          | f :: t =>
              let* u := build (rec_format f) in
              Ok (GGive (Some u) false,
                  mkGD (after t GFormats GDefXfs) (gd_dfont d) (gd_font d) t (gd_dxf d) (gd_xf d)
                       (gd_style d) (gd_bs d))
          end
      end
  | GDefXfs =>
      match gd_dxf d with
      | [] => UB
      | x :: t =>
          let* u := build (rec_xf x) in
          Ok (GGive (Some u) false,
              mkGD (after t GDefXfs GXfs) (gd_dfont d) (gd_font d) (gd_format d) t (gd_xf d)
                   (gd_style d) (gd_bs d))
      end
  | GXfs =>
      match fs_xfs (g_fs g) with
      | [] => Ok (GAgain, gto d GStyles)
      | _ =>
          match gd_xf d with
          | [] => UB
          | x :: t =>
              let* u := build (rec_xf x) in
              Ok (GGive (Some u) false,
                  mkGD (after t GXfs GStyles) (gd_dfont d) (gd_font d) (gd_format d) (gd_dxf d) t
                       (gd_style d) (gd_bs d))
          end
      end
  | GStyles =>
      match gd_style d with
      | [] => UB
      | s :: t =>
          let* u := build (rec_style s) in
          Ok (GGive (Some u) false,
              mkGD (after t GStyles GPalette) (gd_dfont d) (gd_font d) (gd_format d) (gd_dxf d)
                   (gd_xf d) t (gd_bs d))
      end
  | GPalette => give (rec_palette (g_palette g)) GBsheets
  | GBsheets =>
      match g_bs g with
      | [] => Ok (GAgain, gto d GLink1)
      | _ =>
          match gd_bs d with
          | [] => UB
          | b :: t =>
              let* u := build (rec_bsheet 0 (bs_name b)) in
              Ok (GGive (Some u) true,
                  mkGD (after t GBsheets GLink1) (gd_dfont d) (gd_font d) (gd_format d) (gd_dxf d)
                       (gd_xf d) (gd_style d) t)
          end
      end
  | GLink1 => give (rec_supbook (zlen (g_bs g))) GLink2
  | GLink2 => give (rec_externsheet (length (g_bs g))) GDrawing
  | GDrawing =>
      match noted_sheets (g_bs g) 0 with
      | [] => Ok (GAgain, gto d GSst)
      | l => give (rec_drawing_group l) GSst
      end
  | GSst =>
      match g_labels g with
      | [] => Ok (GAgain, gto d GEof)
      | l =>
          (* MakeSST sets the AlreadyContinued flag *)
          let* u := build (rec_sst (map snd l)) in
          Ok (GGive (Some (mkBU (bu_bytes u) true)) false, gto d GEof)
      end
  | GEof => give rec_eof GFinish
  | GFinish => Ok (GGive None false, gto d GInit)
  end.

(** do { ... } while(repeat): at most three passes (WbProofs); fuel exhaustion is [UB]. *)
Fixpoint g_loop (fuel : nat) (g : globals) (d : gdump) : res (option bunit * bool * gdump) :=
  match fuel with
  | O => UB
  | S f =>
      let* (r, d1) := g_step g d in
      match r with
      | GAgain => g_loop f g d1
      | GGive u b => Ok (u, b, d1)
      end
  end.
Definition globals_dump_data := g_loop 4.

(* ------------------------------------------------------------------ *)
(** * workbook::DumpData *)

(** workbook.h WorkbookDumpState_t. *)
Inductive wstate := WInit | WGlobals | WSheets | WContinue | WFinish.

Record wdump := mkWD {
  w_state : wstate;                     (* m_DumpState *)
  w_prev : wstate;                      (* m_PreviousDumpState *)
  w_unit : list Z;                      (* the unit m_pCurrentData while it is continued: all
                                           its bytes, before Clip *)
  w_real : Z;                           (* m_ContinuesRealRecordSize *)
  w_cidx : Z;                           (* m_ContinueIndex, unsigned16_t *)
  w_len : Z;                            (* m_writeLen *)
  w_off : Z;                            (* m_offset *)
  w_cur : nat;                          (* m_current_sheet *)
  w_g : gdump;
  w_sh : list shdump;                   (* the sheets with their dump state *)
  w_store : list (list Z);              (* the units added to the storage so far *)
  w_bs : list nat                       (* where the BOUNDSHEET units are stored *)
}.

(** recdef.cpp 98-102, 411-418: patch the stored BOUNDSHEET record of sheet [k]. *)
Definition patch_streampos (store : list (list Z)) (at_ : nat) (pos : Z) : list (list Z) :=
  match nth_error store at_ with
  | None => store
  | Some l =>
      match arun_ops (Some l) [op_streampos pos] with
      | Ok (_, Some l') => upd at_ l' store
      | _ => store
      end
  end.

(** datast.cpp 199-213 Clip: the record keeps its first 8224 payload bytes. *)
Definition clip (l : list Z) : list Z :=
  firstn (Z.to_nat (MAX_RECORD_SIZE + RECORD_HEADER_SIZE))
         (match arun_ops (Some l) [OSet16 MAX_RECORD_SIZE 2] with
          | Ok (_, Some l') => l'
          | _ => l
          end).

Inductive wres := WAgain | WGive (u : option (list Z)).

Definition wset (d : wdump) st prev unit_ real cidx len off cur gd sh store bs : wdump :=
  mkWD st prev unit_ real cidx len off cur gd sh store bs.

(** A unit just produced by the globals or by a sheet: emitted as it is, or continued
    (workbook.cpp 467-480). *)
Definition w_emit (u : bunit) (d : wdump) : res (wres * wdump) :=
  if (negb (bu_cont u) && (MAX_RECORD_SIZE <? bu_size u - RECORD_HEADER_SIZE))%bool
  then Ok (WAgain, mkWD WContinue (w_state d) (bu_bytes u) (w_real d) 0 (w_len d) (w_off d)
                        (w_cur d) (w_g d) (w_sh d) (w_store d) (w_bs d))
  else Ok (WGive (Some (bu_bytes u)), d).

(** One pass through the loop of workbook.cpp 342-481.  [moves n] says whether adding the
    [n]-th unit (from 0) reallocates the storage vector: the library reserves room for an
    estimate of the number of units (workbook.cpp 272-300) and then relies on addresses
    staying valid.  Reading the payload of a clipped unit after such a move is undefined
    (datast.cpp 580-605 copies only the clipped size), and so is using the pointer taken
    before it. *)
Definition w_step (moves : nat -> bool) (g : globals) (active : Z) (d : wdump) :
  res (wres * wdump) :=
  match w_state d with
  | WInit =>
      Ok (WAgain, mkWD WGlobals WInit (w_unit d) (w_real d) (w_cidx d) 0 0 0 (w_g d) (w_sh d)
                       (w_store d) (w_bs d))
  | WGlobals =>
      let* (u, isbs, gd) := globals_dump_data g (w_g d) in
      match u with
      | None =>
          Ok (WAgain, mkWD WSheets WGlobals (w_unit d) (w_real d) (w_cidx d) 0 (w_len d) (w_cur d)
                           gd (w_sh d) (w_store d) (w_bs d))
      | Some u =>
          w_emit u (mkWD WGlobals (w_prev d) (w_unit d) (w_real d) (w_cidx d)
                         (w_len d + bu_size u) (w_off d) (w_cur d) gd (w_sh d) (w_store d)
                         (if (isbs : bool) then w_bs d ++ [length (w_store d)] else w_bs d))
      end
  | WSheets =>
      match nth_error (w_sh d) (w_cur d) with
      | None => UB                      (* m_Sheets[m_current_sheet] out of range *)
      | Some s =>
          let* (u, s1) := sheet_dump_data (g_labels g) active (w_off d + w_len d) s in
          let sh := upd (w_cur d) s1 (w_sh d) in
          match u with
          | None =>
              match nth_error (w_bs d) (w_cur d) with
              | None => UB
              | Some k =>
                  let store := patch_streampos (w_store d) k (w_off d) in
                  if Z.of_nat (w_cur d) + 1 <? zlen (w_sh d) mod 65536
                  then Ok (WAgain, mkWD WSheets (w_prev d) (w_unit d) (w_real d) (w_cidx d) 0
                                        (w_off d + w_len d) (S (w_cur d)) (w_g d) sh store (w_bs d))
                  else Ok (WAgain, mkWD WFinish WSheets (w_unit d) (w_real d) (w_cidx d) (w_len d)
                                        (w_off d) (w_cur d) (w_g d) sh store (w_bs d))
              end
          | Some u =>
              w_emit u (mkWD WSheets (w_prev d) (w_unit d) (w_real d) (w_cidx d)
                             (w_len d + bu_size u) (w_off d) (w_cur d) (w_g d) sh (w_store d)
                             (w_bs d))
          end
      end
  | WFinish =>
      Ok (WGive None, mkWD WInit WFinish (w_unit d) (w_real d) (w_cidx d) (w_len d) (w_off d)
                           (w_cur d) (w_g d) (w_sh d) (w_store d) (w_bs d))
  | WContinue =>
      let hdr prev := match prev with WSheets => RECORD_HEADER_SIZE | _ => 0 end in
      if w_cidx d =? 0 then
        Ok (WGive (Some (clip (w_unit d))),
            mkWD WContinue (w_prev d) (w_unit d) (zlen (w_unit d) - RECORD_HEADER_SIZE) 1 (w_len d)
                 (w_off d) (w_cur d) (w_g d) (w_sh d) (w_store d) (w_bs d))
      else
        let pdata := skipn (Z.to_nat (RECORD_HEADER_SIZE + w_cidx d * MAX_RECORD_SIZE)) (w_unit d) in
        if w_cidx d <? w_real d / MAX_RECORD_SIZE then
          if moves (length (w_store d)) then UB
          else
            let* u := build (rec_continue (firstn (Z.to_nat MAX_RECORD_SIZE) pdata)) in
            Ok (WGive (Some (bu_bytes u)),
                mkWD WContinue (w_prev d) (w_unit d) (w_real d) ((w_cidx d + 1) mod 65536)
                     (w_len d + hdr (w_prev d)) (w_off d) (w_cur d) (w_g d) (w_sh d) (w_store d)
                     (w_bs d))
        else
          let csize := w_real d - w_cidx d * MAX_RECORD_SIZE in
          (* m_DumpState = m_PreviousDumpState; m_PreviousDumpState = WB_CONTINUE_REC *)
          if csize =? 0 then
            Ok (WAgain, mkWD (w_prev d) WContinue (w_unit d) (w_real d) 0 (w_len d) (w_off d)
                             (w_cur d) (w_g d) (w_sh d) (w_store d) (w_bs d))
          else if moves (length (w_store d)) then UB
          else
            let* u := build (rec_continue (firstn (Z.to_nat csize) pdata)) in
            Ok (WGive (Some (bu_bytes u)),
                mkWD (w_prev d) WContinue (w_unit d) (w_real d) 0
                     (w_len d + hdr WContinue) (w_off d) (w_cur d) (w_g d) (w_sh d) (w_store d)
                     (w_bs d))
  end.

(** workbook.cpp 300-314: call DumpData until it returns NULL, adding every unit to the
    storage.  [None]: out of fuel. *)
Fixpoint w_run (fuel : nat) (moves : nat -> bool) (g : globals) (active : Z) (d : wdump) :
  option (res wdump) :=
  match fuel with
  | O => None
  | S f =>
      match w_step moves g active d with
      | Throw => Some Throw
      | UB => Some UB
      | Ok (WAgain, d1) => w_run f moves g active d1
      | Ok (WGive None, d1) => Some (Ok d1)
      | Ok (WGive (Some l), d1) =>
          w_run f moves g active
            (mkWD (w_state d1) (w_prev d1) (w_unit d1) (w_real d1) (w_cidx d1) (w_len d1) (w_off d1)
                  (w_cur d1) (w_g d1) (w_sh d1) (w_store d1 ++ [l]) (w_bs d1))
      end
  end.

(** Dump state of a workbook that is about to be saved: the machine is in WB_INIT with a
    fresh storage. *)
Definition wd_new (prev : wstate) (sheets : list shdump) : wdump :=
  mkWD WInit prev [] 0 0 0 0 0 gd_new sheets [] [].

(** sheetrec.cpp 755-781 EstimateNumBiffUnitsNeeded; MAX_ROWBLOCK_SIZE 16,
    MAX_COLUMNS_PER_ROW 256, RB_DBCELL_CELLSIZEOFFSET 2.  It fills the size cache. *)
Definition sheet_estimate (s : sheet) : res (Z * sheet) :=
  let ch := mkCache (sh_calc s) (sh_sizes s) (sh_sizes s) (sh_cells s) in
  let* (numrb, rb, ch1) := num_row_blocks (sh_cells s) ch in
  Ok (7 + zlen (sh_cols s) + zlen (sh_heights s) + zlen (sh_merged s) + zlen (sh_notes s) * 2
      + numrb + (16 * 256 * 2) / MAX_RECORD_SIZE + rb_rows rb + rb_cells rb + rb_cells rb,
      set_dumped s (sh_notes s) (sh_spid s) (ch_calc ch1) (ch_sizes ch1)).
Fixpoint sheets_estimate (l : list sheet) : res (Z * list sheet) :=
  match l with
  | [] => Ok (0, [])
  | s :: t =>
      let* (n, s1) := sheet_estimate s in
      let* (m, t1) := sheets_estimate t in
      Ok (n + m, s1 :: t1)
  end.
(** globalrec.cpp 296-310. *)
Definition globals_estimate (g : globals) : Z :=
  5 + zlen (fs_fonts (g_fs g)) + zlen (fs_dfonts (g_fs g)) + zlen (fs_formats (g_fs g))
  + zlen (fs_xfs (g_fs g)) + zlen (fs_dxfs (g_fs g)) + zlen default_styles + zlen (g_bs g)
  + zlen (g_labels g).

(** The document: globals and sheets. *)
Record book := mkBook { bk_g : globals; bk_sheets : list sheet }.

(** workbook.cpp 260-314, up to the point where the Workbook stream is complete: the
    stream's units and the sheets afterwards.  [moves est] is the reallocation behaviour
    of the vector for a reservation of [est] units. *)
Definition book_units (fuel : nat) (moves : Z -> nat -> bool) (b : book) :
  option (res (list (list Z) * list sheet)) :=
  match sheets_estimate (bk_sheets b) with
  | Throw => Some Throw
  | UB => Some UB
  | Ok (n, sheets) =>
      let est := n + globals_estimate (bk_g b) + 1000 in
      match w_run fuel (moves est) (bk_g b) (w1_active (g_w1 (bk_g b)))
                  (wd_new WFinish (map sd_new sheets)) with
      | None => None
      | Some Throw => Some Throw
      | Some UB => Some UB
      | Some (Ok d) => Some (Ok (w_store d, map e_sheet (w_sh d)))
      end
  end.
