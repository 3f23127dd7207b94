(** Record constructors of the library, each as the sequence of buffer operations its
    C++ constructor performs, in code order (UnitModel.uop).  File names are relative
    to /repo/xlslib/src/xlslib.  Casts such as (unsigned16_t)x are the wrap performed by
    the append itself, which keeps only the low bytes (UnitModel.le16/le32). *)
From Coq Require Import ZArith List Bool.
From Verif Require Import Bytes UnitModel.
Import ListNotations.
Local Open Scope Z_scope.

(** Record type codes, rectypes.h. *)
Definition RT_EOF := 10.            (* 0x000A *)
Definition RT_FORMULA := 6.         (* 0x0006 *)
Definition RT_EXTERNSHEET := 23.    (* 0x0017 *)
Definition RT_NOTE := 28.           (* 0x001C *)
Definition RT_DATEMODE := 34.       (* 0x0022 *)
Definition RT_FONT := 49.           (* 0x0031 *)
Definition RT_CONTINUE := 60.       (* 0x003C *)
Definition RT_WINDOW1 := 61.        (* 0x003D *)
Definition RT_PANE := 65.           (* 0x0041 *)
Definition RT_CODEPAGE := 66.       (* 0x0042 *)
Definition RT_DEFCOLWIDTH := 85.    (* 0x0055 *)
Definition RT_OBJ := 93.            (* 0x005D *)
Definition RT_COLINFO := 125.       (* 0x007D *)
Definition RT_BOUNDSHEET := 133.    (* 0x0085 *)
Definition RT_PALETTE := 146.       (* 0x0092 *)
Definition RT_DBCELL := 215.        (* 0x00D7 *)
Definition RT_XF := 224.            (* 0x00E0 *)
Definition RT_MERGEDCELLS := 229.   (* 0x00E5 *)
Definition RT_MSODRAWINGGROUP := 235. (* 0x00EB *)
Definition RT_MSODRAWING := 236.    (* 0x00EC *)
Definition RT_SST := 252.           (* 0x00FC *)
Definition RT_LABELSST := 253.      (* 0x00FD *)
Definition RT_SUPBOOK := 430.       (* 0x01AE *)
Definition RT_DVAL := 434.          (* 0x01B2 *)
Definition RT_TXO := 438.           (* 0x01B6 *)
Definition RT_HLINK := 440.         (* 0x01B8 *)
Definition RT_DV := 446.            (* 0x01BE *)
Definition RT_DIMENSIONS := 512.    (* 0x0200 *)
Definition RT_BLANK := 513.         (* 0x0201 *)
Definition RT_NUMBER := 515.        (* 0x0203 *)
Definition RT_LABEL := 516.         (* 0x0204 *)
Definition RT_BOOLERR := 517.       (* 0x0205 *)
Definition RT_STRING := 519.        (* 0x0207 *)
Definition RT_ROW := 520.           (* 0x0208 *)
Definition RT_INDEX := 523.         (* 0x020B *)
Definition RT_ARRAY := 545.         (* 0x0221 *)
Definition RT_DEFAULTROWHEIGHT := 549. (* 0x0225 *)
Definition RT_WINDOW2 := 574.       (* 0x023E *)
Definition RT_RK := 638.            (* 0x027E *)
Definition RT_STYLE := 659.         (* 0x0293 *)
Definition RT_FORMAT := 1054.       (* 0x041E *)
Definition RT_BOF := 2057.          (* 0x0809 *)

(** rectypes.h: RECORD_HEADER_SIZE, MAX_RECORD_SIZE. *)
Definition RECORD_HEADER_SIZE := 4.
Definition MAX_RECORD_SIZE := 8224.

(** record.cpp 43-59: CRecord::CRecord adds four zero bytes. *)
Definition rec_new : uop := OArray [0; 0; 0; 0].
(** record.cpp 60-66, 92-96: SetRecordType. *)
Definition set_type (t : Z) : uop := OSet16 t 0.
(** record.cpp 72-80: SetRecordLength(GetDataSize()-RECORD_HEADER_SIZE). *)
Definition set_len : uop := OSetSz16 2 4.

(** The common shape: CRecord(); SetRecordType(t); ...; SetRecordLength(size - 4). *)
Definition record (t : Z) (body : list uop) : list uop :=
  rec_new :: set_type t :: body ++ [set_len].

(* ------------------------------------------------------------------ *)
(** * Globals *)

(** recdef.cpp 108-124 CBof. *)
Definition rec_bof (boftype : Z) := record RT_BOF
  [OAdd16 1536; OAdd16 boftype; OAdd16 7519; OAdd16 1997; OAdd32 0; OAdd32 1536].
(** recdef.cpp 132-140 CEof. *)
Definition rec_eof := record RT_EOF [].
(** recdef.cpp 148-157 CCodePage (RECTYPE_CODENAME is 0x0042, rectypes.h). *)
Definition rec_codepage (v : Z) := record RT_CODEPAGE [OAdd16 v].

(** recdef.h/recdef.cpp 164-178: window1. *)
Record window1 := mkW1 {
  w1_horz : Z; w1_vert : Z; w1_width : Z; w1_height : Z;
  w1_active : Z; w1_first : Z; w1_tabwidth : Z }.
Definition window1_new := mkW1 0 0 715 484 0 0 500.
(** recdef.cpp 184-205 CWindow1 (TWIP is 20). *)
Definition rec_window1 (w : window1) := record RT_WINDOW1
  [OAdd16 (w1_horz w * 20); OAdd16 (w1_vert w * 20); OAdd16 (w1_width w * 20);
   OAdd16 (w1_height w * 20); OAdd16 56; OAdd16 (w1_active w); OAdd16 (w1_first w);
   OAdd16 1; OAdd16 (w1_tabwidth w)].
(** recdef.cpp 212-233 CDateMode (not __APPLE__: 1900 mode). *)
Definition rec_datemode := record RT_DATEMODE [OAdd16 0].

(** font.h/font.cpp: the attributes of a font_t that reach the record; the name is kept
    after char2str16 (CFont converts it on output, unit.cpp AddUnicodeString). *)
Record font := mkFont {
  fo_name : list Z; fo_height : Z; fo_attr : Z; fo_color : Z; fo_bold : Z;
  fo_script : Z; fo_under : Z; fo_family : Z; fo_charset : Z }.
(** font.cpp 423-440 CFont (FONT_RESERVED is 0). *)
Definition rec_font (f : font) := record RT_FONT
  [OAdd16 (fo_height f); OAdd16 (fo_attr f); OAdd16 (fo_color f); OAdd16 (fo_bold f);
   OAdd16 (fo_script f); OAdd8 (fo_under f); OAdd8 (fo_family f); OAdd8 (fo_charset f);
   OAdd8 0; OStr (fo_name f) LEN1].

(** format.cpp 159-170 CFormat. *)
Record format := mkFormat { fm_index : Z; fm_str : list Z }.
Definition rec_format (f : format) := record RT_FORMAT
  [OAdd16 (fm_index f); OStr (fm_str f) LEN2].

(** recdef.cpp 361-373 CStyle (STYLE_BUILTIN_BIT 0x8000). *)
Record style := mkStyle { st_xf : Z; st_builtin : Z; st_level : Z }.
Definition rec_style (s : style) := record RT_STYLE
  [OAdd16 (Z.lor (st_xf s) 32768); OAdd8 (st_builtin s); OAdd8 (st_level s)].

(** colors.cpp 104-114 CPalette: count 56, then r, g, b, 0 for each colour. *)
Definition rec_palette (colors : list (Z * Z * Z)) := record RT_PALETTE
  [OAdd16 56; OArray (flat_map (fun c => match c with (r, g, b) => [r; g; b; 0] end) colors)].

(** recdef.cpp 383-409 CBSheet: every sheet of the library is created with attribute 0
    (workbook.cpp 126, 144), for which attrflags evaluates to 0. *)
Definition rec_bsheet (streampos : Z) (name : list Z) := record RT_BOUNDSHEET
  [OAdd32 streampos; OAdd16 0; OStr name LEN1].
(** recdef.cpp 415-418 SetStreamPosition (BSHEET_OFFSET_POSITION is 4). *)
Definition op_streampos (pos : Z) : uop := OSet32 pos 4.

(** datast.cpp 440-450 MakeCExternBook. *)
Definition rec_supbook (n : Z) : list uop :=
  [rec_new; OInflate 8; set_type RT_SUPBOOK; OSet16 4 2; OAdd16 n; OAdd8 1; OAdd8 4].
(** datast.cpp 491-503 MakeCExternSheet. *)
Definition rec_externsheet (n : nat) : list uop :=
  [rec_new; OInflate (4 + 2 + Z.of_nat n * 6); set_type RT_EXTERNSHEET;
   OSet16 (2 + Z.of_nat n * 6) 2; OAdd16 (Z.of_nat n)]
  ++ flat_map (fun i => [OAdd16 0; OAdd16 (Z.of_nat i); OAdd16 (Z.of_nat i)]) (seq 0 n).

(** datast.cpp 506-555 MakeSST.  [sst_loop] carries the operations so far (reversed
    order avoided: appended at the end), the data size, and [offset], the start of the
    record being filled. *)
Definition too_long : list Z :=
  [76; 101; 110; 103; 116; 104; 32; 116; 111; 111; 32; 108; 111; 110; 103; 33].
Definition sst_str (s : list Z) : list Z :=
  if MAX_RECORD_SIZE <? unicode_string_length s LEN2 then too_long else s.
Fixpoint sst_loop (labels : list (list Z)) (size offset : Z) : list uop :=
  match labels with
  | [] => [OSet16 (size - offset - RECORD_HEADER_SIZE) (offset + 2)]
  | s :: t =>
      let s := sst_str s in
      let n := unicode_string_length s LEN2 in
      if MAX_RECORD_SIZE + 4 <? (size - offset) + n then
        [OSet16 (size - offset - RECORD_HEADER_SIZE) (offset + 2);
         OFixed 0 4; OSet16 RT_CONTINUE size; OStr s LEN2]
        ++ sst_loop t (size + 4 + n) size
      else OStr s LEN2 :: sst_loop t (size + n) offset
  end.
Definition rec_sst (labels : list (list Z)) : list uop :=
  [rec_new; OSet16 RT_SST 0; OAdd32 (zlen labels); OAdd32 (zlen labels)]
  ++ sst_loop labels 12 0.

(* ------------------------------------------------------------------ *)
(** * Sheet-level records *)

(** index.cpp 43-60 CIndex and 66-74 AddDBCellOffset (called once per offset). *)
Definition rec_index (firstrow lastrow : Z) (offsets : list Z) : list uop :=
  record RT_INDEX [OAdd32 0; OAdd32 firstrow; OAdd32 (lastrow + 1)]
  ++ flat_map (fun o => [OAdd32 o; set_len]) offsets.
(** sheetrec.cpp 307-316: DEFAULTROWHEIGHT (DEFAULT_ROW_HEIGHT is 15). *)
Definition rec_defrowheight (h : Z) : list uop :=
  [rec_new; set_type RT_DEFAULTROWHEIGHT; OSet16 4 2;
   OAdd16 (if h =? 15 then 0 else 1); OAdd16 (h * 20)].
(** sheetrec.cpp 334-342: DEFCOLWIDTH. *)
Definition rec_defcolwidth (w : Z) : list uop :=
  [rec_new; set_type RT_DEFCOLWIDTH; OSet16 2 2; OAdd16 w].
(** colinfo.cpp 40-57 CColInfo ([None]: no format object). *)
Record colinfo := mkCol { ci_col : Z; ci_width : Z; ci_xf : option Z }.
Definition rec_colinfo (c : colinfo) := record RT_COLINFO
  [OAdd16 (ci_col c); OAdd16 (ci_col c); OAdd16 (ci_width c);
   OAdd16 (match ci_xf c with Some i => i | None => 15 end); OAdd16 0; OAdd16 0].
(** recdef.cpp 277-295 CDimension; maxRow+1 and maxCol+1 are 32-bit. *)
Definition rec_dimension (minr maxr minc maxc : Z) := record RT_DIMENSIONS
  [OAdd32 minr; OAdd32 (maxr + 1); OAdd16 minc; OAdd16 (maxc + 1); OAdd16 0].

(** row.cpp 40-60 rowheight_t. *)
Record rowheight := mkRH { rh_row : Z; rh_height : Z; rh_xf : option Z }.
(** row.cpp 67-102 CRow (ROW_DFLT_HEIGHT 0x108, ROW_DFLT_GRBIT 0x80, UNSYNC 0x40,
    ROW_DFLT_IXFE 15). *)
Definition rec_row (rownum firstcol lastcol height : Z) (xf : option Z) := record RT_ROW
  [OAdd16 rownum; OAdd16 firstcol; OAdd16 (lastcol + 1); OAdd16 height; OAdd16 0; OAdd16 0;
   OAdd16 (if height =? 264 then 128 else 192);
   OAdd16 (match xf with Some i => i | None => 15 end)].
(** row.cpp 113-134 CDBCell, AddRowOffset. *)
Definition rec_dbcell (startblock : Z) (offsets : list Z) : list uop :=
  record RT_DBCELL [OAdd32 startblock] ++ flat_map (fun o => [OAdd16 o; set_len]) offsets.

(** merged.cpp 44-72: CMergedCells, then SetNumRanges, then AddRange for each range
    (sheetrec.cpp 443-452). *)
Record range := mkRange { rg_fr : Z; rg_lr : Z; rg_fc : Z; rg_lc : Z }.
Definition rec_merged (rs : list range) : list uop :=
  record RT_MERGEDCELLS [OAdd16 0] ++ [OSet16 (zlen rs) 4]
  ++ flat_map (fun r => [OAdd16 (rg_fr r); OAdd16 (rg_lr r); OAdd16 (rg_fc r);
                         OAdd16 (rg_lc r); set_len]) rs.
(** recdef.cpp 242-268 CWindow2. *)
Definition rec_window2 (active : bool) := record RT_WINDOW2
  [OAdd16 (if active then 1726 else 190); OAdd16 0; OAdd16 0; OAdd16 64; OAdd16 0; OAdd16 0;
   OAdd16 0; OAdd32 0].
(** sheetrec.cpp 478-495 PANE. *)
Definition rec_pane (rowsplit colsplit : Z) : list uop :=
  [rec_new; set_type RT_PANE; OSet16 10 2; OAdd16 colsplit; OAdd16 rowsplit; OAdd16 rowsplit;
   OAdd16 colsplit;
   OAdd16 (if rowsplit =? 0 then 1 else if colsplit =? 0 then 2 else 0)].
(** continue.cpp 44-54 CContinue. *)
Definition rec_continue (data : list Z) := record RT_CONTINUE [OArray data].

(* ------------------------------------------------------------------ *)
(** * Cells *)

(** blank.cpp 64-74. *)
Definition rec_blank (row col xf : Z) := record RT_BLANK [OAdd16 row; OAdd16 col; OAdd16 xf].
(** boolean.cpp 60-73. *)
Definition rec_boolean (row col xf : Z) (b : bool) := record RT_BOOLERR
  [OAdd16 row; OAdd16 col; OAdd16 xf; OAdd8 (if b then 1 else 0); OAdd8 0].
(** err.cpp 60-73. *)
Definition rec_err (row col xf e : Z) := record RT_BOOLERR
  [OAdd16 row; OAdd16 col; OAdd16 xf; OAdd8 e; OAdd8 1].
(** number.cpp 103-127 CNumber: an integer (RK, shifted left by two as an unsigned
    32-bit value, low bits 10) or a double (its 64-bit pattern, unit.cpp AddValue64FP). *)
Definition rec_rk (row col xf n : Z) := record RT_RK
  [OAdd16 row; OAdd16 col; OAdd16 xf; OAdd32 (Z.lor ((n * 4) mod 4294967296) 2)].
Definition rec_number (row col xf bits : Z) := record RT_NUMBER
  [OAdd16 row; OAdd16 col; OAdd16 xf; OAdd64 bits].
(** label.cpp 115-129 CLabel. *)
Definition rec_label (row col xf : Z) (s : list Z) := record RT_LABEL
  [OAdd16 row; OAdd16 col; OAdd16 xf; OStr s LEN2].
Definition rec_labelsst (row col xf idx : Z) := record RT_LABELSST
  [OAdd16 row; OAdd16 col; OAdd16 xf; OAdd32 idx].

(** formula_estimate.cpp 145-204 / formula_cell.cpp 151-216: [fe_enc] is
    GetEncodedValue, [fe_flags] GetOptionFlags, [fe_str] the string value when
    EncodedValueIsString. *)
Record estimate := mkEst { fe_enc : Z; fe_flags : Z; fe_str : option (list Z) }.
(** formula_cell.cpp 151-216 CFormula; [toks] are the bytes appended by
    expr.DumpData.  The length patches are SetValueAt16(GetDataSize() - base, pos). *)
Definition rec_formula (row col xf : Z) (arr : bool) (toks : list Z) (e : estimate) : list uop :=
  let lenpos := if arr then 47 else 24 in
  let basepos := if arr then 31 else 0 in
  [rec_new; set_type RT_FORMULA; OAdd16 row; OAdd16 col; OAdd16 xf; OAdd64 (fe_enc e);
   OAdd16 (fe_flags e); OAdd32 0]
  ++ (if arr then
        [OAdd16 5; OAdd8 1; OAdd16 row; OAdd16 col; set_len;
         OAdd16 RT_ARRAY; OAdd16 0; OAdd16 row; OAdd16 row; OAdd8 col; OAdd8 col;
         OAdd16 (fe_flags e); OAdd32 0]
      else [])
  ++ [OAdd16 0; OAppend toks; OSetSz16 lenpos (lenpos + 2);
      OSetSz16 (basepos + 2) (basepos + 4)]
  ++ (match fe_str e with
      | None => []
      | Some s =>
          let base2 := lenpos + 2 + zlen toks in
          [OAdd16 RT_STRING; OAdd16 0; OStr s LEN2; OSetSz16 (base2 + 2) (base2 + 4)]
      end).

(* ------------------------------------------------------------------ *)
(** * Hyperlinks and data validations *)

(** sheetrec.cpp 1487-1488. *)
Definition std_link_guid : list Z :=
  [208; 201; 234; 121; 249; 186; 206; 17; 140; 130; 0; 170; 0; 75; 169; 11].
Definition url_moniker_guid : list Z :=
  [224; 201; 234; 121; 249; 186; 206; 17; 140; 130; 0; 170; 0; 75; 169; 11].
Record hlink := mkLink { hl_row : Z; hl_col : Z; hl_url : list Z; hl_mark : list Z }.
(** sheetrec.cpp 1490-1542 MakeHyperLink. *)
Definition rec_hlink (h : hlink) : list uop :=
  let urllen := (zlen (hl_url h) + 1) * 2 in
  let marklen := (zlen (hl_mark h) + 1) * 2 in
  let hasmark := negb (zlen (hl_mark h) =? 0) in
  let newsize := 4 + 2 + 2 + 2 + 2 + 16 + 4 + 4 + 16 + 4 + urllen
                 + (if hasmark then 4 + marklen else 0) in
  [rec_new; OInflate newsize; set_type RT_HLINK;
   OAdd16 (hl_row h); OAdd16 (hl_row h); OAdd16 (hl_col h); OAdd16 (hl_col h);
   OArray std_link_guid; OAdd32 2; OAdd32 (if hasmark then 11 else 3);
   OArray url_moniker_guid; OAdd32 urllen]
  ++ map OAdd16 (hl_url h) ++ [OAdd16 0]
  ++ (if hasmark then [OAdd32 (marklen / 2)] ++ map OAdd16 (hl_mark h) ++ [OAdd16 0] else [])
  ++ [set_len].

(** sheetrec.cpp 1434-1446 MakeDataValidationHeader. *)
Definition rec_dval (count : Z) : list uop :=
  [rec_new; OInflate 22; set_type RT_DVAL; OAdd16 0; OAdd32 0; OAdd32 0; OAdd32 4294967295;
   OAdd32 count; OSet16 18 2].
(** sheetrec.cpp 1448-1485 MakeDataValidationEntry; conditions are the token bytes of
    the formula_t object, or [None] for a NULL pointer (OP_INT is 0x1E). *)
Record dvalid := mkDV {
  dv_range : range; dv_options : Z; dv_cond1 : option (list Z); dv_cond2 : option (list Z);
  dv_ptitle : list Z; dv_ptext : list Z; dv_etitle : list Z; dv_etext : list Z }.
Definition dv_cond (c : option (list Z)) : list uop :=
  match c with
  | None => [OAdd16 3; OAdd16 0; OAdd8 30; OAdd16 0]
  | Some toks => [OAdd16 (zlen toks); OAdd16 0; OAppend toks]
  end.
Definition rec_dv (d : dvalid) : list uop :=
  [rec_new; OInflate 32; set_type RT_DV; OAdd32 (dv_options d); OStr (dv_ptitle d) LEN2;
   OStr (dv_etitle d) LEN2; OStr (dv_ptext d) LEN2; OStr (dv_etext d) LEN2]
  ++ dv_cond (dv_cond1 d) ++ dv_cond (dv_cond2 d)
  ++ [OAdd16 1; OAdd16 (rg_fr (dv_range d)); OAdd16 (rg_lr (dv_range d));
      OAdd16 (rg_fc (dv_range d)); OAdd16 (rg_lc (dv_range d)); set_len].

(* ------------------------------------------------------------------ *)
(** * Notes *)

(** note.h 47-57 NoteRec, in member order. *)
Record noterec := mkNoteRec {
  nr_flag : Z; nr_col1 : Z; nr_dx1 : Z; nr_row1 : Z; nr_dy1 : Z;
  nr_col2 : Z; nr_dx2 : Z; nr_row2 : Z; nr_dy2 : Z }.
Record note := mkNote {
  no_row : Z; no_col : Z; no_author : list Z; no_text : list Z;
  no_rect : noterec; no_fill : Z; no_idx : Z }.

(** note.cpp 97-111: over- or under-long author and text are replaced. *)
Definition author_warning : list Z :=
  [65;117;116;104;111;114;32;77;117;115;116;32;66;101;32;49;32;116;111;32;53;52;99;104;97;114;115;32;108;111;110;103].
Definition text_warning : list Z :=
  [84;101;120;116;32;77;117;115;116;32;66;101;32;49;32;116;111;32;50;48;52;56;99;104;97;114;115;32;108;111;110;103].
Definition note_author (a : list Z) : list Z :=
  if ((zlen a =? 0) || (54 <? zlen a))%bool then author_warning else a.
Definition note_text (t : list Z) : list Z :=
  if ((zlen t =? 0) || (2048 <? zlen t))%bool then text_warning else t.
(** note.cpp 113-124: line estimate. *)
Fixpoint note_count (t : list Z) (count : Z) (last_nl : bool) : Z :=
  match t with
  | [] => count
  | c :: t => if c =? 10 then note_count t (count + (if last_nl then 2 else 1)) true
              else note_count t count false
  end.
(** note.cpp 125-130 (unsigned16_t lines, cols; the loop halves lines while > 20). *)
Fixpoint note_grow (fuel : nat) (lines cols : Z) : Z * Z :=
  match fuel with
  | O => (lines, cols)
  | S f => if 20 <? lines then note_grow f (lines / 2) ((cols * 2) mod 65536) else (lines, cols)
  end.
(** note.cpp 97-140 Finalize. *)
Definition note_new (row col : Z) (author text : list Z) : note :=
  let a := note_author author in
  let t := note_text text in
  let count := note_count t ((zlen a + zlen t + 2) / 11) false in
  let lines := (1 + (count + 1) / 2 + 1) mod 65536 in
  let '(lines, cols) := note_grow 16 lines 2 in
  let r := row mod 65536 in
  let c := col mod 65536 in
  mkNote row col a t
    (mkNoteRec 3 ((c + 1) mod 65536) 205 r 39 ((c + 1 + cols) mod 65536) 123
               ((r + lines) mod 65536) 59)
    134217808 0.

(** note.cpp 142-156 dumpDrawData without trailing array. *)
Definition draw_hdr (rec_ inst type len : Z) : list uop :=
  [OAdd16 (Z.lor (Z.land rec_ 15) (inst * 16)); OAdd16 type; OAdd32 len].
(** note.cpp 158-162 drawDataOPID. *)
Definition draw_opid (id v : Z) : list uop := [OAdd16 id; OAdd32 v].
(** globalrec.h MakeSPID: (sheet+1)*1000 + 24 + item (GLOBAL constants). *)
Definition make_spid (sheet item : Z) : Z := (sheet + 1) * 1000 + 24 + item.
Definition draw101 : list Z := [0;0;0;0;0;0;0;0;0;0;0;0;0;0;0;0].
Definition draw102 : list Z := [191; 0; 32; 0; 32; 0].
Definition draw001 : list Z := [191;0;8;0;8;0;129;1;9;0;0;8;192;1;64;0;0;8].
Definition draw002 : list Z := [13;0;0;8;12;0;0;8;23;0;0;8;247;0;0;16].
(** note.cpp 165: drawingSize = 8 + 128. *)
Definition drawing_size := 136.

(** note.cpp 167-181 dumpDrawingContainer; [spid] is currentSPIDidx on entry (one more
    on exit). *)
Definition draw_container (sheet spid count : Z) : list uop :=
  draw_hdr 15 0 61442 (8 + 16 + 48 + drawing_size * count)
  ++ draw_hdr 0 1 61448 8
  ++ [OAdd32 (count + 1); OAdd32 (make_spid sheet spid + count)]
  ++ draw_hdr 15 0 61443 (48 + drawing_size * count)
  ++ draw_hdr 15 0 61444 40
  ++ draw_hdr 1 0 61449 16 ++ [OArray draw101]
  ++ draw_hdr 2 0 61450 8
  ++ [OAdd32 (make_spid sheet spid); OAdd32 5].
(** note.cpp 183-210 dumpDrawingText. *)
Definition draw_text (n : note) (sheet spid : Z) : list uop :=
  let r := no_rect n in
  draw_hdr 15 0 61444 (drawing_size - 8)
  ++ draw_hdr 2 202 61450 8
  ++ [OAdd32 (make_spid sheet spid); OAdd32 2560]
  ++ draw_hdr 3 8 61451 48
  ++ draw_opid 133 1 ++ draw_opid 191 655368 ++ draw_opid 344 0
  ++ draw_opid 385 (no_fill n) ++ draw_opid 387 134217808 ++ draw_opid 447 1048592
  ++ draw_opid 575 196611 ++ draw_opid 959 131074
  ++ draw_hdr 3 1 61730 6 ++ [OArray draw102]
  ++ draw_hdr 0 0 61456 18
  ++ [OAdd16 (nr_flag r); OAdd16 (nr_col1 r); OAdd16 (nr_dx1 r); OAdd16 (nr_row1 r);
      OAdd16 (nr_dy1 r); OAdd16 (nr_col2 r); OAdd16 (nr_dx2 r); OAdd16 (nr_row2 r);
      OAdd16 (nr_dy2 r)]
  ++ draw_hdr 0 0 61457 0.
Definition note_full (n : note) : list Z := no_author n ++ [58; 10] ++ no_text n.
(** note.cpp 212-299 MakeDrawing: [idx] is the note's index within its sheet. *)
Definition rec_drawing (n : note) (sheet spid count : Z) : list uop :=
  let idx := no_idx n in
  let full := note_full n in
  let authorlen := zlen (no_author n) + 2 in
  let totallen := zlen full in
  let textlen := totallen * (if is_ascii full then 1 else 2) in
  let first := (if idx =? 0 then draw_container sheet spid count else []) in
  let spid' := if idx =? 0 then spid + 1 else spid in
  let strpos := 4 + (if idx =? 0 then 80 else 0) + 128 + 30 + 12 + 22 + 2 in
  [rec_new;
   OInflate (4 + (if idx =? 0 then 90 else 0) + drawing_size + 30 + 16 + 22 + 4 + 2 + textlen + 28);
   set_type RT_MSODRAWING]
  ++ first ++ draw_text n sheet spid' ++ [set_len]
  ++ [OAdd16 RT_OBJ; OAdd16 26; OAdd16 21; OAdd16 18; OAdd16 25; OAdd16 (idx + 1); OAdd16 24593;
      OAdd32 0; OAdd32 0; OAdd32 0; OAdd32 0]
  ++ [OAdd16 RT_MSODRAWING; OAdd16 8] ++ draw_hdr 0 0 61453 0
  ++ [OAdd16 RT_TXO; OAdd16 18; OAdd16 530; OAdd16 0; OFixed 0 6; OAdd16 totallen; OAdd16 24;
      OFixed 0 4]
  ++ [OAdd16 RT_CONTINUE; OAdd16 0; OStr full NOLEN; OSetSz16 strpos (strpos + 2)]
  ++ [OAdd16 RT_CONTINUE; OAdd16 24;
      OAdd16 0; OAdd16 1; OAdd32 0;
      OAdd16 authorlen; OAdd16 0; OAdd32 0;
      OAdd16 totallen; OAdd16 0; OAdd32 0].
(** Number of shape identifiers consumed by one MakeDrawing. *)
Definition spid_step (idx : Z) : Z := if idx =? 0 then 2 else 1.
(** note.cpp 373-388 CNote. *)
Definition rec_note (n : note) : list uop :=
  [rec_new;
   OInflate (4 + 2 + 2 + 2 + 2 + 2 + 1
             + zlen (no_author n) * (if is_ascii (no_author n) then 1 else 2));
   set_type RT_NOTE; OAdd16 (no_row n); OAdd16 (no_col n); OAdd16 0; OAdd16 (no_idx n + 1);
   OStr (no_author n) LEN2; OAdd8 0; set_len].
(** note.cpp 321-371 MakeDrawingGroup, called by datast.cpp 452-489 with one
    (sheet index, note count) pair per sheet that has notes. *)
Definition last_pair (l : list (Z * Z)) : Z * Z := last l (0, 0).
Definition rec_drawing_group (notes : list (Z * Z)) : list uop :=
  let count := zlen notes in
  let total := fold_left Z.add (map snd notes) 0 in
  let f006 := 12 in
  let csp := 28 in
  let after := 36 + 8 * count in
  [rec_new; OInflate (82 + count * 8); set_type RT_MSODRAWINGGROUP]
  ++ draw_hdr 15 0 61440 0
  ++ draw_hdr 0 0 61446 0
  ++ [OAdd32 (make_spid (fst (last_pair notes)) (snd (last_pair notes)));
      OAdd32 (count + 1); OAdd32 0; OAdd32 count]
  ++ flat_map (fun p : nat * (Z * Z) =>
                 [OAdd32 (Z.of_nat (fst p) + 1); OAdd32 (1 + snd (snd p))])
              (combine (seq 0 (length notes)) notes)
  ++ [OSet32 (count + total) csp; OSet32 (after - f006 - 8) (f006 + 4)]
  ++ draw_hdr 3 3 61451 18 ++ [OArray draw001]
  ++ draw_hdr 0 4 61726 16 ++ [OArray draw002]
  ++ [OSet32 (after + 26 + 24 - 8 - RECORD_HEADER_SIZE) 8; set_len].
