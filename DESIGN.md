# Formal model of xlslib in Rocq (Coq 8.16.1)

Source: /repo/xlslib/src (C++). The code is read as text and never built; this
document says what is modelled, how each property of `properties.jsonl` is stated
and proved, and what is trusted.

## Modelling conventions

* Bytes and machine integers are `Z`; wrap-around (`unsigned16_t`, `unsigned32_t`
  casts) is written explicitly with `mod 2^k`.
* Lists of bytes for buffers and streams.  `nat` only for list positions and fuel.
* Outcomes are explicit: `Ok`, `Throw` (a failed `XL_ASSERT`, which in the default
  build throws), `UB` (out-of-bounds write, past-the-end iterator, shift by >= width).
  `signed8_t` error codes are part of the result.
* `malloc`/`realloc` are an oracle: a function from the allocation counter to either
  "refused" or the garbage content of the new block.  File output is an oracle giving
  the number of bytes the device accepts.  `iconv` is not modelled (the build without
  iconv is); `double` values are their 64-bit patterns (no arithmetic on them).
* Record constructors are modelled as *programs of buffer operations* (`list uop`) in
  the order in which the C++ constructor issues them.  The programs have a concrete
  semantics (buffers, growth, allocation) and an abstract one (byte lists); a
  refinement theorem connects the two.
* Readers (`Spec*.v`) are written from the published file formats, and use nothing of
  the writer's model except `list Z`.

## Layers and files (rocq/theories)

| layer | source (xlslib/src) | model | specification / reader | proofs and theorems |
|---|---|---|---|---|
| bytes, little endian | common/xlsys.h, unit.cpp | Bytes.v | Bytes.v decoders | PropsUnit.v |
| record buffers | unit.cpp, record.cpp | UnitModel.v | SpecBuf.v | UnitProofs, BufProofs, PropsUnit |
| compound file | oledoc/*.cpp | OleModel.v, OleBat.v | SpecCFB.v | OleProofs, OleRead, OleDev, OleFsProofs, PropsOle, PropsOleStrict (SpecCFBStrict) |
| record constructors | recdef, blank, boolean, err, number, label, formula_cell, colinfo, row, merged, index, note, font, format, extformat, continue .cpp | RecModel.v | SpecBiff.v, SpecObj.v | RecProofs, RecFrames |
| sheets, row blocks, dump order | sheetrec.cpp | SheetModel.v | SpecSheet.v | SheetProofs, SheetTrace, RowBlocks, PropsRows, PropsSheet, PropsIndex |
| fonts, formats, XF objects | font, format, extformat, globalrec (tables) .cpp, colors.cpp | XfModel.v | SpecXf.v, SpecXfOps.v, SpecLook.v | XfProofs, XfInv, XfTrace, Looks, LookInv, LookStep, RefTrace, FontUse, Careful, PropsXf, PropsLook, PropsFonts |
| globals and workbook dump | globalrec.cpp, workbook.cpp, datast.cpp | WbModel.v | SpecBiff.v, SpecCont.v | GlobTrace, WbProofs, BookRecs, SaveOk, SaveRecs, SaveRead, PropsCont |
| user interface | workbook.h, worksheet (sheetrec.cpp), cell.cpp, range.cpp | ApiModel.v | SpecApi.v, SpecSaved.v | ApiInv, ApiEff, SaveMeans, DocLimits, SavedView, PropsCells, Resave, PropsSave, PropsFile |
| window, panes, defaults | recdef.cpp, workbook.cpp, sheetrec.cpp | RecModel.v, SheetModel.v | SpecView.v | ViewTrace, PropsView |
| legal histories | all of the above | ApiModel.v | SpecLegal.v | Legal, PropsLegal |
| format kinds, record order | globalrec.cpp, sheetrec.cpp | as above | SpecBook.v, SpecOrder.v | PropsBook, PropsReadable, PropsOrder |
| painting of ranges | range.cpp (cellcolor, boxer) | RangeModel.v | SpecPaint.v | RangePaint, RangeLooks, PropsPaint |
| results of formulas | formula_estimate.cpp, formula_expr.cpp, formula.cpp, formula_cell.cpp (GetResultEstimate) | FormulaModel.v | SpecResult.v | PropsResult |
| questions (getters, FindCell, bounds) | extformat.cpp, font.cpp, sheetrec.cpp 1035-1050, 1184-1242, workbook.cpp 149-156, cbridge.cpp 436-444 | QueryModel.v | SpecQuery.v | PropsQuery |
| object lifetimes (allocation, deletion, pointers followed) | workbook.cpp, globalrec.cpp, sheetrec.cpp, cell.cpp, label.cpp, formula_cell.cpp, formula_expr.cpp, formula.cpp, colors.cpp, HPSF.cpp (constructors, destructors, owners) | MemModel.v | SpecMem.v | PropsMem (MemProof, MemInv, MemSteps, MemNodes, MemCalls, MemWrite, MemPut) |
| record objects of a save | datast.cpp 92-287, unit.cpp 53-60, continue.cpp 44-55, workbook.cpp 300-484 | FlushModel.v | PropsFlush.v (plan) | PropsFlush, PropsFlushDoc |
| C interface | cbridge.cpp | CApiModel.v | SpecC.v | CProofs, PropsC |
| iconv conversion | globalrec.cpp 751-783, 810-863, workbook.cpp 98-112 | IconvModel.v | SpecIconv.v | PropsIconv |
| looks of notes | note.h 84-92, cbridge.cpp 165-168 | NoteModel.v | SpecNote.v | NoteProofs, PropsNoteLook |
| mode of formats | extformat.cpp 1096-1099, cbridge.cpp 477 | ModeModel.v | SpecMode.v | PropsMode |
| storage of records | datast.cpp 71-187, 556-652, unit.cpp 110-126, 690-702, oledoc.cpp 197-220 | PoolModel.v | SpecPool.v | PropsPool |
| numbers with a built-in format | sheetrec.cpp 820-839, extformat.cpp 717-727 | NumFmtModel.v | SpecNumFmt.v | PropsNumFmt |
| buffers edited in place, view switches | unit.cpp 80-108, 242-283, 367-391, 656-708, datast.cpp 695-722, recdef.cpp 299-341 | EditModel.v | SpecEdit.v | PropsEdit |
| kind and visibility of sheets | recdef.h 295-349, recdef.cpp 51-74, 383-405 | KindModel.v | SpecKind.v | PropsKind |
| rows of the index record | index.cpp 43-100, index.h 51-52 | IdxModel.v | SpecIdx.v | PropsIdx |
| property sets | HPSF.cpp, summinfo.cpp, docsumminfo.cpp | HpsfModel.v | SpecHpsf.v | PropsHpsf, PropsHpsfExact |
| notes, links, validations | note.cpp, sheetrec.cpp | RecModel.v, SheetModel.v | SpecObj.v | PropsObj, PropsNotes |
| formulas | formula.cpp, formula_expr.cpp, formula.h tables | FormulaModel.v | SpecFormula.v | PropsFormula, PropsFormulaClass, PropsFormulaSize |

A history of calls is a list of `call` (ApiModel.v); `document calls` runs it from a new
workbook and `saved moves calls stream` (SpecSaved.v) says that saving it gives `stream`.
The theorems about saved documents take `saved_ok R moves calls stream`: the calls are
typed as the C++ parameters are, keep the limits `fits` (SpecSaved.v), and were saved.

## Plan per property

* C01/C02 refinement of the buffer model to byte lists by induction over operation
  lists; C02 safety for every allocation oracle (no `UB` outcome).
* C03 arithmetic on base-256 digits.
* C04 decoder for BIFF8 strings composed with the encoder; refutation above the length
  limits.
* C05 framing parser on the concatenation of emitted records, by induction.
* C06 fixed-point loop: measure argument for termination, adequacy and slack bounds.
* C07/C08/C09 independent compound-file reader applied to the modelled file image; the fields
  the reader skips are compared with the format (SpecCFBStrict.v).
* C10 arithmetic on padding.  C11 induction on the string.
* C12 induction over histories against a finite-map spec.
* C13/C15/C16 invariants of the row-block state machine; refutations where the code
  violates the property (see Findings).
* C14 fold invariants.  C17 prefix sums of unit sizes.
* C18/C19 codec round trips; unsigned constructor refuted.
* C20 invariant over the string loop, decoder that concatenates CONTINUE payloads only
  at string boundaries.
* C21-C23 history inductions and chunking lemmas.
* C24 bit-field algebra.  C25 history invariants.  C26 heap model of XF objects.
* C27-C29 structural induction on expression trees; stack decoder; scanner for operand
  classes (PropsFormulaClass.v).
* C30 property-set reader, and the stream byte for byte (PropsHpsfExact.v).  C31 history induction.  C32 container-length checker.
* C33/C34 state machines unrolled to a list of units; state restored at the end.
* C35 composition of C07, C05, C17, C13, C19, C20.
* C36 stream-state model of the output file.
* C37 double-loop induction.  C38 model of Clip/continue; expected refuted.
* C39 truncating loop model; expected refuted above the BMP, partial below.
* C40 length-checking parsers for DV and HLINK.
* C41 the setting made last as a fold over the history; readers of WINDOW1, WINDOW2, PANE,
  DEFAULTROWHEIGHT and DEFCOLWIDTH from the file format; the window record follows the history
  by induction.
* C42 `legal` says what a call may refer to after a history, in terms of the API only; induction
  over the history, with the invariant that the fonts of all formats exist.
* C43 readers of CODEPAGE, DATEMODE, STYLE and the kind bit of XF (SpecBook.v); an invariant on
  the formats of a document (21 built-in ones first, cell formats after them) kept by every
  call, and another that fonts and number formats of used formats are linked.
* C44 the order of record types as a table of places (SpecOrder.v); the records of a saved
  document, as lists, lie in consecutive places.
* C45 every run of cellcolor or boxer is a run of cell setters and format assignments (induction
  over the positions with the invariant that remembered formats show what the setters would
  make); so a painted document is one made by ordinary calls, and the attributes follow.
* C46 the result field and flags of a saved formula, read by SpecResult.cached_of: by cases on
  the root of the tree (all 485 functions through the ranges of the switch) and the reading
  of saved cells of C19.
* C47 the getters, read against the history by the object invariants of C25; the bounds by an
  invariant of the scan that sizes the row blocks; histories of calls, saves and questions by
  the simulation of C34, questions changing nothing but the size cache.
* C48 a heap of numbered objects; every pointer the code follows is checked and a deleted
  object gives the outcome UB. Invariant: the live objects are, counted with multiplicity, those
  the workbook owns and those in the program's own trees; every pointer held is among them.
  Kept by every call of a proper program, which is described by the calls made so far only
  (SpecMem.v). Deleting the workbook then removes exactly what it owns.
* C49 the same heap; a save is a list of steps (make a record of a kind with so many continuing
  ones, fill in a position). Invariant: the live objects are those from before and those on the
  flush stack; entries of a level stay while records up to that level are written; what lies
  before the cached position is above the cached level. Every document meets the hypotheses
  (record order of C44).
* C50 C arguments as pointers (NULL, or a finite array of elements) so that reading past the end
  is undefined; a C program becomes a list of C++ calls whose formulas are taken as they stand at
  the save (the cells hold pointers). The rules (`proper`) characterise the defined programs; a
  simulation between program and calls carries C19, C27, C32, C35 and C40 over to programs.
* C51 iconv by its published behaviour (decoder for UTF-8 or wchar_t, stop at a character UCS-2
  lacks or a full buffer); encoder from RFC 3629 in SpecIconv.v. Induction on the text for both
  directions; documents of this build are those of the other one with converted texts.
* C52 SetFillColor and SetNoteRect as calls mixed with those of ApiModel. Every other call commutes
  with forgetting the looks (`strip`), which gives "nothing else changes"; an invariant over the
  call list ties the looks of each note to the program; the reader parses the drawing of C32.
* C53 SetCellMode mixed with the setters of C24 on one format, by an invariant that relates a
  setter in style mode to the same setter in cell mode without marks; and mixed with the calls of
  ApiModel for whole documents. The marks (used-attribute bits) are right only while the program
  never asks for style mode, so the property is partial.
* C54 several units over one vector of slots: the buffer operations of C01 run on the slot of a
  unit, growth copies every slot through the copy constructor (allocator calls that may be
  refused), an oracle says when the vector moves.  Refinement to one byte list per record, by a
  relation kept by every step; a slot that lost its bytes is a separate case of the relation, so
  that the same induction gives the statement about refused memory.  Safety needs no typing.
  Refusals are reported only when records are made one at a time, so the property is partial.
* C55 the number call that takes a built-in format, mixed with the calls of ApiModel.  Each such
  call amounts to a plain number call, followed or not by a format setter on the cell; a history
  is therefore also one of ordinary calls with the same contents, and the theorems about looks
  (C24-C26) and about getters (C47) apply.  FMT_GENERAL does not replace a format of the user's
  own, so the property is partial.
* C56 the members of the record buffer that the constructors do not use (indexing, reads, stores
  of blocks, filling, assignment), on the same concrete storage and allocator oracle as C01.  One
  lemma per call relates it to a function on byte lists, including when it is refused; a separate
  invariant gives safety for every allocator.  Blocks that reach past the end are accepted and
  lost, and shorter buffers cannot be assigned, so the property is partial.
* C57 the four switches of the WINDOW2 record on top of that; the record's bytes are described by
  three flags and read back by the reader of C41.  ClearPaged has the wrong mask, so the property
  is partial.
* C58 the sheet directory record for every kind and visibility, read by a reader with the published
  layout (visibility first, kind second).  The code has the two bytes exchanged, so the property
  holds only of visible worksheets, which are all the library makes; what holds of every sheet is
  stated as such.
* C59 the rows of an index record set and asked for in any order on the concrete buffer, read by the
  reader of saved index records (SpecBiff).  The last row is answered as one more than set, so the property is
  partial.

## Findings

Code behaviour that contradicts a property (or the file format).  Those marked with a
theorem are proved as a `*_refuted` statement with a concrete witness; the others were
found while modelling and are reflected in the model.

1. INDEX offsets of the second and later row blocks are wrong, because the cumulative
   size of the blocks is not kept (C16_index_refuted).  Rows that only have a height are
   not counted, and the size the library assumes for shared-string cells and formulas
   differs from the size written.
2. The 17th row of a sheet gets no ROW record when it holds only the last cell
   (C15_row_records_refuted).
3. Sixteen or more rows with a height but no cells before the cells make the cell counter
   of a row block underflow; the iterator then runs past the end (outcome `UB`).  This is
   why `fits` bounds such rows.
4. Row heights below the last cell, and all heights of a sheet without cells, are never
   saved (C23_row_heights_refuted).
5. Continued records: the header of the last CONTINUE is not counted, so later sheets'
   positions are 4 short (C17_sheet_directory_refuted); a unit of two records (formula with a
   text result) is cut as one record (C05_records_framed_refuted, C38_two_records_refuted);
   the rest of a cut record is read through a pointer that dangles when the store moves
   (C38_moved_refuted).
6. An empty sheet's DIMENSIONS record has first row 0xFFFFFFFF.
7. Record and string lengths above 65535 wrap silently (C04_overlong_refuted).
8. Overwriting a row height releases the previous format twice.
9. The build without iconv sign-extends 8-bit text and truncates wide text above the basic
   multilingual plane (C39_wide_utf16_refuted).
10. number(unsigned) from 0xE0000000 on is stored as a negative number
    (C18_unsigned_integers_refuted).
11. Replacing a note counts it again; shape identifiers collide above 976 notes.
12. The announced sizes of text operands and of cross-sheet references in formulas are wrong.
13. Comparison of format objects ignores the number format.
14. Property sets above 4096 bytes raise the assertion exception (C30_oversize_throws).
15. The function call without a count refuses six-argument functions and macro functions with
    one count (C28_fixed_calls_refuted, C27_six_arguments_refuted); a tree node with a wrong
    count is dropped silently (C27_wrong_count_refuted).
16. References with the default operand class get an invalid token
    (C27_default_class_refuted).
17. Array constants of numbers lack seven filler bytes; their data is counted as token bytes
    and type bytes are exchanged (C27_arrays_refuted).
18. range::boxer sets the pattern colour twice and never the background colour
    (C45_box_fill_refuted); range loops do not end when the last row or column is 0xFFFFFFFF.
19. The shape identifier counter survives a save, so saving twice differs when there are notes
    (C34_saving_repeatable_refuted).
20. findXF drops the temporary format when an equal one exists, leaking its font mark.
21. Font setters on a shared font object change other cells and fonts created by the user
    (C26_fonts_refuted, C25_font_record_refuted).
22. Fourteen named colours designate another palette entry (C24_named_colours_refuted).
23. workbook.font(index) and font options are not range checked (undefined behaviour).
24. The result of the final flush is ignored, so success may be reported for an incomplete file
    (C36_success_means_complete_refuted).
25. The reservation for the record store ignores hyperlinks and validations (C38_moved_refuted).
26. Shared strings above 8224 bytes are replaced by a placeholder (documented behaviour).
27. The default palette entry 0x2F is (227, 227, 227).
28. The mixed addressing modes A$1 and $A1 are exchanged (C29_mixed_modes_refuted).
29. A text in a formula above 255 units loses its length (C27_long_text_refuted).
30. A user-defined function at the root of a tree throws in the size estimate.
31. Font names above 255 units lose their length in the FONT record.
32. The property sets declare code page 1200 but hold byte strings (C30_code_page_refuted).
33. The property "last saved" is the time the workbook was created.
34. Directory names added out of order are not found by the format's search
    (C09_names_found_refuted).
35. Window positions and sizes and default row heights above 3276 points wrap around when they
    are converted to twips (C41_window_refuted, C41_defaults_refuted).
36. The `hidden` argument of defaultRowHeight is stored and never written
    (C41_hidden_rows_ignored).
37. The offsets after the first field of a DBCELL record are one for each cell instead of one
    for each row, and the first of them is measured from the first ROW record instead of
    the second (C16_row_offsets_refuted).
38. Column descriptions are written before the default column width and merged areas before
    the view settings; the file format prescribes the opposite (C44_sheet_order_refuted).
39. A constant formula whose value is a not-a-number with first bytes FF FF is saved with a
    result that reads as a truth value, error or text (C46_constant_results_refuted).
40. A volatile function below the root of a tree does not mark the formula for calculation
    with every calculation of the workbook (C46_volatile_refuted).
41. The getters of a font report changes made through cells that only shared it, in the
    histories of finding C25_font_record_refuted (C47_font_answers_refuted).
42. GetFormat reports General for a number format of the user's own, although the source says
    that this place is never reached (C47_custom_named_general).
43. xlsFontGetName with a buffer size of 0 writes in front of the buffer
    (C47_name_buffer_refuted).
44. Formula trees: giving one tree to two cells that delete it, using a tree after the cell that
    owned it was overwritten, or making a node its own argument is not detected; deleting the
    workbook or saving then follows pointers to deleted nodes or recurses without end
    (C48_shared_tree_refuted, C48_tree_after_overwrite_refuted, C48_cyclic_tree_refuted). The
    pointer of a cell is invalid once its place is written again
    (C48_overwritten_cell_refuted).
45. A record puts itself on the flush stack of the storage before its constructor is finished
    and is not taken off when the constructor throws. The destructor of the storage, called while
    the exception leaves the save, then deletes an object that is already gone
    (C49_exception_in_constructor_refuted, at every point of every save). Property sets above
    4096 bytes (C30) and the formulas of finding 30 throw in a constructor.
46. A save that an exception ends while sheets are written leaves the dump state as it is. The
    next save goes on from there with a new storage and writes a sheet's position into a
    directory entry deleted by the first one (C49_next_save_refuted).
47. The size a formula tree reports, from which DBCELL offsets and INDEX positions are computed,
    is wrong for texts and for references to other sheets (C16_formula_size_refuted).
48. A formula made for one sheet and put into a cell of another is accepted; its references to
    the first sheet are stored without a sheet and so mean cells of the second
    (C50_foreign_formula_refuted).
49. With iconv, one character outside the basic multilingual plane replaces the whole text by
    "iconv failed!", although UTF-16 can represent it (C51_astral_refuted); the result of calloc
    is not tested (C51_no_memory_refuted).
50. SetCellMode changes the meaning of the marks but not the marks: an alignment set before a
    format becomes a style is ignored by readers, and such a style claims attributes that were
    never set (C53_marks_refuted).  Nothing keeps a style from being used as the format of a
    cell (C53_style_cell_refuted).
51. When the storage of records grows, a slot whose copy cannot be allocated becomes an empty slot
    and nothing is reported (datast.cpp 580-605).  If its record is still being built, the next
    byte added to it gets new room, and the record is saved without its beginning
    (C54_refusal_refuted).  A finished record is noticed when the stream is written
    (oledoc.cpp 209, an assertion).
52. number(..., FMT_GENERAL, format) with a format object whose number format is the user's own
    leaves that number format in place: GetFormat answers FMT_GENERAL for every number format it
    does not know, so the call believes there is nothing to change (C55_number_format_refuted).
53. CWindow2::ClearPaged masks the flags with the page break flag instead of with its complement
    (recdef.cpp 338): the preview stays on and every other property of the view is cleared
    (C57_switches_refuted).  Nothing in the library calls it.
54. CUnit::SetArrayAt accepts a block that reaches past the end of the record, enlarges the
    storage and reports success, but does not enlarge the record: the bytes are not part of it
    (C56_block_refuted).
55. Assigning to a record buffer one that shows fewer bytes, or none, raises an exception, because
    Resize insists on room for the old content (C56_assign_refuted).
56. The constants BSHEET_ATTR_* (recdef.h 295-302) have the kind of a sheet in the low byte and its
    visibility in the high byte; the format has them the other way round.  A hidden worksheet would
    be saved as a visible macro sheet (C58_entry_refuted).  The library only makes visible
    worksheets, whose two bytes are zero.
57. CIndex::SetRows stores one more than the last row it is given, and CIndex::GetLastRow answers the
    stored number, so the last row asked for is not the one set (C59_rows_refuted).

## Wrong programs

seeded/LOG.jsonl has one line per edit of the model.  `first_failing_lemma` is what was observed: the
first lemma or theorem that no longer compiled.  `theorems_failed` are the property theorems whose
proofs use that lemma, found from the proof texts; they could not be rebuilt, but it was not tried
whether each could be proved in another way.

## Not modelled

iconv itself (its published behaviour is assumed, C51);
memory inside standard containers;
the operating system's file layer below the `fstream` states (binfile.cpp is modelled by
stream states and an oracle for accepted bytes); `assert_assist.cpp` (assertions throw).
Members that nothing in the library calls are not modelled either, unless C56, C57 or C59 names them:
copying and assigning `boundsheet_t` (recdef.cpp 76-96), xf_t::SetParent and AtuneXF (extformat.cpp 534-620),
str16toascii (globalrec.cpp 724-745).  The one-line setters of `range` (range.cpp 108-355) are
modelled together, as one call that visits every cell of the range.

## Trusted base

* Coq 8.16.1: kernel, and `vm_compute` (used for counterexamples, examples and closed
  table facts).
* `Print Assumptions` follows every property theorem; each prints
  "Closed under the global context": no axioms, neither own nor from the standard library.
* `coqchk -o` lists seven names of the standard library's `Coq.ssr.ssrunder.Under_rel` for the whole
  development: Under_rel, Under_relE, Under_rel_from_rel, Over_rel, over_rel, over_rel_done and
  under_rel_done.  They come with library files that are loaded; no property theorem depends on them.
* The correspondence between /repo and the model: every definition cites the lines it models
  and states its simplifications.
* The readers and specifications (`Spec*.v`) as a rendering of the published formats: compound
  file, BIFF8, property sets, drawing containers, formula tokens.
* The behaviour of iconv as stated in IconvModel.v (C51 only).
* The oracles: the allocator, the output device, and the moves of the record store.
