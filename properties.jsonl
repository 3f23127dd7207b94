{"id": "C01", "title": "Record buffers behave as growing byte sequences", "statement": "Whatever sequence of append / overwrite / append-array / append-string operations is applied to a record buffer, and however the buffer switches between its small fixed storage and a heap block or is reallocated, the visible content is exactly the concatenation of what was appended with the successful in-range overwrites applied; growth never loses, duplicates or exposes uninitialised bytes.", "quantifier": "every finite sequence of buffer operations, every initial capacity and every garbage content returned by malloc/realloc", "why_tests_cant": "the small-buffer/heap transition and realloc sizes depend on the whole history of appends; only finitely many histories can be run", "anchors": ["xlslib/src/xlslib/unit.cpp: CUnit::AddValue8/16/32/64, SetValueAt8/16/32, AddDataArray, AddFixedDataArray, Inflate, Append", "xlslib/src/xlslib/datast.cpp: CUnitStore::Prepare, Resize"]}
{"id": "C02", "title": "A failed allocation is never silently turned into a corrupt buffer", "statement": "If the allocator refuses memory at any point of a sequence of buffer operations, the operation reports an error (or a later operation raises the library's assertion exception); no operation ever writes outside the storage it owns.", "quantifier": "every operation sequence and every allocation-failure schedule", "why_tests_cant": "allocation failures can strike at any of unboundedly many points", "anchors": ["xlslib/src/xlslib/datast.cpp: CUnitStore::Prepare, Resize", "xlslib/src/xlslib/unit.cpp: CUnit::Inflate, AddValue8"]}
{"id": "C03", "title": "Multi-byte values are little-endian and round-trip", "statement": "A 16/32/64-bit value appended to (or stored at an offset of) a record is read back unchanged from that offset, lowest byte first.", "quantifier": "all 2^16 / 2^32 / 2^64 values and all offsets", "why_tests_cant": "the value space cannot be enumerated", "anchors": ["xlslib/src/xlslib/unit.cpp: AddValue16, AddValue32, AddValue64, GetValue16From, GetValue32From", "xlslib/src/common/systype.h: BYTE_0..BYTE_7"]}
{"id": "C04", "title": "Unicode strings round-trip through records", "statement": "A string stored in a record with a 1-byte (resp. 2-byte) length prefix is recovered exactly by a BIFF8 reader when it has at most 255 (resp. 65535) UTF-16 units; it is stored one byte per unit exactly when all units are 7-bit ASCII; the number of bytes written equals the size announced by the library's own size function.", "quantifier": "all UTF-16 strings", "why_tests_cant": "infinite string space, with the compression decision depending on every unit", "anchors": ["xlslib/src/xlslib/unit.cpp: AddUnicodeString, UnicodeStringLength", "xlslib/src/xlslib/globalrec.cpp: CGlobalRecords::IsASCII"]}
{"id": "C05", "title": "Every emitted record is self-delimiting", "statement": "Each record produced by the library is framed as type, length, payload with length equal to the payload size, so a reader that only knows the framing splits the whole Workbook stream into exactly the emitted records, provided no single record is larger than the format's limit.", "quantifier": "all workbooks whose individual records fit the 8224-byte limit", "why_tests_cant": "framing must hold for every combination of record kinds and sizes", "anchors": ["xlslib/src/xlslib/record.cpp: CRecord", "xlslib/src/xlslib/rectypes.h: MAX_RECORD_SIZE"]}
{"id": "C06", "title": "Sector allocation sizing terminates and is exact", "statement": "For every amount of stream data, the computation of the number of allocation-table sectors and master-table sectors terminates, the table has room for every sector of the file including itself, no more than one spare table sector's worth of slack is left, and the master table has a slot for each table sector.", "quantifier": "every total data size (any number of 512-byte sectors)", "why_tests_cant": "fixed-point loop over unbounded sizes with two interacting thresholds (128 entries, 109+127k slots)", "anchors": ["xlslib/src/oledoc/oledoc.cpp: COleDoc::GetBATCount"]}
{"id": "C07", "title": "The compound file can be read back", "statement": "A reader that implements only the compound-document format (header, master allocation table, allocation table chains, directory tree) and knows nothing of the writer recovers, from the bytes of the saved file, each of the three streams under its name with its exact bytes (followed only by zero padding to at least 4096 bytes and a multiple of 512).", "quantifier": "all stream contents below the 32-bit sector limits", "why_tests_cant": "chain positions depend on all sizes at once; files with master-table sectors exceed 6.8 MB and are impractical to enumerate", "anchors": ["xlslib/src/oledoc/oledoc.cpp: DumpHeader, DumpData, DumpDepots, DumpFileSystem, DumpNode", "xlslib/src/oledoc/olefs.cpp: AddFile, AddNode", "xlslib/src/xlslib/workbook.cpp: workbook::Dump"]}
{"id": "C08", "title": "File layout is sector aligned and sectors are never shared", "statement": "The saved file is a whole number of 512-byte sectors, header, data, tables and directory start where the header says, and each sector belongs to exactly one of: one stream chain, the allocation table, the master table, the directory.", "quantifier": "all stream sizes", "why_tests_cant": "global arithmetic invariant over unbounded sizes", "anchors": ["xlslib/src/oledoc/oledoc.cpp: DumpOleFile"]}
{"id": "C09", "title": "Directory entries stay reachable by name", "statement": "After any sequence of additions of files to the root storage, looking up an added name with the format's tree search finds it; adding a name twice is refused and leaves the directory unchanged.", "quantifier": "every sequence of file additions", "why_tests_cant": "tree links depend on insertion history", "anchors": ["xlslib/src/oledoc/olefs.cpp: AddNode, GetNode, SearchNode"]}
{"id": "C10", "title": "Stream padding preserves data", "statement": "Adding a stream pads it with zero bytes to a multiple of 512 and at least 4096, the recorded size equals the padded length, and the original bytes are a prefix.", "quantifier": "all stream lengths", "why_tests_cant": "unbounded lengths, boundary at every multiple of 512 and at 4096", "anchors": ["xlslib/src/oledoc/olefs.cpp: AddFile"]}
{"id": "C11", "title": "Path splitting is exact", "statement": "Splitting a path at separators yields exactly its maximal non-empty separator-free pieces, in order.", "quantifier": "all strings and separator sets", "why_tests_cant": "infinite string space", "anchors": ["xlslib/src/common/stringtok.h: stringtok"]}
{"id": "C12", "title": "A worksheet is a map from positions to cells: last write wins", "statement": "After any sequence of cell-writing calls, each (row, column) holds exactly the content of the last call that addressed it, positions never addressed hold nothing, and finding a cell returns it.", "quantifier": "every history of cell writes on a sheet", "why_tests_cant": "unbounded histories with overwrites", "anchors": ["xlslib/src/xlslib/sheetrec.cpp: worksheet::AddCell, FindCell, FindCellOrMakeBlank"]}
{"id": "C13", "title": "All cells are saved, once, in row-major order", "statement": "In the saved sheet substream the cell records are exactly the cells of the sheet, each once, in increasing (row, column) order.", "quantifier": "every sheet content reachable through the API (within the stated row-height restriction)", "why_tests_cant": "the row-block state machine has unboundedly many paths through blocks of 16 rows", "anchors": ["xlslib/src/xlslib/sheetrec.cpp: worksheet::RowBlocksDump"]}
{"id": "C14", "title": "Used-range record covers exactly the cells", "statement": "For a sheet with at least one cell or note, the dimensions record gives the smallest and one-past-the-largest row and column holding a cell or a note (notes count: the library widens the used range for them).", "quantifier": "every non-empty set of cells and every write history", "why_tests_cant": "bounds are maintained incrementally over unbounded histories", "anchors": ["xlslib/src/xlslib/sheetrec.cpp: GetFirstLastRowsAndColumns", "xlslib/src/xlslib/recdef.cpp: CDimension"]}
{"id": "C15", "title": "Every row with cells is described by a row record", "statement": "In the saved sheet each row that holds cells has exactly one row descriptor, giving that row's first and one-past-last column and its height, placed in the block that holds the row's cells.", "quantifier": "every sheet content", "why_tests_cant": "block boundaries (16 rows) interact with the last cell and with height-only rows", "anchors": ["xlslib/src/xlslib/sheetrec.cpp: RowBlocksDump", "xlslib/src/xlslib/row.cpp: CRow"]}
{"id": "C16", "title": "Row-block index offsets are right", "statement": "The sheet index record lists, for every block of rows, the stream position of that block's cell-offset record, and the position of the default column width; each cell-offset record locates the first row record of its block and the cells of each row.", "quantifier": "every sheet content", "why_tests_cant": "offsets accumulate over an unbounded number of blocks", "anchors": ["xlslib/src/xlslib/sheetrec.cpp: DumpData (SHEET_INDEX), GetRowBlockSizes"]}
{"id": "C17", "title": "Sheet directory points at the sheets", "statement": "In the saved Workbook stream, the k-th sheet entry's stream position is exactly the byte offset of the beginning-of-substream record of the k-th sheet created through the API, and the entry carries that sheet's name.", "quantifier": "every workbook (number of sheets, contents)", "why_tests_cant": "positions are back-patched after the sizes of all previous records are known", "anchors": ["xlslib/src/xlslib/workbook.cpp: workbook::DumpData", "xlslib/src/xlslib/recdef.cpp: CBSheet::SetStreamPosition, boundsheet_t::SetSheetStreamPosition"]}
{"id": "C18", "title": "Integer cells keep their value", "statement": "An integer written with the signed-integer call is recovered exactly by a BIFF8 reader, for the whole 32-bit range.", "quantifier": "all signed 32-bit integers (and, for the unsigned constructor, all unsigned 32-bit integers)", "why_tests_cant": "2^32 values; the encoding changes at +-2^29", "anchors": ["xlslib/src/xlslib/number.cpp: number_t, CNumber"]}
{"id": "C19", "title": "Cell records carry position, format index and value", "statement": "A blank, boolean, error, number or text cell saved at (row, column) with row < 65536 and column < 65536 is decoded by a BIFF8 reader as the same kind of cell at the same position with the same value and the index of its format.", "quantifier": "all positions, format indices and values", "why_tests_cant": "product of large value spaces", "anchors": ["xlslib/src/xlslib/blank.cpp, boolean.cpp, err.cpp, number.cpp, label.cpp"]}
{"id": "C20", "title": "Shared strings: index, integrity and record limits", "statement": "Every long text cell's shared-string index designates, in the saved shared-string table, exactly that cell's text; no string is split across records, every table record is within the format limit, and the announced number of strings is the number stored. Texts too large for one record are replaced by the documented placeholder.", "quantifier": "every multiset of long strings and every creation/overwrite history", "why_tests_cant": "chunk boundaries depend on all previous string sizes", "anchors": ["xlslib/src/xlslib/datast.cpp: MakeSST", "xlslib/src/xlslib/label.cpp: label_t", "xlslib/src/xlslib/globalrec.cpp: AddLabelSST, DeleteLabelSST, GetLabelSSTIndex"]}
{"id": "C21", "title": "Merged ranges are all saved", "statement": "The merged-cells records of a sheet contain exactly the ranges passed to merge, in order, and each such record holds at most 1027 ranges.", "quantifier": "every list of merged ranges", "why_tests_cant": "chunking over unbounded lists", "anchors": ["xlslib/src/xlslib/sheetrec.cpp: DumpData (SHEET_MERGED)", "xlslib/src/xlslib/merged.cpp"]}
{"id": "C22", "title": "Column widths: last setting wins", "statement": "After any sequence of column-width calls the saved sheet has exactly one column record per column addressed, carrying the width and format of the last call for that column.", "quantifier": "every history of colwidth calls", "why_tests_cant": "unbounded histories with overwrites", "anchors": ["xlslib/src/xlslib/sheetrec.cpp: worksheet::colwidth", "xlslib/src/xlslib/colinfo.cpp"]}
{"id": "C23", "title": "Row heights: last setting wins and is saved", "statement": "After any sequence of row-height calls, every row whose height was set is saved with the height of its last call.", "quantifier": "every history of rowheight calls and cell writes", "why_tests_cant": "emission interleaves with the cell walk", "anchors": ["xlslib/src/xlslib/sheetrec.cpp: worksheet::rowheight, RowBlocksDump"]}
{"id": "C24", "title": "Format record fields are independent", "statement": "The saved extended-format record decodes to exactly the attributes set on the format object (font, number format, locking, alignment, wrap, indent, orientation, borders, colours, fill), no attribute disturbing another.", "quantifier": "all combinations of attribute values", "why_tests_cant": "the product of the attribute domains exceeds 10^20", "anchors": ["xlslib/src/xlslib/extformat.cpp: CExtFormat"]}
{"id": "C25", "title": "Fonts, number formats and cell formats have unique resolvable indices", "statement": "After any sequence of creations, each user font / number format / cell format has an index distinct from all others, and the record at that index in the saved stream is its own.", "quantifier": "every creation history", "why_tests_cant": "index assignment depends on history and on a gap in the font numbering", "anchors": ["xlslib/src/xlslib/globalrec.cpp: AddFont, AddFormat, AddXFormat, DumpData"]}
{"id": "C26", "title": "Formatting one cell does not change another", "statement": "Applying a format setter to one cell leaves the effective formatting of every other cell unchanged, and gives the addressed cell the requested attribute with its other attributes unchanged.", "quantifier": "every history of cell creations and format setters", "why_tests_cant": "aliasing through shared format objects depends on history", "anchors": ["xlslib/src/xlslib/cell.cpp: cell_t setters", "xlslib/src/xlslib/globalrec.cpp: findXF", "xlslib/src/xlslib/extformat.cpp: xf_t"]}
{"id": "C27", "title": "Formula expressions are saved as faithful postfix code", "statement": "The token stream saved for a formula expression tree decodes, by the format's postfix evaluation of arities, to that same tree, and the recorded token length is the length of the token stream.", "quantifier": "all expression trees", "why_tests_cant": "infinite set of trees", "anchors": ["xlslib/src/xlslib/formula_expr.cpp: DumpData of all nodes", "xlslib/src/xlslib/formula.cpp: formula_t::Push*", "xlslib/src/xlslib/formula_cell.cpp: CFormula"]}
{"id": "C28", "title": "Function calls with an illegal argument count are rejected without damage", "statement": "Pushing a function with an argument count the function does not accept returns an error and leaves the formula unchanged; with an accepted count it succeeds.", "quantifier": "all functions and argument counts", "why_tests_cant": "485 functions times unbounded argument counts", "anchors": ["xlslib/src/xlslib/formula.cpp: PushFunction, function_properties"]}
{"id": "C29", "title": "Cross-sheet references resolve to the right sheet", "statement": "A reference to a cell of another sheet, resolved through the saved extern-sheet table, designates that sheet; a reference within the sheet is saved as a plain reference with the cell's row, column and addressing mode.", "quantifier": "all pairs of sheets, positions and addressing modes", "why_tests_cant": "index spaces are unbounded", "anchors": ["xlslib/src/xlslib/formula.cpp: PushReference, PushAreaReference", "xlslib/src/xlslib/datast.cpp: MakeCExternSheet"]}
{"id": "C30", "title": "Document properties round-trip", "statement": "For every sequence of property calls whose total content fits the fixed 4096-byte property stream, a reader of the property-set format recovers for each property the last value set, and the stream is exactly 4096 bytes with 4-byte aligned values.", "quantifier": "every history of property calls and all property strings", "why_tests_cant": "offset table depends on all string lengths", "anchors": ["xlslib/src/xlslib/HPSF.cpp: hpsf_doc_t::insert, CHPSFdoc", "xlslib/src/xlslib/summinfo.cpp, docsumminfo.cpp", "xlslib/src/xlslib/workbook.cpp: workbook::property"]}
{"id": "C31", "title": "Palette edits are exact", "statement": "setColor succeeds exactly for palette indices 8..63; after any sequence of calls the saved palette has, at each index, the colour of the last successful call for it, or the default.", "quantifier": "every history of setColor calls", "why_tests_cant": "unbounded histories", "anchors": ["xlslib/src/xlslib/colors.cpp: CPalette, colors_t::setColor"]}
{"id": "C32", "title": "Notes: nested drawing lengths are consistent", "statement": "For every note text and author, the saved drawing records and their nested containers announce lengths that exactly match their content, and the note and drawing-object identifiers agree.", "quantifier": "all note texts, authors, positions and note counts", "why_tests_cant": "lengths depend on arbitrary text", "anchors": ["xlslib/src/xlslib/note.cpp: MakeDrawing, CNote"]}
{"id": "C33", "title": "Stream structure: properly nested substreams in sheet order", "statement": "The Workbook stream is one globals substream followed by one substream per sheet in creation order, each starting with its BOF record and ending with its EOF record, and saving terminates.", "quantifier": "every workbook", "why_tests_cant": "driven by three nested state machines over unbounded contents", "anchors": ["xlslib/src/xlslib/workbook.cpp: DumpData", "xlslib/src/xlslib/globalrec.cpp: DumpData", "xlslib/src/xlslib/sheetrec.cpp: DumpData"]}
{"id": "C34", "title": "Saving is repeatable", "statement": "Saving the same workbook again without changes in between produces the same stream, and saving does not change the observable content.", "quantifier": "every workbook", "why_tests_cant": "the dump state machines keep state between calls", "anchors": ["xlslib/src/xlslib/workbook.cpp: DumpData"]}
{"id": "C35", "title": "End to end: what was written is what is read", "statement": "For every history of API calls that create sheets and write blank, boolean, error, number and text cells within the stated limits, reading the saved file with an independent compound-file and BIFF8 reader yields the same sheets, names, positions and values.", "quantifier": "every API history within limits", "why_tests_cant": "whole-program property over unbounded histories", "anchors": ["xlslib/src/xlslib/workbook.cpp: workbook::Dump and everything it calls"]}
{"id": "C36", "title": "A reported success means the file is complete", "statement": "If saving returns success then every byte of the file was accepted by the output device.", "quantifier": "every device failure point", "why_tests_cant": "a device can fail at any byte", "anchors": ["xlslib/src/oledoc/oledoc.cpp: DumpOleFile", "xlslib/src/oledoc/binfile.cpp: write_service, Close"]}
{"id": "C37", "title": "Range setters touch exactly the rectangle", "statement": "A range-wide format setter applies the setter to every position of the rectangle (creating blanks where empty) and to no other cell.", "quantifier": "all rectangles and sheet contents", "why_tests_cant": "rectangles and contents are unbounded", "anchors": ["xlslib/src/xlslib/range.cpp"]}
{"id": "C38", "title": "Oversized records are continued without loss", "statement": "A record whose payload exceeds the format limit is saved as a first part followed by continuation records whose concatenated payloads are the original payload.", "quantifier": "all oversized payloads", "why_tests_cant": "sizes unbounded; involves buffer clipping and reallocation", "anchors": ["xlslib/src/xlslib/workbook.cpp: DumpData (WB_CONTINUE_REC)", "xlslib/src/xlslib/datast.cpp: Clip", "xlslib/src/xlslib/continue.cpp"]}
{"id": "C39", "title": "Text conversion is faithful", "statement": "Converting wide (32-bit) text to UTF-16 yields the standard UTF-16 encoding of every Unicode scalar value, and converting 7-bit text is the identity.", "quantifier": "all strings of Unicode scalar values", "why_tests_cant": "infinite string space", "anchors": ["xlslib/src/xlslib/globalrec.cpp: wide2str16, char2str16"]}
{"id": "C40", "title": "Data validations and hyperlinks are saved as requested", "statement": "Each validated cell or range and each hyperlink set through the API appears in the saved sheet with its position, flags, texts and formula bytes intact and with consistent record lengths, and the validation header announces their number.", "quantifier": "all texts, formulas, positions and counts", "why_tests_cant": "lengths and padding depend on arbitrary strings", "anchors": ["xlslib/src/xlslib/sheetrec.cpp: MakeDataValidationHeader, MakeDataValidationEntry, MakeHyperLink"]}
{"id": "C41", "title": "Window and sheet settings are saved", "statement": "The saved file states the window position, size, first tab, tab bar width and active sheet set last, selects and displays exactly the active sheet, and gives each sheet the default row height, default column width, hidden-rows setting and frozen panes set last, or the defaults.", "quantifier": "all call histories and 16-bit arguments", "why_tests_cant": "settings interleave with every other call, and units are converted in 16-bit arithmetic", "anchors": ["xlslib/src/xlslib/workbook.cpp: windPosition, windSize, firstTab, tabBarWidth", "xlslib/src/xlslib/recdef.cpp: CWindow1, CWindow2, CPane, CDefRowHeight", "xlslib/src/xlslib/sheetrec.cpp: MakeActive, defaultRowHeight, defaultColwidth, SplitAt"]}
{"id": "C42", "title": "Legal calls succeed", "statement": "Any sequence of calls that refers only to sheets, cells, fonts and formats already made, passes enumerators where enumerations are expected and ordered ranges, never throws, never touches anything that does not exist, and, within the limits of the file format, can be saved.", "quantifier": "all legal call histories of any length", "why_tests_cant": "unbounded histories; sharing and counting of formats and fonts makes each call depend on all earlier ones", "anchors": ["xlslib/src/xlslib/workbook.h: workbook", "xlslib/src/xlslib/sheetrec.h: worksheet", "xlslib/src/xlslib/cell.h: cell_t", "xlslib/src/xlslib/range.h: range", "xlslib/src/xlslib/extformat.h: xf_t"]}
{"id": "C43", "title": "Fixed part of the workbook and formats of cells", "statement": "Every saved workbook states the UTF-16 code page and the 1900 date system, lists the built-in styles, each tied to a style format, and its first 21 formats are the built-in ones in the order readers expect: fifteen style formats, one cell format, five style formats; all later formats are cell formats. Every saved cell uses a cell format, whose font and number format are in the file, so a reader can tell what each cell looks like.", "quantifier": "all call histories that can be saved, all sheets, all cells", "why_tests_cant": "format numbers are assigned by counting and sharing over the whole history; one wrong reference makes a file unreadable", "anchors": ["xlslib/src/xlslib/globalrec.cpp: CGlobalRecords::CGlobalRecords, DumpData", "xlslib/src/xlslib/extformat.cpp: xf_t, CExtFormat", "xlslib/src/xlslib/recdef.cpp: CCodePage, CDateMode, CStyle"]}
{"id": "C44", "title": "Records come in the order of the file format", "statement": "The records of the workbook part and of every sheet come in the order the file format prescribes, and in every row block the row records precede the cells.", "quantifier": "all call histories that can be saved, all sheets, all row blocks", "why_tests_cant": "the order results from state machines whose steps are taken or skipped depending on everything put into the sheet", "anchors": ["xlslib/src/xlslib/globalrec.cpp: CGlobalRecords::DumpData", "xlslib/src/xlslib/sheetrec.cpp: worksheet::DumpData, RowBlocksDump"]}
{"id": "C45", "title": "Colouring and boxing a range", "statement": "Colouring a range gives every position of the rectangle a solid fill in that colour, and boxing a range draws the lines asked for on its outer edges only and gives every position the fill pattern and fill colours asked for; empty positions become blank cells, contents and all other attributes stay, nothing outside the rectangle changes, and the document is saved like any other.", "quantifier": "all call histories that can be saved, with any number of such calls among them, all rectangles, styles and colours", "why_tests_cant": "both calls remember formats they made and reuse them for later positions with the same previous format, so a wrong key shows only for particular combinations of earlier formats and positions", "anchors": ["xlslib/src/xlslib/range.cpp: range::cellcolor, range::boxer", "xlslib/src/xlslib/range.h: borderedXft, xf_Pair_Set_t"]}
{"id": "C46", "title": "Cached results of formulas", "statement": "A formula that is a single constant is saved with exactly that constant as its cached result and no pending calculation. Every other formula, built as a tree or pushed token by token, is saved with a well-formed cached result and marked to be calculated when the file is opened, and formulas using volatile functions are also marked to be calculated with every calculation of the workbook.", "quantifier": "all expression trees, all sequences of pushed tokens and all documents that can be saved", "why_tests_cant": "infinitely many trees and constants; result encodings share bit patterns with numbers, so a clash shows only for particular values", "anchors": ["xlslib/src/xlslib/formula_estimate.cpp: estimated_formula_result_t", "xlslib/src/xlslib/formula_expr.cpp: GetResultEstimate of all nodes", "xlslib/src/xlslib/formula_cell.cpp: CFormula, formula_cell_t::GetResultEstimate", "xlslib/src/xlslib/formula.cpp: formula_t::GetResultEstimate"]}
{"id": "C47", "title": "Questions are answered with what was set", "statement": "The getters of a format object and of a font answer with the values it was made with, changed by the setters called on it since. GetSheet gives the n-th sheet made or NULL, FindCell finds a cell exactly where one was written, NumCells counts them, and the bounds reported for a sheet are the exact range of its cells. Asking does not change what is saved, whenever it happens. The C wrapper that copies a font name stays within the caller's buffer and terminates the text.", "quantifier": "all histories of calls, saves and questions, all objects, all positions, all names and buffers", "why_tests_cant": "the answers depend on the whole history through shared objects, reference counts and a cache of row block sizes that a question fills; a stale cache or a shared font shows only for particular histories", "anchors": ["xlslib/src/xlslib/extformat.cpp: xf_t getters", "xlslib/src/xlslib/font.cpp: font_t getters", "xlslib/src/xlslib/sheetrec.cpp: FindCell, GetFirstLastRowsAndColumns, GetNumRowBlocks", "xlslib/src/xlslib/sheetrec.h: NumCells", "xlslib/src/xlslib/workbook.cpp: GetSheet", "xlslib/src/xlslib/cell.cpp: GetXFIndex", "xlslib/src/xlslib/cbridge.cpp: xlsFontGetName"]}
{"id": "C48", "title": "Objects live as long as promised and are deleted exactly once", "statement": "A program that passes only objects it got from the workbook, does not use a cell after its place was written again, and gives each formula node away at most once never makes the library follow a pointer to a deleted object. Sheets, fonts, formats, format objects and formulas it got stay usable until the workbook is deleted, cells and notes until their place is written again. Deleting the workbook at any moment deletes every object exactly once; what is left are exactly the formula nodes no cell was told to delete, and these still form whole, separate trees that the program can delete.", "quantifier": "all finite sequences of proper calls (sheets, fonts, formats, cells, notes, merges, rows, columns, formulas, formula trees, validations, links, properties, palette changes, saves), with a deletion after any of them", "why_tests_cant": "a dangling pointer or a double deletion shows only for particular histories (overwriting a cell that a hint, a shared string or a tree still refers to) and often only as silent corruption", "anchors": ["xlslib/src/xlslib/workbook.cpp: ~workbook", "xlslib/src/xlslib/globalrec.cpp: ~CGlobalRecords, AddLabelSST, DeleteLabelSST, findXF", "xlslib/src/xlslib/sheetrec.cpp: ~worksheet, AddCell, note", "xlslib/src/xlslib/cell.cpp: ~cell_t, SetXF", "xlslib/src/xlslib/formula_cell.cpp: ~formula_cell_t", "xlslib/src/xlslib/formula_expr.cpp: DestroyAST, PushArg", "xlslib/src/xlslib/formula.cpp: ~formula_t", "xlslib/src/xlslib/HPSF.cpp: ~hpsf_doc_t"]}
{"id": "C49", "title": "Record objects of a save live as long as they are written to", "statement": "While a workbook is saved, no record is written to or read after its object was deleted, in particular the sheet positions are filled in while the sheet directory entries still exist; every record object is deleted exactly once; and no record object is left when the save ends, whether it ends normally or by an exception between two records. When a row block, an index or a directory entry has been written, all records that can no longer be changed have been deleted, so the objects alive do not grow with the number of cells. A save that failed leaves the workbook fit for another save.", "quantifier": "all workbooks (any records in any sheets, any number of continuing records, any number of sheets), all earlier states of memory and all points at which an exception may end the save", "why_tests_cant": "which record objects are alive depends on the whole sequence of records so far and on a cached position from an earlier flush; a use after deletion usually still reads the right bytes", "anchors": ["xlslib/src/xlslib/datast.cpp: CDataStorage::FlushEm, FlushLowerLevelUnits, Push, Clip, ~CDataStorage", "xlslib/src/xlslib/unit.cpp: CUnit::CUnit", "xlslib/src/xlslib/continue.cpp: CContinue::CContinue", "xlslib/src/xlslib/workbook.cpp: workbook::Dump, workbook::DumpData", "xlslib/src/xlslib/recdef.cpp: boundsheet_t::SetSheetStreamPosition"]}
{"id": "C50", "title": "Driving the library through the C interface gives the same document", "statement": "A program written against the C interface that passes terminated texts, NULL only where an argument is optional, counts within its arrays and only formulas it has made is defined; every other program is not. For a defined program the saved file shows the sheets under the names passed (the characters before the terminator), in every sheet exactly the cells last written with their texts, numbers, errors, truth values (false only for 0) and the format given, the notes, hyperlinks (a NULL mark is no mark) and validations (a NULL text is no text, a NULL condition the constant 0) that were asked for, and in a formula cell everything pushed on the formula up to the save, in order, whether before or after it was put into the cell, if the formula was made for the sheet of the cell.", "quantifier": "every finite sequence of C calls with any pointers, texts, counts and handles", "why_tests_cant": "The property is about every program: every placing of terminators and NULLs, every interleaving of formula pushes and cell creation, and the absence of a defined meaning outside the rules. Tests run a few programs with well-formed literals.", "anchors": ["xlslib/src/xlslib/cbridge.cpp: xlsWorkbookSheet, xlsWorksheetLabel, xlsWorksheetBoolean, xlsWorksheetFormula, xlsFormulaPush*, xlsWorksheetValidateCell, xlsWorksheetValidateCellArea, xlsWorksheetHyperLink, xlsWorksheetNote", "xlslib/src/xlslib.h: C prototypes", "xlslib/src/xlslib/formula.cpp: formula_t::PushX, DumpData", "xlslib/src/xlslib/formula_cell.cpp: formula_cell_t::DumpData"]}
{"id": "C51", "title": "Texts in the build with iconv", "statement": "In the build with iconv, every text of the basic multilingual plane given as UTF-8 or as wide characters is converted to its UTF-16 units, whatever its length; any other argument gives the words 'iconv failed!' and never part of a text; no text makes a call fail. Sheet names and cell texts are then read from the saved file as meant. Choosing the input type takes effect exactly when iconv knows it.", "quantifier": "all byte strings, all wide strings, all call histories, all sequences of type requests", "why_tests_cant": "The space of byte strings is infinite and the output buffer is sized from the input length, so that sufficiency must be shown for every mix of character lengths.", "anchors": ["xlslib/src/xlslib/globalrec.cpp: wide2str16, char2str16 (HAVE_WORKING_ICONV)", "xlslib/src/xlslib/workbook.cpp: workbook::iconvInType", "xlslib/src/xlslib/cbridge.cpp: xlsWorkbookIconvInType"]}
{"id": "C52", "title": "Looks of notes", "statement": "The fill colour a program gives to a note and the place it gives to its box are the ones a reader finds in the drawing of the sheet, for every note of every sheet: the last colour and the last place given since the note was written, or the defaults. These calls change nothing else in the saved file: the same records of the same lengths, and outside the drawing records the same bytes. They are valid exactly when the note they address has been written.", "quantifier": "all programs of document calls mixed with calls that set the colour or place of a note, all colours and places, all save orders of the record store", "why_tests_cant": "Which look a note has depends on the whole history of the program (a rewritten note is a new one), and that nothing else changes ranges over all documents.", "anchors": ["xlslib/src/xlslib/note.h: note_t::SetFillColor, note_t::SetNoteRect, note_rec", "xlslib/src/xlslib/note.cpp: CNote::CNote, dumpDrawData", "xlslib/src/xlslib/cbridge.cpp: xlsNoteSetFillColor"]}
{"id": "C53", "title": "Formats switched between cell and style mode", "statement": "A format that a program switches between cell and style mode, mixing the switches with attribute setters in any order, is saved as the kind last chosen, and a reader finds every attribute with the value last given. A reader takes an attribute from the format exactly when the program gave it a value. Cells always refer to cell formats.", "quantifier": "all sequences of setters and mode switches on a format in any state of the workbook; all documents with mode switches", "why_tests_cant": "The same mark bit means the opposite in the two modes, so that its final value depends on the whole interleaving of setters and switches.", "anchors": ["xlslib/src/xlslib/extformat.cpp: xf_t::SetCellMode, xf_t::SetFlag, xf_t::SetBorderStyle, CExtFormat::CExtFormat", "xlslib/src/xlslib/cbridge.cpp: xlsXformatSetCellMode"]}
{"id": "C54", "title": "Records gathered in one growing storage do not disturb each other", "statement": "While a workbook is saved all its records live in one storage that moves them when it grows. Building, extending or patching one record never changes another; a record that was handed over keeps its bytes when its object is deleted; what is written is the records in the order in which they were given room, and its length is the size the storage announces. No step reads or writes outside a record's room, and memory refused at any point is reported by a step or by the writing of the stream.", "quantifier": "all sequences of record operations on any number of records, all moves of the storage, all allocation-failure schedules", "why_tests_cant": "The storage may move at any of unboundedly many growth points, with any mixture of finished, patched and unfinished records in it, and any of the copies may be refused memory.", "anchors": ["xlslib/src/xlslib/datast.cpp: CDataStorage::RequestIndex, CDataStorage::operator+=, CDataStorage::operator[], CUnitStore::CUnitStore(const CUnitStore&), CUnitStore::Reset", "xlslib/src/xlslib/unit.cpp: CUnit::~CUnit, CUnit::ResetDataStorage, CUnit::Append", "xlslib/src/oledoc/oledoc.cpp: COleDoc::DumpData"]}
{"id": "C55", "title": "A number written with a built-in number format shows that format", "statement": "worksheet::number(row, column, value, number format, format) stores the value at the position and nothing else changes in the sheet; the cell shows the built-in number format asked for and in every other respect looks like the format object passed, or like a cell without one. The format object and all other cells keep their looks.", "quantifier": "all histories of calls in which such numbers are mixed with all the other calls, all positions, values, built-in formats and format objects", "why_tests_cant": "Whether the format object is used as it is or replaced depends on what the program did to it before, and the replacement is looked up among all format objects of the workbook.", "anchors": ["xlslib/src/xlslib/sheetrec.cpp: worksheet::number(unsigned32_t, unsigned32_t, double, format_number_t, xf_t*)", "xlslib/src/xlslib/extformat.cpp: xf_t::GetFormat, xf_t::SetFormat", "xlslib/src/xlslib/cell.cpp: cell_t::format"]}
{"id": "C56", "title": "Bytes of a record read and replaced in place", "statement": "On a record buffer that owns storage, indexing, the 8-, 16- and 32-bit reads, storing a byte or a block at a position, filling, re-initialising, appending with += and assigning another buffer act on the bytes the record shows as on a plain byte sequence: reads give the bytes at the position, stores replace exactly the addressed bytes, and an access outside the record is refused without touching memory that is not the buffer's.", "quantifier": "all buffers built by any sequence of buffer operations, all sequences of such calls and their arguments, all behaviours of the allocator", "why_tests_cant": "Whether a call stays inside the storage depends on the sizes left behind by all earlier calls and on where the allocator put the data; sequences of calls are unbounded.", "anchors": ["xlslib/src/xlslib/unit.cpp: CUnit::operator[], operator=, operator+=, GetValue8From, GetValue16From, GetValue32From, SetArrayAt, Init, InitFill", "xlslib/src/xlslib/datast.cpp: CUnitStore::Init, InitWithValue, Resize"]}
{"id": "C57", "title": "The switches of the view record change what they name", "statement": "The view (WINDOW2) record of a sheet has calls that select or deselect the sheet and turn the page break preview on or off. After any sequence of them a reader finds the selection and the preview as last asked for, and every other property of the view as it was.", "quantifier": "all sequences of the four calls, for active and inactive sheets, all behaviours of the allocator that grant memory", "why_tests_cant": "The calls change single bits of a shared flag word; a wrong mask shows only for some combinations of earlier calls.", "anchors": ["xlslib/src/xlslib/recdef.cpp: CWindow2::SetSelected, SetPaged, ClearSelected, ClearPaged"]}
{"id": "C58", "title": "Kind and visibility of a sheet in the sheet directory", "statement": "A sheet entered in the sheet directory with a kind (worksheet, macro sheet, chart, module) and a visibility (visible, hidden, very hidden) is found by a reader with that kind, that visibility, its name and the position of its data.", "quantifier": "all kinds, visibilities, names of up to 255 characters and 32-bit positions", "why_tests_cant": "The flags are combined from overlapping masks, and names and positions are unbounded; tests of the library only ever make visible worksheets, for which all flags are zero.", "anchors": ["xlslib/src/xlslib/recdef.cpp: boundsheet_t::SetAttributes, CBSheet::CBSheet", "xlslib/src/xlslib/recdef.h: BSHEET_ATTR_*", "xlslib/src/xlslib/globalrec.cpp: CGlobalRecords::AddBoundingSheet"]}
{"id": "C59", "title": "Rows of the index record set and asked for", "statement": "The first and last row of an index record can be set again after the record was made: the record then shows the rows last set and still shows its block positions, and asking for the first or last row answers what was last set.", "quantifier": "all index records with up to 16000 block positions, all rows below 2^32-1, all sequences of setting and asking, all allocators that grant every request", "why_tests_cant": "The record is edited in place at byte offsets, in any order and any number of times, with any number of positions behind them; a test covers one record and one sequence.", "anchors": ["xlslib/src/xlslib/index.cpp: CIndex::SetRows, CIndex::GetFirstRow, CIndex::GetLastRow, CIndex::CIndex", "xlslib/src/xlslib/index.h: INDEX_OFFSET_*"]}
