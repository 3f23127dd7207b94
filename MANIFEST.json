{
 "claims": [
  {
   "property": "C01",
   "status": "proved",
   "theorems": [
    "C01_buffer_is_byte_sequence"
   ],
   "note": "Concrete growable buffer refines the byte-list specification for every operation sequence; content bounded by the 29-bit size field."
  },
  {
   "property": "C02",
   "status": "proved",
   "theorems": [
    "C02_no_out_of_bounds",
    "C02_failure_never_silent"
   ],
   "note": "For every allocator behaviour."
  },
  {
   "property": "C03",
   "status": "proved",
   "theorems": [
    "C03_append_reads_back",
    "C03_store_reads_back",
    "C03_in_range"
   ],
   "note": ""
  },
  {
   "property": "C04",
   "status": "proved",
   "theorems": [
    "C04_string_round_trip",
    "C04_overlong_refuted"
   ],
   "note": "Round trip for every string whose length fits the length field; the refutation shows strings longer than 255 lose their length in the 1-byte format."
  },
  {
   "property": "C05",
   "status": "partial",
   "theorems": [
    "C05_records_framed_partial",
    "C05_records_framed_refuted"
   ],
   "note": "Within the limits of SpecSaved.fits every unit is whole records and the stream splits into exactly these. Refuted beyond: a two-record unit above 8224 bytes is cut as one record."
  },
  {
   "property": "C06",
   "status": "proved",
   "theorems": [
    "C06_sizing_terminates_and_is_exact"
   ],
   "note": ""
  },
  {
   "property": "C07",
   "status": "proved",
   "theorems": [
    "C07_compound_file_reads_back",
    "C07_file_is_strict"
   ],
   "note": "Reader in SpecCFB.v. Total data limited to just under 2^32 bytes (the 32-bit size fields). C07_file_is_strict adds the fields such a reader does not look at (class identifiers, reserved fields, mini FAT, name padding, root entry)."
  },
  {
   "property": "C08",
   "status": "proved",
   "theorems": [
    "C08_sectors_disjoint_and_aligned"
   ],
   "note": ""
  },
  {
   "property": "C09",
   "status": "partial",
   "theorems": [
    "C09_history_keeps_first_additions",
    "C09_duplicate_refused_unchanged",
    "C09_names_found_partial",
    "C09_names_found_refuted"
   ],
   "note": "Lookup is proved when names are added in increasing order (as every saved workbook does); the refutation shows that adding B then A makes B unreachable."
  },
  {
   "property": "C10",
   "status": "proved",
   "theorems": [
    "C10_padding_preserves_data"
   ],
   "note": ""
  },
  {
   "property": "C11",
   "status": "proved",
   "theorems": [
    "C11_split_exact",
    "C11_pieces_are_separator_free",
    "C11_nothing_lost"
   ],
   "note": "NUL is a separator too (strchr matches the terminator)."
  },
  {
   "property": "C12",
   "status": "proved",
   "theorems": [
    "C12_last_write_wins"
   ],
   "note": "For every history: lookup at every position gives the last value written, and nothing where nothing was written."
  },
  {
   "property": "C13",
   "status": "proved",
   "theorems": [
    "C13_cells_saved"
   ],
   "note": "Independent BIFF8 reader finds exactly the cells of the history, each once, in row-major order."
  },
  {
   "property": "C14",
   "status": "proved",
   "theorems": [
    "C14_used_range"
   ],
   "note": "Cells and notes both count, as the amended statement says."
  },
  {
   "property": "C15",
   "status": "partial",
   "theorems": [
    "C15_row_records_partial",
    "C15_row_records_refuted"
   ],
   "note": "For all documents within limits where the last cell is not alone in its row or at most 16 rows are in use. The unrestricted property is false of the code: a 17th row with a single last cell gets no ROW record (refuted with a witness)."
  },
  {
   "property": "C16",
   "status": "partial",
   "theorems": [
    "C16_index_partial",
    "C16_default_width_found",
    "C16_block_start",
    "C16_index_refuted",
    "C16_row_offsets_refuted",
    "C16_formula_size_known",
    "C16_formula_plain_size",
    "C16_formula_size_refuted"
   ],
   "note": "For sheets with one row block whose record sizes the library knows: the INDEX entry. For every sheet: the INDEX field locating the default column width, and the DBCELL field locating the first ROW record of its block. The unrestricted property is false of the code: from the second row block on, INDEX offsets are wrong, and the per-row offsets in DBCELL are per cell (both refuted with a witness). The sizes assumed for formulas are those of trees without texts (but single ASCII characters) and without references to other sheets (C16_formula_size_known); otherwise they are wrong (C16_formula_size_refuted)."
  },
  {
   "property": "C17",
   "status": "partial",
   "theorems": [
    "C17_sheet_directory_partial",
    "C17_sheet_directory_refuted"
   ],
   "note": "Holds for streams below 4 GB in which no record needs continuing (rows up to 32819, texts within limits). Refuted when a record is continued: later positions are 4 bytes short."
  },
  {
   "property": "C18",
   "status": "partial",
   "theorems": [
    "C18_signed_integers_exact",
    "C18_unsigned_integers_partial",
    "C18_unsigned_integers_refuted"
   ],
   "note": "Signed: proved for all 32-bit integers. Unsigned: proved below 0xE0000000, refuted from there on (stored as a negative RK value)."
  },
  {
   "property": "C19",
   "status": "proved",
   "theorems": [
    "C19_cell_reads_back"
   ],
   "note": "Kind, position, value; format index while assigned by index (cell call or SetXF) and below 65536."
  },
  {
   "property": "C20",
   "status": "proved",
   "theorems": [
    "C20_shared_strings"
   ],
   "note": "Index designates the text or the documented placeholder; read_sst checks counts and that no string crosses a record."
  },
  {
   "property": "C21",
   "status": "proved",
   "theorems": [
    "C21_merged_ranges"
   ],
   "note": ""
  },
  {
   "property": "C22",
   "status": "proved",
   "theorems": [
    "C22_column_widths"
   ],
   "note": ""
  },
  {
   "property": "C23",
   "status": "partial",
   "theorems": [
    "C23_row_heights_partial",
    "C23_row_heights_refuted"
   ],
   "note": "For rows at or above the last cell. The unrestricted property is false of the code: a height set below the last cell is never saved (refuted with a witness)."
  },
  {
   "property": "C24",
   "status": "proved",
   "theorems": [
    "C24_record_fields",
    "C24_setters_decode",
    "C24_named_colours_refuted"
   ],
   "note": "Record decodes to the object members and to the last setter calls. Fourteen colour names are mapped to another palette entry (refuted theorem); palette indices must be below 128."
  },
  {
   "property": "C25",
   "status": "partial",
   "theorems": [
    "C25_numbers_distinct",
    "C25_numbers_new",
    "C25_font_record_partial",
    "C25_number_format",
    "C25_cell_format",
    "C25_font_record_refuted"
   ],
   "note": "Numbers are distinct and never the library's own; the records saved under the numbers of number formats and cell formats are theirs in every history. For fonts this is proved for careful histories (SpecLook.careful) and refuted in general: a cell setter can rewrite a font created by the user."
  },
  {
   "property": "C26",
   "status": "partial",
   "theorems": [
    "C26_other_cells_partial",
    "C26_own_cell_partial",
    "C26_fonts_refuted"
   ],
   "note": "All setters that are not font setters: every history. Font setters: careful histories (a format object with a font is given out while new or still shown). The unrestricted claim for font setters is false, C26_fonts_refuted."
  },
  {
   "property": "C27",
   "status": "partial",
   "theorems": [
    "C27_pushes_read_back",
    "C27_tree_reads_back",
    "C27_saved_formula",
    "C27_saved_pushes",
    "C27_wrong_count_refuted",
    "C27_six_arguments_refuted",
    "C27_default_class_refuted",
    "C27_arrays_refuted",
    "C27_long_text_refuted",
    "C27_pushes_keep_classes",
    "C27_tree_keeps_classes",
    "C27_saved_classes"
   ],
   "note": "Proved for every tree (and every postfix push sequence) of scalar operands, references with an operand class, operators and functions with a count they take, up to the saved FORMULA record. Refuted cases: wrong argument counts are dropped silently, six-argument functions, references with the default class, array constants, texts above 255 units. Mixed addressing modes: see C29. The operand classes (reference, value, array) of references and calls are those asked for, defaults included (C27_*_classes)."
  },
  {
   "property": "C28",
   "status": "partial",
   "theorems": [
    "C28_counted_calls",
    "C28_fixed_calls_partial",
    "C28_fixed_calls_refuted"
   ],
   "note": "The call with a count: complete for all functions and counts. The call without a count refuses two functions (447, 448) that take exactly six arguments and the macro functions with one count; what it accepts is right and a refused call leaves the formula unchanged."
  },
  {
   "property": "C29",
   "status": "partial",
   "theorems": [
    "C29_links_resolve",
    "C29_reference_saved_partial",
    "C29_mixed_modes_refuted"
   ],
   "note": "Sheets and positions proved for all references, the mode for A1 and $A$1; the modes A$1 and $A1 are exchanged for every reference (refuted). References inside larger formulas: C27_saved_formula together with C29_links_resolve."
  },
  {
   "property": "C30",
   "status": "proved",
   "theorems": [
    "C30_round_trip",
    "C30_last_value",
    "C30_own_values",
    "C30_accepted",
    "C30_oversize_throws",
    "C30_in_file",
    "C30_code_page_refuted",
    "C30_exact_bytes"
   ],
   "note": "The property set streams are exactly 4096 bytes and read back with the last values set, also through the compound file; oversized sets raise an exception. Strings are byte strings although the sets declare code page 1200 (C30_code_page_refuted). C30_exact_bytes gives the whole stream byte for byte."
  },
  {
   "property": "C31",
   "status": "proved",
   "theorems": [
    "C31_accepts",
    "C31_palette_saved"
   ],
   "note": ""
  },
  {
   "property": "C32",
   "status": "proved",
   "theorems": [
    "C32_notes",
    "C32_drawing_group"
   ],
   "note": "Parsing by announced lengths alone recovers the whole drawing of a sheet, one shape per note, identifiers agree between NOTE, OBJ and shapes; authors and texts are those of the last note written at each position."
  },
  {
   "property": "C33",
   "status": "proved",
   "theorems": [
    "C33_substreams",
    "C33_saving_ends"
   ],
   "note": "Substream structure, existence and uniqueness of the saved stream."
  },
  {
   "property": "C34",
   "status": "partial",
   "theorems": [
    "C34_saving_repeatable_partial",
    "C34_saves_succeed_partial",
    "C34_saved_unique",
    "C34_saving_repeatable_refuted"
   ],
   "note": "Histories mixing calls and saves: every save writes the stream a single save of the same calls would write, and saves succeed, for documents without notes. With notes the property is false of the code: the shape identifier counter is never reset, so a second save differs (refuted with a witness)."
  },
  {
   "property": "C35",
   "status": "proved",
   "theorems": [
    "C35_end_to_end"
   ],
   "note": "The stated limits are those of fits (SpecSaved.v) plus total stream size and row extent R <= 32819 (one more and the INDEX record is continued, see the C17 counterexample)."
  },
  {
   "property": "C36",
   "status": "partial",
   "theorems": [
    "C36_success_means_complete_partial",
    "C36_success_means_complete_refuted"
   ],
   "note": "Success implies all bytes entered the stream; the outcome of the final flush in Close is ignored, so the full property is false (refuted)."
  },
  {
   "property": "C37",
   "status": "partial",
   "theorems": [
    "C37_contents",
    "C37_outside_partial",
    "C37_inside_partial"
   ],
   "note": "Contents: every setter and history. Looks: every setter that is not a font setter in every history, font setters in careful histories (see C26). cellcolor and boxer are C45."
  },
  {
   "property": "C38",
   "status": "partial",
   "theorems": [
    "C38_split",
    "C38_no_long_record",
    "C38_hyperlinks_partial",
    "C38_validations_partial",
    "C38_cells_partial",
    "C38_two_records_refuted",
    "C38_moved_refuted"
   ],
   "note": "Proved for single-record units (hyperlinks, validations, formulas without text result) while the store does not move; refuted for formulas of two records and when the store reallocates between the parts."
  },
  {
   "property": "C39",
   "status": "partial",
   "theorems": [
    "C39_ascii_identity",
    "C39_wide_utf16_partial",
    "C39_wide_utf16_refuted"
   ],
   "note": "7-bit identity and basic multilingual plane proved; refuted for every character from U+10000 on."
  },
  {
   "property": "C40",
   "status": "proved",
   "theorems": [
    "C40_hyperlinks",
    "C40_validations"
   ],
   "note": "Within the record size limits of fits (SpecSaved.v)."
  },
  {
   "property": "C41",
   "status": "partial",
   "theorems": [
    "C41_window_partial",
    "C41_active_sheet",
    "C41_defaults_partial",
    "C41_ordinary_view",
    "C41_panes",
    "C41_hidden_rows_ignored",
    "C41_window_refuted",
    "C41_defaults_refuted"
   ],
   "note": "Settings above 3276 points wrap and the hidden-rows setting is not written: both are refuted on witnesses; everything else is proved for all histories."
  },
  {
   "property": "C42",
   "status": "proved",
   "theorems": [
    "C42_legal_calls_succeed",
    "C42_legal_documents_are_saved"
   ],
   "note": "Legal is defined on the API only (SpecLegal.v); no history length bound."
  },
  {
   "property": "C43",
   "status": "proved",
   "theorems": [
    "C43_fixed_part",
    "C43_format_kinds",
    "C43_cells_use_cell_formats",
    "C43_cells_readable"
   ],
   "note": "Read with SpecBook.v (code page, date system, XF kinds, STYLE) and SpecView.v (looks)."
  },
  {
   "property": "C44",
   "status": "partial",
   "theorems": [
    "C44_globals_order",
    "C44_sheet_order_partial",
    "C44_rows_before_cells",
    "C44_sheet_order_refuted"
   ],
   "note": "The workbook part is in order. The sheets are in order except for column descriptions, written before the default column width, and merged areas, written before the view settings: one document refutes each (DESIGN finding 38)."
  },
  {
   "property": "C45",
   "status": "partial",
   "theorems": [
    "C45_ordinary",
    "C45_contents",
    "C45_outside",
    "C45_color_inside",
    "C45_box_inside_partial",
    "C45_box_fill_refuted"
   ],
   "note": "Everything asked for holds except the fill colours of boxer, which the code gets wrong (C45_box_fill_refuted); C45_box_inside_partial states what they are instead. C45_ordinary carries the other theorems about saved documents over to painted ones; font setters after a paint are covered only where the ordinary history is careful (C26)."
  },
  {
   "property": "C46",
   "status": "partial",
   "theorems": [
    "C46_constant_results_partial",
    "C46_others_calculated",
    "C46_pushed_calculated",
    "C46_volatile_partial",
    "C46_constant_results_refuted",
    "C46_volatile_refuted"
   ],
   "note": "Constants other than not-a-numbers beginning with FF FF, all other trees and all pushed formulas are proved; volatile functions at the root of a tree. The two restrictions are necessary: both unrestricted claims are refuted on a saved document. A tree that is only a missing argument is not a formula and is left out."
  },
  {
   "property": "C47",
   "status": "partial",
   "theorems": [
    "C47_format_answers",
    "C47_font_answers_partial",
    "C47_name_buffer",
    "C47_name_buffer_refuted",
    "C47_cells",
    "C47_bounds",
    "C47_asking_harmless",
    "C47_font_answers_refuted",
    "C47_custom_named_general"
   ],
   "note": "font getters only in careful histories (a shared font is changed through cells otherwise); the name buffer must have at least one byte; saves with notes must come last"
  },
  {
   "property": "C48",
   "status": "partial",
   "theorems": [
    "C48_proper_calls_are_safe",
    "C48_pointers_stay_good",
    "C48_delete_frees_all_but_own_nodes",
    "C48_delete_frees_everything",
    "C48_own_trees_survive",
    "C48_shared_tree_refuted",
    "C48_overwritten_cell_refuted",
    "C48_cyclic_tree_refuted",
    "C48_tree_after_overwrite_refuted"
   ],
   "note": "Proved for all sequences of proper calls and a deletion at any moment. Record objects made during a save are C49. Not modelled: buffers, memory inside standard containers; the numbering ignores reuse of addresses (which only makes the model stricter). Four kinds of improper use are shown to break it."
  },
  {
   "property": "C49",
   "status": "partial",
   "theorems": [
    "C49_save_deletes_each_record_once",
    "C49_exception_between_records",
    "C49_only_records_still_needed_are_kept",
    "C49_every_document",
    "C49_exception_in_constructor_refuted",
    "C49_next_save_refuted"
   ],
   "note": "Proved for every sequence of records and every exception between two records; every document meets the hypotheses. Two parts of the full statement are false of the code and refuted for all saves: an exception inside a record constructor makes the storage delete an object twice, and a save after one that failed in the sheets uses deleted directory entries. Not modelled: byte buffers."
  },
  {
   "property": "C50",
   "status": "proved",
   "theorems": [
    "C50_proper_programs",
    "C50_same_calls",
    "C50_end_to_end",
    "C50_cell_formats",
    "C50_notes",
    "C50_formula_cells",
    "C50_hyperlinks",
    "C50_validations",
    "C50_foreign_formula_refuted"
   ],
   "note": "C interface: defined programs characterised, the C++ calls they stand for, and what is read from their files; the proviso that a formula is used on the sheet it was made for is necessary (refuted without it)."
  },
  {
   "property": "C51",
   "status": "proved",
   "theorems": [
    "C51_utf8",
    "C51_char_result",
    "C51_wide_result",
    "C51_input_type",
    "C51_same_calls",
    "C51_end_to_end",
    "C51_astral_refuted",
    "C51_no_memory_refuted"
   ],
   "note": "iconv by its published behaviour. Characters outside the basic multilingual plane lose the whole text (refuted as a faithful conversion)."
  },
  {
   "property": "C52",
   "status": "proved",
   "theorems": [
    "C52_rest_unchanged",
    "C52_note_looks",
    "C52_calls_valid",
    "C52_saves"
   ],
   "note": "Calls on a note that is not there are undefined behaviour in the model (a dangling or null pointer)."
  },
  {
   "property": "C53",
   "status": "partial",
   "theorems": [
    "C53_mode_history",
    "C53_attributes_kept",
    "C53_style_marks_partial",
    "C53_cell_marks_partial",
    "C53_cell_mode_idle",
    "C53_marks_refuted",
    "C53_style_cell_refuted"
   ],
   "note": "Kind and attributes hold for every interleaving. The marks that say which attributes are the own ones of the format are right when style mode is never asked for, and for what is set after the last switch to style mode; in general they are wrong (refuted). A cell can be given a style as its format (refuted)."
  },
  {
   "property": "C54",
   "status": "partial",
   "theorems": [
    "C54_records_apart",
    "C54_no_out_of_bounds",
    "C54_refusal_seen_partial",
    "C54_refusal_refuted"
   ],
   "note": "Separation of records, order, size and memory safety are proved in full. That refused memory is always reported is proved when records are made one at a time and refuted for unfinished records side by side."
  },
  {
   "property": "C55",
   "status": "partial",
   "theorems": [
    "C55_ordinary",
    "C55_contents",
    "C55_others",
    "C55_number_format_partial",
    "C55_number_format_refuted"
   ],
   "note": "The value, the other cells and the format objects are covered in every history. The number format shown is the one asked for unless FMT_GENERAL is asked for with a format object that has a number format of the user's own; there the code keeps the user's format (C55_number_format_refuted)."
  },
  {
   "property": "C56",
   "status": "partial",
   "theorems": [
    "C56_edits",
    "C56_safe",
    "C56_copy",
    "C56_block_partial",
    "C56_block_refuted",
    "C56_assign_refuted"
   ],
   "note": "Every call acts on the bytes shown as on a byte list, including refusals, and never leaves the storage. Missing because false of the code: a block reaching past the end is accepted but lost (C56_block_refuted), and a shorter or empty buffer cannot be assigned (C56_assign_refuted)."
  },
  {
   "property": "C57",
   "status": "partial",
   "theorems": [
    "C57_switches_partial",
    "C57_switches_refuted"
   ],
   "note": "All sequences without the switch that turns the page break preview off; with it the claim is false of the code (C57_switches_refuted)."
  },
  {
   "property": "C58",
   "status": "partial",
   "theorems": [
    "C58_entry_partial",
    "C58_entry_exchanged",
    "C58_same_record",
    "C58_entry_refuted"
   ],
   "note": "Proved for visible worksheets, which are all the library makes, and that record is the one in the saved documents. For other kinds and visibilities the two bytes are exchanged (C58_entry_exchanged, for all), so the claim is false of the code (C58_entry_refuted)."
  },
  {
   "property": "C59",
   "status": "partial",
   "theorems": [
    "C59_rows_partial",
    "C59_rows_refuted"
   ],
   "note": "Rows and block positions in the record, and the first row answered, are as last set. Missing: the last row is answered as one more than set, which C59_rows_refuted shows."
  }
 ]
}