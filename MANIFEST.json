{
 "claims": [
  {
   "property": "C01",
   "status": "proved",
   "theorems": [
    "C01_col_name",
    "C01_col_name_unique",
    "C01_col_name_injective",
    "C01_col_name_parse",
    "C01_colname_outcome",
    "C01_last_column_refuted"
   ],
   "note": "round trip for every index below u32::MAX; the name of u32::MAX does not parse (refuted)"
  },
  {
   "property": "C02",
   "status": "proved",
   "theorems": [
    "C02_row_name",
    "C02_row_name_unique",
    "C02_row_name_parse",
    "C02_row_name_injective",
    "C02_last_row_refuted"
   ],
   "note": "round trip for every index below u32::MAX; u32::MAX refuted"
  },
  {
   "property": "C03",
   "status": "proved",
   "theorems": [
    "C03_cellref_text",
    "C03_cellref_roundtrip",
    "C03_any_table_name_refuted"
   ],
   "note": "exact characterisation (iff) of the references that survive, plus witnesses of names that do not"
  },
  {
   "property": "C04",
   "status": "proved",
   "theorems": [
    "C04_cellrange_text",
    "C04_cellrange_roundtrip",
    "C04_any_table_name_refuted"
   ],
   "note": "exact characterisation (iff)"
  },
  {
   "property": "C05",
   "status": "proved",
   "theorems": [
    "C05_colrange_roundtrip",
    "C05_rowrange_roundtrip"
   ],
   "note": "exact characterisation (iff)"
  },
  {
   "property": "C06",
   "status": "partial",
   "theorems": [
    "C06_ranges_roundtrip",
    "C06_ranges_total",
    "C06_trailing_garbage_refuted"
   ],
   "note": "round trip proved for every non-empty list of ranges that survive on their own; rejection of trailing garbage is false and refuted"
  },
  {
   "property": "C07",
   "status": "partial",
   "theorems": [
    "C07_accepted_sound",
    "C07_panic_only_overflow",
    "C07_no_panic_partial",
    "C07_never_panics_refuted"
   ],
   "note": "accepted texts mean what they say; the only possible panic is column overflow, excluded for texts without runs of 7 or more letters; 'never panics' is refuted"
  },
  {
   "property": "C08",
   "status": "proved",
   "theorems": [
    "C08_contains",
    "C08_origin_span",
    "C08_origin_span_cells",
    "C08_out_looped",
    "C08_origin_span_edge_refuted"
   ],
   "note": "origin_span covers exactly the cells; it panics at the u32 edge (refuted for row = u32::MAX)"
  },
  {
   "property": "C09",
   "status": "proved",
   "theorems": [
    "C09_escape_clean",
    "C09_only_entities",
    "C09_unescape",
    "C09_injective",
    "C09_reference"
   ],
   "note": "all strings"
  },
  {
   "property": "C10",
   "status": "proved",
   "theorems": [
    "C10_written_xml_read_back",
    "C10_tokens",
    "C10_raw_attr_refuted"
   ],
   "note": "all call sequences that use the unescaped calls only with harmless values (refuted otherwise); names without markup characters; the tokenizer models quick-xml"
  },
  {
   "property": "C11",
   "status": "proved",
   "theorems": [
    "C11_tree_roundtrip",
    "C11_tree_in_document",
    "C11_norm_idempotent",
    "C11_nested_name_refuted",
    "C11_flat_file_refuted"
   ],
   "note": "exact characterisation (iff) for .ods output; refuted for nested elements with the root's name and for .fods output, which inserts line breaks"
  },
  {
   "property": "C12",
   "status": "proved",
   "theorems": [
    "C12_attr_map_laws",
    "C12_clear_returns",
    "C12_attr_def",
    "C12_add_slice_refuted"
   ],
   "note": "all histories of set/clear; adding a slice can duplicate names (refuted)"
  },
  {
   "property": "C13",
   "status": "proved",
   "theorems": [
    "C13_sheet_is_map",
    "C13_new_sheet",
    "C13_frame",
    "C13_total"
   ],
   "note": "all histories of 19 operations; draw frames accumulate"
  },
  {
   "property": "C14",
   "status": "proved",
   "theorems": [
    "C14_copy",
    "C14_add_any",
    "C14_remove",
    "C14_read",
    "C14_new_content_refuted"
   ],
   "note": "all contents; a content made from scratch has repeat 0 (refuted)"
  },
  {
   "property": "C15",
   "status": "proved",
   "theorems": [
    "C15_bounding_box",
    "C15_outcome",
    "C15_empty_refuted",
    "C15_last_row_refuted"
   ],
   "note": "smallest box and exact failure condition; (0,0) for the empty sheet and totality are refuted"
  },
  {
   "property": "C16",
   "status": "proved",
   "theorems": [
    "C16_iter",
    "C16_range",
    "C16_range_outcome",
    "C16_peek",
    "C16_peek_refuted",
    "C16_size_hint_refuted"
   ],
   "note": "all contents and bounds, exact panic condition; peek_cell before the first next and size_hint after it are wrong (refuted)"
  },
  {
   "property": "C17",
   "status": "partial",
   "theorems": [
    "C17_rows",
    "C17_rows_outcome",
    "C17_rows_excluded_refuted",
    "C17_rows_overflow_refuted",
    "C17_cols",
    "C17_cols_overrun",
    "C17_cols_no_rows",
    "C17_cols_terminates_refuted",
    "C17_cols_outside_refuted"
   ],
   "note": "rows: exact for all bounds when no panic, panics characterised; columns: exact if the last corner cell is stored, otherwise proved to leave the rectangle or to loop forever (refuted)"
  },
  {
   "property": "C18",
   "status": "partial",
   "theorems": [
    "C18_history",
    "C18_top_column_panics",
    "C18_top_column_refuted",
    "C18_other_columns",
    "C18_last_column_refuted",
    "C18_second_set_refuted"
   ],
   "note": "fresh sheets: all histories; maps with repeated headers: exact for any column but the last of a repeated header, where it is refuted, as it is for a second setting; getters panic for column u32::MAX"
  },
  {
   "property": "C19",
   "status": "partial",
   "theorems": [
    "C19_step",
    "C19_forward_history",
    "C19_refuted"
   ],
   "note": "one call on any non-overlapping header map is characterised exactly: the header starting at the next row may be erased (refuted); histories that do not go back to earlier rows are correct"
  },
  {
   "property": "C20",
   "status": "partial",
   "theorems": [
    "C20_survives_partial",
    "C20_gap_refuted",
    "C20_right_refuted"
   ],
   "note": "proved for all columns up to the last one with a cell, group or header column, for sheets whose equal neighbouring headers touch and whose column groups begin and end at headers; both conditions are needed (refuted, C24_columns_refuted)"
  },
  {
   "property": "C21",
   "status": "proved",
   "theorems": [
    "C21_groups_nested",
    "C21_add_panics_iff",
    "C21_remove_exact"
   ],
   "note": "all histories of add, remove and display"
  },
  {
   "property": "C22",
   "status": "proved",
   "theorems": [
    "C22_covered",
    "C22_length",
    "C22_outlived",
    "C22_written",
    "C22_repeat_zero_refuted"
   ],
   "note": "all spans, repeats and positions; owners are the spanning cells not themselves covered; a cell with repeat 0 panics (refuted)"
  },
  {
   "property": "C23",
   "status": "partial",
   "theorems": [
    "C23_cells",
    "C23_exact",
    "C23_repeat0_refuted",
    "C23_split_refuted",
    "C23_row_moved_refuted",
    "C23_void_refuted"
   ],
   "note": "through the characters of the file, for all sheets with any gaps, repeats, row repeats, spans, groups and headers (rich text as in C55; balanced header rows and column groups; row repeats set on the row itself): every position keeps its content; cells keep position and repeat if they are not partly covered; otherwise refuted"
  },
  {
   "property": "C24",
   "status": "partial",
   "theorems": [
    "C24_balanced_partial",
    "C24_columns_refuted",
    "C24_rows_refuted"
   ],
   "note": "balanced for any row groups and spans, header rows with cells, column groups that begin and end at a header of their own; refuted for header rows without cells and for a column group over equal headers"
  },
  {
   "property": "C25",
   "status": "partial",
   "theorems": [
    "C25_rows",
    "C25_rows_exact",
    "C25_columns",
    "C25_columns_exact",
    "C25_rows_survive_partial",
    "C25_columns_survive_partial",
    "C25_flags_refuted",
    "C25_empty_end_refuted",
    "C25_behind_refuted",
    "C25_empty_group_refuted",
    "C25_repeat_refuted",
    "C25_header_refuted"
   ],
   "note": "Through the characters of the file, for any laminar groups on sheets as in C23: exactly which group and header range is read for each that was written. Nothing changes for row ranges that begin and end with rows with cells and for all column ranges of sheets as in C20. Groups that begin together swap display flags if the inner one is listed first, groups that end in a row without cells are one row short, groups behind the last row are cut or lost, a group of one empty row makes writing panic, groups that change within a repeated row are mixed up (refuted)."
  },
  {
   "property": "C26",
   "status": "partial",
   "theorems": [
    "C26_parse",
    "C26_panic",
    "C26_panic_refuted",
    "C26_survives",
    "C26_outcome",
    "C26_negative",
    "C26_leading_zero_refuted",
    "C26_negative_refuted"
   ],
   "note": "the parser is characterised exactly; writing and reading gives the duration back iff it is a non-negative number of milliseconds whose fraction does not start with 0 (refuted otherwise)"
  },
  {
   "property": "C27",
   "status": "partial",
   "theorems": [
    "C27_survives",
    "C27_late_years",
    "C27_late_year_refuted",
    "C27_shape",
    "C27_parse",
    "C27_invalid",
    "C27_reject_refuted",
    "C27_wraps_refuted"
   ],
   "note": "round trip proved for all years up to 9999; well-shaped text that is no date is read as 1970-01-01 instead of rejected (refuted)"
  },
  {
   "property": "C28",
   "status": "proved",
   "theorems": [
    "C28_u32",
    "C28_i16",
    "C28_i32",
    "C28_i64",
    "C28_no_panic",
    "C28_roundtrip",
    "C28_shortest"
   ],
   "note": "exact for all strings and all values"
  },
  {
   "property": "C29",
   "status": "partial",
   "theorems": [
    "C29_visibility",
    "C29_xlink_show",
    "C29_xlink_type",
    "C29_message_type",
    "C29_format_source",
    "C29_transliteration",
    "C29_page_usage",
    "C29_split_mode",
    "C29_display",
    "C29_display_refuted",
    "C29_actuate",
    "C29_actuate_refuted",
    "C29_standard",
    "C29_length",
    "C29_default_length_refuted"
   ],
   "note": "exact for eight of the ten enumerations; validation display 'no' and both link actuations are refuted; lengths included"
  },
  {
   "property": "C30",
   "status": "partial",
   "theorems": [
    "C30_read",
    "C30_lines",
    "C30_survives_iff",
    "C30_survives_partial",
    "C30_refuted",
    "C30_empty_refuted",
    "C30_kind_refuted"
   ],
   "note": "what is read of every text is characterised exactly; the text is unchanged iff it has no blank line or is empty, and stays plain text iff it is one non-empty line (refuted otherwise)"
  },
  {
   "property": "C31",
   "status": "partial",
   "theorems": [
    "C31_survives",
    "C31_empty",
    "C31_order",
    "C31_in_file",
    "C31_currency_refuted",
    "C31_duration_refuted",
    "C31_late_date_refuted"
   ],
   "note": "round trip through the characters of the file for all booleans, numbers, percentages, currency names without XML specials, dates up to 9999 and durations that survive as text (C26), with formula, style, validation and spans; attribute order does not matter; refuted for the excluded payloads"
  },
  {
   "property": "C32",
   "status": "proved",
   "theorems": [
    "C32_add",
    "C32_others",
    "C32_history",
    "C32_own_name",
    "C32_rename_refuted"
   ],
   "note": "all families of automatic names, arbitrary style bodies"
  },
  {
   "property": "C33",
   "status": "proved",
   "theorems": [
    "C33_list",
    "C33_find",
    "C33_detach",
    "C33_round",
    "C33_sequences",
    "C33_moved_refuted"
   ],
   "note": "arbitrary sheet contents"
  },
  {
   "property": "C34",
   "status": "proved",
   "theorems": [
    "C34_map",
    "C34_maps",
    "C34_path",
    "C34_lookup"
   ],
   "note": "all trees made with the operations of the type, all paths"
  },
  {
   "property": "C35",
   "status": "proved",
   "theorems": [
    "C35_survives",
    "C35_read",
    "C35_empty_refuted",
    "C35_map_value_refuted",
    "C35_gap_refuted",
    "C35_panic_refuted"
   ],
   "note": "all trees the format can hold; empty texts are dropped (refuted), other trees refuted; floats carried as their text"
  },
  {
   "property": "C36",
   "status": "proved",
   "theorems": [
    "C36_survives",
    "C36_others",
    "C36_new",
    "C36_page_zoom_refuted",
    "C36_same_name_refuted",
    "C36_panic_refuted"
   ],
   "note": "all options, all lists of distinct sheet names; page view zoom, equal names and other map types refuted"
  },
  {
   "property": "C37",
   "status": "partial",
   "theorems": [
    "C37_survives_partial",
    "C37_exact",
    "C37_plain_string",
    "C37_counts",
    "C37_elements_refuted",
    "C37_user_string_refuted",
    "C37_user_name_refuted",
    "C37_generator_refuted",
    "C37_duration_refuted",
    "C37_panic_refuted"
   ],
   "note": "what is read of any metadata is characterised exactly, through the characters of the file: text fields with any characters, dates up to 9999, cycles, whole-second durations and typed user values survive; template, auto-reload, hyperlink behaviour and statistics are lost, user strings are cut at special characters, user names are not escaped (refuted)"
  },
  {
   "property": "C38",
   "status": "partial",
   "theorems": [
    "C38_unreadable",
    "C38_listeners_lost",
    "C38_reader",
    "C38_scripts_refuted",
    "C38_listeners_refuted",
    "C38_actuate_refuted",
    "C38_empty_refuted"
   ],
   "note": "any workbook with a script is written as an unreadable document and listeners without scripts are lost (proved for all of them); the reader reads all scripts and listeners from a document as the format has it, but panics on an empty script element"
  },
  {
   "property": "C39",
   "status": "partial",
   "theorems": [
    "C39_exact",
    "C39_survives_partial",
    "C39_number",
    "C39_written",
    "C39_messages_refuted",
    "C39_display_refuted",
    "C39_twice_refuted",
    "C39_empty_refuted",
    "C39_panic_refuted",
    "C39_prefix"
   ],
   "note": "exactly what reading does with any set of validations: name, condition, base cell and flags survive; messages are lost, the number doubles, hidden lists and a second round trip make the file unreadable, empty elements are ignored, short conditions panic (refuted)"
  },
  {
   "property": "C40",
   "status": "proved",
   "theorems": [
    "C40_quote",
    "C40_list",
    "C40_injective",
    "C40_value_injective",
    "C40_list_number_refuted"
   ],
   "note": "all builders of Condition and ValueCondition; floats carried as their text"
  },
  {
   "property": "C41",
   "status": "partial",
   "theorems": [
    "C41_cells",
    "C41_headers",
    "C41_rows",
    "C41_repeats",
    "C41_through",
    "C41_large_refuted",
    "C41_trailing_refuted",
    "C41_next_row_refuted",
    "C41_write_again_refuted"
   ],
   "note": "Every logical position of a written table holds its own copy of the cell after reading with cloning and nothing else is stored (C41_through: repeats of used rows up to 1000, cells that say something), the expansion itself is exact for any table read (C41_cells) and each logical row keeps its attributes (C41_rows). Not true in general: one of the last five rows loses repeats above 1000, trailing repeated styled cells are dropped, and the row behind a styled row reports the style of that row and repeat count 0, after which writing moves the following rows down."
  },
  {
   "property": "C42",
   "status": "partial",
   "theorems": [
    "C42_local",
    "C42_range",
    "C42_table",
    "C42_table_refuted"
   ],
   "note": "holds for all forms without table and all range forms; with a table single cell references are always absolute (refuted)"
  },
  {
   "property": "C43",
   "status": "proved",
   "theorems": [
    "C43_cell_helpers",
    "C43_range_helpers"
   ],
   "note": "all 16 helpers; parse-back under the condition of C03/C04"
  },
  {
   "property": "C44",
   "status": "proved",
   "theorems": [
    "C44_completed",
    "C44_writes",
    "C44_lists",
    "C44_files",
    "C44_survives",
    "C44_own_data_refuted",
    "C44_no_data_refuted",
    "C44_dir_data_refuted",
    "C44_meta_inf_refuted",
    "C44_version_refuted",
    "C44_renamed_refuted"
   ],
   "note": "For any manifest keyed by path. The zip library is modelled as a list of named entries that refuses duplicates. Entries for mimetype, META-INF/ and META-INF/manifest.xml make writing fail; data of the library's own parts and of directories is not kept."
  },
  {
   "property": "C45",
   "status": "partial",
   "theorems": [
    "C45_one_place",
    "C45_styles_xml",
    "C45_content_xml",
    "C45_flat_xml",
    "C45_ods",
    "C45_fods",
    "C45_written",
    "C45_content_named_refuted",
    "C45_flat_first_refuted",
    "C45_default_format_refuted",
    "C45_default_lost_refuted",
    "C45_fonts_refuted",
    "C45_page_twice_refuted",
    "C45_tabs_refuted"
   ],
   "note": "Through the characters of the files, for any style set: each section of each file declares exactly the styles that belong there, and all that are written are read with their origin and use and nothing else is. Named and default styles of the origin content are written into no file of a package, writing a flat file changes the workbook, default formats are read as named ones, only the first font keeps its origin, page layouts are in both files (refuted). Scripts, settings and sheets of the same documents are any calls that the style readers pass over."
  },
  {
   "property": "C46",
   "status": "proved",
   "theorems": [
    "C46_spans_positive",
    "C46_zero_panics",
    "C46_survives"
   ],
   "note": "histories of span setting; spans survive the file for all cells (rich text as in C55)"
  },
  {
   "property": "C47",
   "status": "partial",
   "theorems": [
    "C47_col_group_display",
    "C47_row_group_display_refuted"
   ],
   "note": "proved for columns of fresh sheets, refuted for rows"
  },
  {
   "property": "C48",
   "status": "partial",
   "theorems": [
    "C48_rows",
    "C48_empty_rows_refuted"
   ],
   "note": "proved for all rows with cells; rows without cells lose what was set for them (refuted)"
  },
  {
   "property": "C49",
   "status": "proved",
   "theorems": [
    "C49_sheet",
    "C49_no_ranges_refuted"
   ],
   "note": "all sheets as in C23; an empty list of print ranges is read as none (refuted)"
  },
  {
   "property": "C50",
   "status": "partial",
   "theorems": [
    "C50_ods",
    "C50_fods",
    "C50_embedded_refuted",
    "C50_embedded_flat_refuted",
    "C50_no_position_refuted",
    "C50_header_style_refuted",
    "C50_region_refuted",
    "C50_region_flat_refuted",
    "C50_empty_header_refuted"
   ],
   "note": "Proved for all styles that are written, with embedded texts without special characters and headers of elements (in flat files: no embedded texts and no regions); what goes beyond is refuted. Style maps with a base cell that can be written as text."
  },
  {
   "property": "C51",
   "status": "proved",
   "theorems": [
    "C51_ods",
    "C51_ods_only",
    "C51_fods",
    "C51_scripts",
    "C51_no_sheets",
    "C51_script_refuted",
    "C51_unknown_refuted",
    "C51_fods_ns_refuted"
   ],
   "note": "Through the characters of all four files and of the flat file, with the theorems of the parts applied to the workbook that is read. A script makes the file unreadable, elements the writer does not know are lost, and the namespaces of a flat file are read under another name than they are written from."
  },
  {
   "property": "C52",
   "status": "proved",
   "theorems": [
    "C52_closed",
    "C52_closed_flat",
    "C52_only_tables",
    "C52_only_tables_ods",
    "C52_same",
    "C52_same_flat",
    "C52_cut",
    "C52_hangs",
    "C52_hangs_flat",
    "C52_ends_refuted"
   ],
   "note": "Loops counted turn by turn, with the end of the file as an event that comes again and again. Any table that can be read, cut off anywhere before its end but not inside the date of an annotation (there an error is possible), makes the reader run forever (refuting that reading always ends)."
  },
  {
   "property": "C53",
   "status": "proved",
   "theorems": [
    "C53_events",
    "C53_ods",
    "C53_ods_only",
    "C53_fods",
    "C53_fods_only",
    "C53_never_refuted"
   ],
   "note": "For all files of the model, with overflow of u32 as a panic (as in a build with overflow checks). Reading without conditions is refuted; the conditions are stated on the events of the file, independent of the readers."
  },
  {
   "property": "C54",
   "status": "proved",
   "theorems": [
    "C54_annotation",
    "C54_frames",
    "C54_exact",
    "C54_says",
    "C54_nested_refuted",
    "C54_heading_refuted",
    "C54_attribute_refuted",
    "C54_data_refuted",
    "C54_date_refuted",
    "C54_flat_refuted"
   ],
   "note": "Through the characters of the file, for all annotations and frames as in the statement; also part of the cells of whole sheets and workbooks (C23, C41, C51). Each condition of the statement is needed (refuted without)."
  },
  {
   "property": "C55",
   "status": "proved",
   "theorems": [
    "C55_paragraphs",
    "C55_survives",
    "C55_says",
    "C55_plain",
    "C55_style_refuted",
    "C55_single_refuted",
    "C55_blank_refuted",
    "C55_again_refuted",
    "C55_heading_refuted",
    "C55_list_refuted",
    "C55_nested_refuted"
   ],
   "note": "Through the characters of the file, for all rich text of paragraphs; also part of the cells of whole sheets and workbooks (C23, C41, C51). What is lost, as the statement has it, has a witness each."
  },
  {
   "property": "C56",
   "status": "partial",
   "theorems": [
    "C56_content",
    "C56_styles",
    "C56_settings",
    "C56_meta",
    "C56_meta_bare",
    "C56_fods",
    "C56_text",
    "C56_meta_refuted",
    "C56_template_refuted",
    "C56_twice_refuted",
    "C56_flat_refuted"
   ],
   "note": "Proved for content.xml, styles.xml, settings.xml and flat files of all workbooks whose own names are declared and distinct, and for meta.xml without Dublin Core fields and links or with the two prefixes in its map. Refuted for meta.xml in general, for annotations with an attribute office:name, and for the prefixes of a flat file that is read and written."
  },
  {
   "property": "C57",
   "status": "proved",
   "theorems": [
    "C57_builder",
    "C57_attr_map",
    "C57_fraction_no_integer",
    "C57_fraction_refuted",
    "C57_push_fraction_refuted",
    "C57_locale_twice_refuted"
   ],
   "note": "Proved for all builders and call sequences; the two exceptions the statement names have witnesses, and that a built fraction never has number:min-integer-digits is proved for all call sequences."
  },
  {
   "property": "C58",
   "status": "partial",
   "theorems": [
    "C58_boolean",
    "C58_number",
    "C58_number_fixed",
    "C58_percentage",
    "C58_currency",
    "C58_date",
    "C58_loc_datetime",
    "C58_time",
    "C58_loc_currency_prefix_refuted",
    "C58_loc_datetime_refuted"
   ],
   "note": "Proved for 21 of the 23 functions, against an interpreter of format parts written from ODF 1.3 part 3, 16.29. Refuted for create_loc_currency_prefix (amount twice) and for the documented order of create_loc_datetime_format."
  },
  {
   "property": "C59",
   "status": "partial",
   "theorems": [
    "C59_resolves",
    "C59_en_us_datetime",
    "C59_frame",
    "C59_unsupported",
    "C59_old",
    "C59_lost",
    "C59_lost_refuted",
    "C59_en_us_datetime_refuted"
   ],
   "note": "Proved where it holds, as the statement has it; that three of the four locales lose the date and time format and leave two names dangling is proved for all workbooks and refutes the rest."
  },
  {
   "property": "C60",
   "status": "partial",
   "theorems": [
    "C60_placed",
    "C60_named",
    "C60_covered",
    "C60_covered_own",
    "C60_unset",
    "C60_placed_refuted"
   ],
   "note": "Proved for all setters and types except the seven places and seven attributes the statement names, which are proved to be misplaced and never set."
  },
  {
   "property": "C61",
   "status": "partial",
   "theorems": [
    "C61_text",
    "C61_text_refuted",
    "C61_locale",
    "C61_font",
    "C61_address",
    "C61_all",
    "C61_refuses",
    "C61_values",
    "C61_all_values",
    "C61_once",
    "C61_values_refuted"
   ],
   "note": "Proved for all setters with sound arguments; the exceptions of the statement are refuted with witnesses. Names, references, addresses and transformations are not looked at."
  },
  {
   "property": "C62",
   "status": "partial",
   "theorems": [
    "C62_title",
    "C62_locale",
    "C62_transliteration_format",
    "C62_transliteration_style",
    "C62_automatic_order",
    "C62_format_source",
    "C62_truncate_on_overflow",
    "C62_volatile",
    "C62_col_width",
    "C62_use_optimal_col_width",
    "C62_row_height",
    "C62_use_optimal_row_height",
    "C62_looks_at",
    "C62_others",
    "C62_transliteration_locale_wrong",
    "C62_transliteration_locale_ignored",
    "C62_transliteration_locale_refuted",
    "C62_row_height_refuted"
   ],
   "note": "Proved for all getters but transliteration_locale, for which it is proved that it ignores its setter, and for row_height after Length::Default."
  },
  {
   "property": "C63",
   "status": "partial",
   "theorems": [
    "C63_exact",
    "C63_survives",
    "C63_plain",
    "C63_resized",
    "C63_readable",
    "C63_stable",
    "C63_resize_refuted",
    "C63_style_refuted",
    "C63_shared_refuted",
    "C63_missing_refuted"
   ],
   "note": "Proved for all headers whose styles are there; exactly what comes back is stated, and the exceptions of the statement are refuted with witnesses. That styles and style names survive the file is C50 and C48."
  },
  {
   "property": "C64",
   "status": "proved",
   "theorems": [
    "C64_nearest",
    "C64_exact",
    "C64_int",
    "C64_int_small",
    "C64_near",
    "C64_order",
    "C64_other",
    "C64_cut",
    "C64_limits",
    "C64_not_finite",
    "C64_same",
    "C64_others",
    "C64_valid",
    "C64_kinds",
    "C64_default",
    "C64_markup",
    "C64_large_refuted",
    "C64_cut_refuted",
    "C64_line_break_refuted",
    "C64_time_refuted"
   ],
   "note": "Proved as stated; the exceptions of the statement are refuted with witnesses. Decimal is not modelled; casts are those of the Rust reference."
  },
  {
   "property": "C65",
   "status": "partial",
   "theorems": [
    "C65_built",
    "C65_elements",
    "C65_method",
    "C65_add",
    "C65_known",
    "C65_complete",
    "C65_misspelt_refuted",
    "C65_paragraph",
    "C65_survives",
    "C65_heading_refuted"
   ],
   "note": "Proved for all builders and all methods but condstyle_name and outline_level, for which it is proved that they set an attribute ODF does not have."
  },
  {
   "property": "C66",
   "status": "partial",
   "theorems": [
    "C66_set",
    "C66_get",
    "C66_one",
    "C66_rest",
    "C66_writable",
    "C66_survives",
    "C66_padding_refuted",
    "C66_odf_refuted"
   ],
   "note": "Proved for data set from bytes and for which texts are read; refuted for data with padding or line breaks, as ODF has it."
  },
  {
   "property": "C67",
   "status": "proved",
   "theorems": [
    "C67_set",
    "C67_lend",
    "C67_panics",
    "C67_readable",
    "C67_registry",
    "C67_offered",
    "C67_new",
    "C67_used",
    "C67_displayed",
    "C67_header_refuted"
   ],
   "note": "Proved for all functions of the three tables; the exception for the headers and footers of a new master page is proved to be one."
  },
  {
   "property": "C68",
   "status": "proved",
   "theorems": [
    "C68_content",
    "C68_flat",
    "C68_flat_rest",
    "C68_ignored",
    "C68_books",
    "C68_cloned",
    "C68_cloned_refuted",
    "C68_zero_refuted",
    "C68_panics_refuted",
    "C68_flat_refuted"
   ],
   "note": "Proved with the exceptions the statement names; each of them is proved to be one."
  },
  {
   "property": "C69",
   "status": "partial",
   "theorems": [
    "C69_sheet_partial",
    "C69_read",
    "C69_balanced",
    "C69_ods_partial",
    "C69_moved_refuted",
    "C69_clash_refuted"
   ],
   "note": "Proved for the elements written inside the table. Names and conditional formats of a sheet are written behind its end tag and are read as elements of the workbook (refuted with a witness); unknown elements are lost."
  },
  {
   "property": "C70",
   "status": "partial",
   "theorems": [
    "C70_value",
    "C70_settles",
    "C70_once",
    "C70_cells_partial",
    "C70_trees",
    "C70_meta",
    "C70_config",
    "C70_slow_refuted",
    "C70_lines_refuted",
    "C70_blank_refuted",
    "C70_grows_refuted",
    "C70_group_refuted",
    "C70_third_refuted",
    "C70_validations_refuted"
   ],
   "note": "False for flat files, validations and column groups, and at first for some texts: witnesses with the number of times. The positive theorems are about the parts (values, cells, trees, metadata, settings); styles are those of C45 and rows and columns those of C48."
  },
  {
   "property": "C71",
   "status": "proved",
   "theorems": [
    "C71_sheet",
    "C71_ods",
    "C71_fods",
    "C71_saved",
    "C71_single_row_refuted",
    "C71_new_content_refuted",
    "C71_edge_refuted"
   ],
   "note": "Outside of the conditions there are panics, each with a witness: a row group of one row without cells between rows with cells, a content made with CellContent::new (repeat count 0) that has a validation, spans leaving the grid and the last row and column."
  },
  {
   "property": "C72",
   "status": "proved",
   "theorems": [
    "C72_sheet",
    "C72_same",
    "C72_saved",
    "C72_flat",
    "C72_empty_refuted",
    "C72_lines_refuted",
    "C72_style_refuted",
    "C72_repeat_refuted"
   ],
   "note": "What does not come back exactly has witnesses: an empty text (no cell), a text of two lines (rich text), a style that was cleared (the style of the workbook for the type is written), and repeat counts (a sheet that is not written)."
  },
  {
   "property": "C73",
   "status": "partial",
   "theorems": [
    "C73_ends",
    "C73_range",
    "C73_iter_partial",
    "C73_rows_partial",
    "C73_cols_partial",
    "C73_cols_overrun",
    "C73_cols_outcome",
    "C73_count",
    "C73_header_max",
    "C73_len_refuted",
    "C73_len_sheet_refuted",
    "C73_iter_refuted",
    "C73_rows_refuted",
    "C73_rows_all_refuted",
    "C73_rows_excluded_refuted",
    "C73_cols_panic_refuted",
    "C73_cols_refuted",
    "C73_header_max_refuted"
   ],
   "note": "Proved for both ends of ranges, for rows from an included start that is not in the first column, for columns of every rectangle that is not empty, and for the counts. False otherwise: len of a range always panics; row by row the upper bound is 0 for every range that starts in the first column; the iterator over all cells says one too few after its first call; column by column the hint can panic, and an empty rectangle gives a cell."
  },
  {
   "property": "C74",
   "status": "proved",
   "theorems": [
    "C74_view",
    "C74_outcome",
    "C74_file",
    "C74_copy",
    "C74_scrolled_refuted",
    "C74_copy_refuted"
   ],
   "note": "A view that was frozen and is then split stays scrolled behind the former header, and a copy without data loses every view; both with witnesses."
  },
  {
   "property": "C75",
   "status": "proved",
   "theorems": [
    "C75_ods",
    "C75_ods_only",
    "C75_fods",
    "C75_manifest",
    "C75_comment",
    "C75_instruction",
    "C75_alike",
    "C75_flat",
    "C75_para",
    "C75_field",
    "C75_cdata_refuted",
    "C75_user_refuted",
    "C75_number_refuted",
    "C75_tree_refuted"
   ],
   "note": "What stands in a CDATA section is passed over like a comment, so its text is lost; a comment inside a user defined value or inside a text of a number format drops what is before it; both with witnesses."
  },
  {
   "property": "C76",
   "status": "proved",
   "theorems": [
    "C76_ods",
    "C76_ods_only",
    "C76_fods",
    "C76_insert",
    "C76_steps",
    "C76_flat",
    "C76_tree_refuted",
    "C76_script_refuted"
   ],
   "note": "Indentation inside elements that are kept as trees is kept as text, and behind an empty script element in a file that ends there it becomes text of the script; both with witnesses."
  },
  {
   "property": "C77",
   "status": "proved",
   "theorems": [
    "C77_ods",
    "C77_ods_only",
    "C77_fods",
    "C77_one",
    "C77_flat",
    "C77_names_refuted",
    "C77_roots_refuted",
    "C77_panic_refuted",
    "C77_own_refuted"
   ],
   "note": "The list cannot be made shorter: C77_names_refuted and C77_roots_refuted give a file for each of its names. The condition about elements inside elements of their own name is needed (C77_own_refuted). Empty groups and headers in the long spelling at the beginning of a sheet are a panic (C77_panic_refuted). The manifest has its own reader and is not part of this."
  },
  {
   "property": "C78",
   "status": "proved",
   "theorems": [
    "C78_ods",
    "C78_ods_only",
    "C78_fods",
    "C78_insert",
    "C78_wrap",
    "C78_flat",
    "C78_inside_refuted",
    "C78_kept_refuted"
   ],
   "note": "The places are those of C76: all elements around are structural. The stronger statement that an unknown element is passed over with its contents is false (C78_inside_refuted), as is the statement for paragraphs and trees (C78_kept_refuted)."
  },
  {
   "property": "C79",
   "status": "proved",
   "theorems": [
    "C79_ods",
    "C79_ods_only",
    "C79_fods",
    "C79_tag",
    "C79_flat",
    "C79_unknown",
    "C79_order",
    "C79_panic_refuted",
    "C79_kept_refuted"
   ],
   "note": "The elements are in the places of C76 (all elements around are structural). Without the condition on values that panic the statement is false, an error can become a panic (C79_panic_refuted); attributes that are kept as they are are not covered (C79_kept_refuted)."
  },
  {
   "property": "C80",
   "status": "proved",
   "theorems": [
    "C80_ods",
    "C80_ods_only",
    "C80_fods",
    "C80_reference",
    "C80_flat",
    "C80_tag",
    "C80_tag_flat",
    "C80_value",
    "C80_event",
    "C80_para",
    "C80_field",
    "C80_setting",
    "C80_part",
    "C80_label",
    "C80_unknown",
    "C80_user_refuted",
    "C80_number_refuted",
    "C80_tree_refuted"
   ],
   "note": "The spellings are written from XML 1.0; what quick-xml makes of a tag is the model of XmlModel. A character in place of its reference is not the same in user-defined metadata, in embedded texts of numbers and behind a tag in a paragraph (refuted with witnesses)."
  },
  {
   "property": "C81",
   "status": "proved",
   "theorems": [
    "C81_ods",
    "C81_fods",
    "C81_saved",
    "C81_saved_flat"
   ],
   "note": "Each single change is one of C75 to C80 and has the conditions given there; what they leave out is left out here too."
  },
  {
   "property": "C82",
   "status": "proved",
   "theorems": [
    "C82_ods",
    "C82_fods",
    "C82_text_refuted",
    "C82_fonts_refuted",
    "C82_default_refuted"
   ],
   "note": "The order of a hash map is that of a list in the model, the other order any permutation of it. What C51 does not say of a reading (validations that are added twice, headers up to the pieces of their texts) is not said here. Fonts with the origin styles, two default styles and the texts themselves depend on the order (refuted with witnesses)."
  },
  {
   "property": "C83",
   "status": "proved",
   "theorems": [
    "C83_columns",
    "C83_sizes",
    "C83_cols",
    "C83_regroup",
    "C83_metadata",
    "C83_views",
    "C83_dangling_refuted",
    "C83_first_refuted"
   ],
   "note": "Both passes over the columns of all sheets are taken one after the other (C83_columns), the others one by one, as they are modelled in C20, C63, C37 and C36. A style that is named but not there, and headers that are alike but apart, are the exceptions (refuted with witnesses)."
  },
  {
   "property": "C84",
   "status": "proved",
   "theorems": [
    "C84_same",
    "C84_exact",
    "C84_fewest",
    "C84_gap_refuted"
   ],
   "note": "What a column has is stated with the header that covers it, without the lookups of the model. The exception of the statement is refuted with a witness."
  },
  {
   "property": "C85",
   "status": "proved",
   "theorems": [
    "C85_widths",
    "C85_again",
    "C85_succeeds",
    "C85_shared_refuted"
   ],
   "note": "The width of a style is what the reader derives from its attributes. Conditions as in C63 and C84; shared styles with different widths are refuted with a witness."
  }
 ]
}