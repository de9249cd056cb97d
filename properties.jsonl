{"id": "C01", "title": "Column names are a bijection with column indices", "statement": "The text name produced for a column (A, B, ... Z, AA, ...) consists only of the letters A-Z, at most seven of them, is the bijective base-26 numeral of index+1, differs for different columns, and parsing it gives back the same column index (for every index below u32::MAX; the name of column u32::MAX is not accepted).", "quantifier": "every u32 column index", "why_tests_cant": "There are 2^32 indices; tests check a handful of names around Z/AA/ZZ, so a wrong carry at some power of 26 or at u32::MAX can go unnoticed.", "anchors": ["src/refs/format.rs: fmt_col_name", "src/refs/parser.rs: try_u32_from_colname"]}
{"id": "C02", "title": "Row names are a bijection with row indices", "statement": "The text name produced for a row is the decimal numeral of index+1 without leading zeros, and parsing it gives back the same row index; distinct rows have distinct names. (Parsing back holds for every index below u32::MAX; row u32::MAX is not accepted.)", "quantifier": "every u32 row index", "why_tests_cant": "2^32 indices including the boundary u32::MAX; tests sample a few.", "anchors": ["src/refs/format.rs: fmt_row_name", "src/refs/parser.rs: try_u32_from_rowname"]}
{"id": "C03", "title": "A cell reference survives text form", "statement": "Formatting a CellRef (optional IRI, optional table name with any characters, absolute flags, row, column) and parsing the text gives an equal CellRef exactly if row and column are below u32::MAX and the table name (if any) contains a quote, blank or dot (then it is quoted) or is a non-empty name of letters, digits, underscores and non-ASCII characters; every IRI survives. Other names such as 2024-Q1, $x or the empty name are rejected or come back changed.", "quantifier": "all cell references: every optional IRI and table name string, both absolute flags, every row and column", "why_tests_cant": "The space of table names and flag combinations is infinite; quoting bugs show only for particular characters.", "anchors": ["src/refs.rs: CellRef, Display for CellRef, parse_cellref, fmt_table_name, fmt_iri", "src/refs/parser.rs: parse_cell_ref, parse_sheet_name, parse_iri"]}
{"id": "C04", "title": "A cell range survives text form", "statement": "Formatting a CellRange (optional IRI, from-table, to-table, four absolute flags, from and to cells) and parsing the text gives an equal CellRange exactly if both table names and all four numbers can be carried (same condition as for C03).", "quantifier": "all cell ranges", "why_tests_cant": "16 flag combinations times infinitely many names and positions.", "anchors": ["src/refs.rs: CellRange, fmt_cell_range, parse_cellrange", "src/refs/parser.rs: parse_cell_range"]}
{"id": "C05", "title": "Column ranges and row ranges survive text form", "statement": "Formatting a ColRange or a RowRange and parsing the text gives an equal value exactly if the table names and numbers can be carried (same condition as for C03).", "quantifier": "all column ranges and row ranges", "why_tests_cant": "Infinite space of names and positions.", "anchors": ["src/refs.rs: ColRange, RowRange, fmt_col_range, fmt_row_range, parse_colrange, parse_rowrange", "src/refs/parser.rs: parse_col_range, parse_row_range"]}
{"id": "C06", "title": "A list of print ranges survives text form", "statement": "Formatting any list of cell ranges as one space separated string and parsing it gives back the same list in the same order, also when table names contain blanks; a string with trailing garbage is rejected rather than silently shortened.", "quantifier": "all lists of cell ranges, all strings", "why_tests_cant": "Unbounded list length, names containing the separator character.", "anchors": ["src/refs.rs: format_cellranges, parse_cellranges", "src/refs/parser.rs: parse_cell_range_list"]}
{"id": "C07", "title": "Parsing a reference never crashes", "statement": "Parsing any text as a cell reference either returns a reference whose row and column fit u32 or returns an error; it never panics, and an accepted column name denotes its bijective base-26 value.", "quantifier": "all input strings", "why_tests_cant": "Inputs come from files written by others; the crashing input may be an arbitrarily long name.", "anchors": ["src/refs.rs: parse_cellref, parse_cellrange", "src/refs/parser.rs: parse_cell_ref, try_u32_from_colname, try_u32_from_rowname"]}
{"id": "C08", "title": "Geometry of cell ranges", "statement": "contains(r,c) is true exactly for the cells of the closed rectangle; origin_span covers exactly row_span*col_span cells starting at the origin; out_looped visits each cell of the rectangle and then leaves it.", "quantifier": "all ranges and all cells", "why_tests_cant": "Off-by-one at borders is a statement about every border cell.", "anchors": ["src/refs.rs: CellRange::contains, CellRange::origin_span, CellRange::out_looped"]}
{"id": "C09", "title": "XML escaping is lossless and leaves no markup", "statement": "Text and attribute values written with escaping contain none of < > ' \" raw and & only as the start of one of the five predefined entities, and unescaping gives back the original text.", "quantifier": "all strings", "why_tests_cant": "Any character sequence, including text that already looks like an entity, must survive.", "anchors": ["src/io/xmlwriter.rs: escape, attr_esc, text_esc, elem_text_esc"]}
{"id": "C10", "title": "Written XML means what was asked for", "statement": "For any properly nested sequence of element/attribute/text calls, the produced characters, read back by an XML tokenizer, are exactly the start tags, attributes, empty tags, text and end tags asked for: content can never break out into markup.", "quantifier": "all properly nested call sequences with arbitrary text and attribute values", "why_tests_cant": "Unbounded nesting and content.", "anchors": ["src/io/xmlwriter.rs: XmlWriter::{elem,empty,attr_esc,text_esc,end_elem,close_elem}"]}
{"id": "C11", "title": "Passed-through XML trees survive write and read", "statement": "An XmlTag tree (names, attributes in order, nested tags and text) that is written and read again is equal to the original up to merging adjacent text and dropping empty text, exactly when no element with content below the root carries the root's own name.", "quantifier": "all XML trees of any depth and width", "why_tests_cant": "Trees are unbounded; bugs appear for specific shapes such as a tag nested in a tag with the same name.", "anchors": ["src/io/write.rs: write_xmltag", "src/io/read.rs: read_xml", "src/xmltree.rs: XmlTag"]}
{"id": "C12", "title": "Attribute map laws", "statement": "After any sequence of set/clear operations reading an attribute gives the last value set and not since cleared, other attributes are unaffected, each name occurs at most once, and iteration yields attributes in order of first insertion.", "quantifier": "all operation sequences and names", "why_tests_cant": "History dependent; unbounded sequences.", "anchors": ["src/attrmap2.rs: AttrMap2::{set_attr,clear_attr,attr,iter}"]}
{"id": "C13", "title": "A sheet is a map from cell positions to cell data", "statement": "After any sequence of cell operations on a sheet (set value, style, formula, validation, spans, matrix span, repeat, annotation, styled value, remove) reading any aspect of any cell gives what was last stored for that cell and aspect, and operations on one cell or aspect never disturb another.", "quantifier": "all operation histories, all cells, all aspects", "why_tests_cant": "Histories are unbounded; tests look at the touched cell, rarely at all others.", "anchors": ["src/sheet_.rs: Sheet::{set_value,set_formula,set_cellstyle,set_validation,set_col_span,set_row_span,set_matrix_col_span,set_matrix_row_span,set_cell_repeat,set_styled_value,set_styled,remove_cell,value,formula,cellstyle,...}"]}
{"id": "C14", "title": "Copying a cell is lossless", "statement": "Reading a cell's full content and adding it at another position makes every aspect of the target equal to the source and leaves all other cells unchanged; removing a cell returns exactly what was stored and leaves an empty cell.", "quantifier": "all cells with all combinations of optional parts", "why_tests_cant": "2^n combinations of optional parts; conversions drop data for specific combinations only.", "anchors": ["src/cell_.rs: CellData::{cloned_cell_content,into_cell_content}, CellContent::into_celldata", "src/sheet_.rs: Sheet::{cell,add_cell,remove_cell}"]}
{"id": "C15", "title": "Used grid size is the bounding box", "statement": "For a non-empty sheet used_grid_size is the smallest (rows, cols) so that every stored cell has row < rows and col < cols; for an empty sheet it is (1,1). It fails exactly if a cell is stored in row or column u32::MAX.", "quantifier": "all sheet contents", "why_tests_cant": "Universal over contents, includes the last row/column.", "anchors": ["src/sheet_.rs: Sheet::used_grid_size"]}
{"id": "C16", "title": "Iterating a sheet visits every cell once in row-major order", "statement": "Iterating all cells, or the cells of a position range, yields exactly the stored cells in that range, each once, in row-major order with the data stored there.", "quantifier": "all sheet contents and range bounds", "why_tests_cant": "All contents and bounds.", "anchors": ["src/sheet_.rs: CellIter, Range, Sheet::{iter,range}"]}
{"id": "C17", "title": "Row-wise and column-wise iteration of a rectangle", "statement": "Iterating the rectangle given by a start and an end position row-wise (column-wise) yields exactly the stored cells with start.row<=row<end.row and start.col<=col<end.col, each once, and always terminates.", "quantifier": "all contents, all rectangles", "why_tests_cant": "Termination over all contents cannot be tested.", "anchors": ["src/sheet_.rs: IterRows, IterCols, Sheet::{iter_rows,iter_cols}"]}
{"id": "C18", "title": "Setting a column attribute touches only that column", "statement": "Setting style, default cell style, visibility or width of column c changes what is reported for column c and nothing that is reported for any other column.", "quantifier": "all column header states reachable by any call sequence or by reading a file with repeated columns, all columns", "why_tests_cant": "Header entries cover several columns; splitting bugs hit neighbours that tests do not look at.", "anchors": ["src/sheet_.rs: create_split_col_header, valid_col_header, set_colstyle, set_col_cellstyle, set_col_visible, set_col_width"]}
{"id": "C19", "title": "Setting a row attribute touches only that row", "statement": "Setting style, default cell style, visibility or height of row r changes what is reported for row r and nothing that is reported for any other row.", "quantifier": "all row header states reachable by any call sequence, all rows", "why_tests_cant": "History dependent interference between neighbouring rows.", "anchors": ["src/sheet_.rs: create_split_row_header, valid_row_header, set_rowstyle, set_row_cellstyle, set_row_visible, set_row_height, set_row_repeat"]}
{"id": "C20", "title": "Column attributes survive writing", "statement": "For every column the style, cell style and visibility implied by the written table-column elements equals what the sheet reports for that column before writing.", "quantifier": "all column header states, header-column ranges and column groups", "why_tests_cant": "Run-length encoding correctness is a statement about every column.", "anchors": ["src/sheet_.rs: dedup_colheader", "src/io/write.rs: calc_col_headers, write_table_columns", "src/io/read.rs: read_table_col_attr"]}
{"id": "C21", "title": "Row and column groups stay properly nested", "statement": "After any sequence of group additions and removals that did not panic, any two groups are disjoint or one contains the other; an addition panics exactly if it would break that.", "quantifier": "all sequences of group operations", "why_tests_cant": "Unbounded sequences.", "anchors": ["src/sheet_.rs: add_row_group, add_col_group, remove_row_group, remove_col_group, Grouped::{contains,disjunct}"]}
{"id": "C22", "title": "Covered cells are exactly the cells hidden by a span", "statement": "For the cells of a row written in order, a cell (or part of a repeated cell) is marked as covered exactly when it lies in the rectangle spanned by an earlier cell, and splitting a repeated cell into covered/uncovered pieces preserves total length.", "quantifier": "all sets of spans, all repeat counts, all positions", "why_tests_cant": "Interval arithmetic over arbitrary overlaps.", "anchors": ["src/io/write.rs: split_hidden, remove_outlived, SplitCols"]}
{"id": "C23", "title": "Every cell keeps its position and content through write and read", "statement": "Writing a sheet and reading it again gives a sheet with exactly the same set of cell positions, each with the same content, for arbitrarily sparse data.", "quantifier": "all sheet contents (positions, repeats, row repeats)", "why_tests_cant": "The element stream is run-length compressed in two dimensions with skipped rows; only a proof covers all gap patterns.", "anchors": ["src/io/write.rs: write_sheet, write_empty_cells, write_start_current_row, write_end_prev_row, write_empty_rows_before", "src/io/read.rs: read_table, read_table_cell"]}
{"id": "C24", "title": "Written tables are well-formed XML", "statement": "Whatever rows, header rows, header columns, row groups and column groups a sheet has, the start and end tags written for the table are balanced and properly nested.", "quantifier": "all sheets with any header ranges and any group structure", "why_tests_cant": "Group/header ranges interact with empty rows in unboundedly many ways.", "anchors": ["src/io/write.rs: write_sheet, write_start_current_row, write_end_prev_row, write_end_last_row, write_empty_rows_before, write_table_columns"]}
{"id": "C25", "title": "Row groups and header rows survive write and read", "statement": "Row groups, column groups, header rows and header columns of a sheet are the same after writing and reading.", "quantifier": "all laminar group sets and header ranges", "why_tests_cant": "Unbounded nesting.", "anchors": ["src/io/write.rs: write_sheet", "src/io/read.rs: read_table"]}
{"id": "C26", "title": "Durations survive write and read", "statement": "A duration value written to a file and read back is the same duration.", "quantifier": "all durations", "why_tests_cant": "Fractional part formatting is wrong only for some milliseconds; tests use whole seconds.", "anchors": ["src/io/format.rs: format_duration2", "src/io/parse.rs: token_duration, token_nano, parse_duration"]}
{"id": "C27", "title": "Dates and times survive write and read", "statement": "A date-time value with a four digit year written to a file and read back is the same date-time; text which is not a valid date-time is rejected.", "quantifier": "all date-times, all strings", "why_tests_cant": "All calendar dates and all malformed strings.", "anchors": ["src/io/parse.rs: token_datetime, parse_datetime", "src/io/write.rs: DATETIME_FORMAT, write_cell"]}
{"id": "C28", "title": "Integer attributes are parsed exactly", "statement": "Parsing an integer attribute accepts exactly the decimal numerals whose value is in the range of the type and returns that value; formatting and parsing any value of the type is the identity.", "quantifier": "all byte strings, all u32/i16/i32/i64 values", "why_tests_cant": "All strings including overlong ones.", "anchors": ["src/io/parse.rs: parse_u32, parse_i16, parse_i32, parse_i64"]}
{"id": "C29", "title": "Enumerated attribute values survive write and read", "statement": "For visibility, xlink actuate/show/type, validation display, message type, split mode, format source, transliteration style and master page usage, the written name is parsed back to the same value, different values have different names, and unknown names are rejected.", "quantifier": "all enum values, all strings", "why_tests_cant": "Rejection is about all strings; round trip needs every variant of every enum.", "anchors": ["src/sheet_.rs: Visibility, SplitMode", "src/xlink.rs", "src/validation.rs: ValidationDisplay, MessageType", "src/io/parse.rs: parse_visibility, parse_xlink_*", "src/style/units.rs: ParseStyleAttr impls"]}
{"id": "C30", "title": "Text cells survive write and read", "statement": "A text value (any characters, any line breaks) written as a cell and read back gives the same text.", "quantifier": "all strings", "why_tests_cant": "Failure depends on blank lines, leading line breaks and emptiness.", "anchors": ["src/io/write.rs: write_cell", "src/io/read.rs: read_table_cell, append_text, set_value, read_text_or_tag", "src/value_.rs: as_cow_str_or"]}
{"id": "C31", "title": "Typed cell values survive write and read", "statement": "Boolean, number, percentage, currency, date and duration values keep type and payload through the cell attributes written and read.", "quantifier": "all values of each type (floats via their shortest text form)", "why_tests_cant": "All payloads, attribute order independence.", "anchors": ["src/io/write.rs: write_cell", "src/io/read.rs: read_table_cell, set_value"]}
{"id": "C32", "title": "Automatic style names never collide", "statement": "Adding an unnamed style gives it a name that no existing style of that family has, never overwrites an existing style, and the returned reference resolves to the added style; this holds after any history of additions, removals and changes. No history of at most u32::MAX calls panics, no automatic name is given twice, and every style is found under its own name unless it was renamed in place (then it stays under its old name).", "quantifier": "all histories of named/unnamed additions and removals, all families sharing one counter table", "why_tests_cant": "Counter reuse and user names that look automatic depend on history.", "anchors": ["src/workbook_.rs: auto_style_name, auto_style_name2, add_*style, remove_*style"]}
{"id": "C33", "title": "The sheet list behaves like a list; detach and attach restore it", "statement": "push/insert/remove act as on a list of sheets, sheet_idx finds the first sheet with that name, and detaching sheets and re-attaching them in any order restores the workbook with the modifications made meanwhile (as long as no sheet is inserted or removed while others are detached: then attaching overwrites another sheet); access to a detached sheet panics rather than giving wrong data.", "quantifier": "all operation sequences", "why_tests_cant": "Interleavings of several detached sheets.", "anchors": ["src/workbook_.rs: WorkBook::{push_sheet,insert_sheet,remove_sheet,detach_sheet,attach_sheet,sheet,sheet_idx}", "src/ds/detach.rs: Detach"]}
{"id": "C34", "title": "Configuration tree lookup laws", "statement": "After inserting a value at a path of the settings tree, reading that path gives the value, every value at a path that does not run through it reads as before, every map keeps its entries in insertion order, and the insertion panics exactly when something on the path exists with another type.", "quantifier": "all trees, all paths", "why_tests_cant": "Trees are unbounded.", "anchors": ["src/config.rs: ConfigMap::{insert,get,get_or_create}, ConfigItem::{create_path,get_rec,get_value_rec}"]}
{"id": "C35", "title": "Settings survive write and read", "statement": "A settings tree written to settings.xml and read back is equal up to empty text values, which are dropped, for every nesting of sets, indexed and named maps that the format can hold (entries only in maps, only sets at the top, no gaps in indexed maps) and every value type; reading never panics and what is read can be written again.", "quantifier": "all settings trees", "why_tests_cant": "Unbounded nesting.", "anchors": ["src/io/write.rs: write_config_*", "src/io/read.rs: read_config_*"]}
{"id": "C36", "title": "View options survive write and read", "statement": "The workbook view options and per-sheet view options (cursor, zoom, split mode and position, grid, ...) except the page view zoom, written with the file, are the same after reading, for every list of sheets with distinct names, when the maps that hold them have the expected types, as in every new workbook; no other setting changes.", "quantifier": "all option values, all sheet lists", "why_tests_cant": "Many fields mapped by hand to string keys; u32 to i32 conversions.", "anchors": ["src/io/write.rs: calc_config", "src/io/read.rs: calc_derived", "src/sheet_.rs: SheetConfig, SplitMode", "src/workbook_.rs: WorkBookConfig"]}
{"id": "C37", "title": "Document metadata survives write and read", "statement": "Every metadata field (strings with any characters, dates, editing cycles and duration, template, auto-reload, hyperlink behaviour, statistics, user defined values) is the same after writing and reading.", "quantifier": "all metadata values", "why_tests_cant": "Combinations of optional fields and special characters.", "anchors": ["src/io/write.rs: write_office_meta", "src/io/read.rs: read_office_meta, read_metadata_user_defined, read_metadata_value"]}
{"id": "C38", "title": "Scripts and event listeners are written as well-formed XML and survive", "statement": "For any scripts and event listeners the written part is balanced XML inside office:scripts and reads back to the same scripts and listeners.", "quantifier": "all lists of scripts, all sets of listeners", "why_tests_cant": "Needs every combination of empty and non-empty.", "anchors": ["src/io/write.rs: write_office_scripts, write_scripts, write_event_listeners", "src/io/read.rs: read_scripts, read_script, read_event_listener"]}
{"id": "C39", "title": "Content validations survive write and read", "statement": "Every validation with name, condition, base cell, flags, error and help message is the same after writing and reading, and the number of validations is unchanged.", "quantifier": "all sets of validations with all combinations of optional messages", "why_tests_cant": "Combination of start/empty element handling and optional children.", "anchors": ["src/io/write.rs: write_content_validations", "src/io/read.rs: read_validations, read_validation, read_validation_help, read_validation_error", "src/workbook_.rs: add_validation"]}
{"id": "C40", "title": "Condition texts are unambiguous", "statement": "Condition builders quote string operands so that different builder calls with different operands give different condition texts, a quoted text can be read back whatever follows it, and the operands of a choice list can be recovered from the text (there numbers and their texts are the same).", "quantifier": "all strings and lists of strings", "why_tests_cant": "Strings containing quotes and separators.", "anchors": ["src/condition.rs: quote, Value, Condition::content_is_in_list, Condition::content_eq, ValueCondition::value_eq"]}
{"id": "C41", "title": "Repeated rows and cells are expanded faithfully on read", "statement": "Reading with cloning gives every logical position covered by a repeated row or repeated cell its own copy of the content, nothing else changes, and row attributes of each logical row are kept.", "quantifier": "all tables with any row and cell repeats", "why_tests_cant": "Interaction of row repeats, cell repeats and header repeats.", "anchors": ["src/io/read.rs: calc_cloned_sheet, calc_repeat_sheet", "src/sheet_.rs: CellData::repeat"]}
{"id": "C42", "title": "Absolute and relative markers of the cell! macro", "statement": "cell!([table =>] [abs] row, [abs] col) creates a reference whose row (column) is absolute exactly if abs was written in front of it.", "quantifier": "all syntactic forms of the macro", "why_tests_cant": "Each of the forms is a separate macro arm; each arm must be right.", "anchors": ["src/formula.rs: cell!, fcell!"]}
{"id": "C43", "title": "Formula helpers produce what they are named for", "statement": "fcellref*/frangeref* produce the bracketed text of the reference with exactly the row/column absolute flags named by the helper, and that text (without brackets) parses back to the reference.", "quantifier": "all helper functions, all table names, rows and columns", "why_tests_cant": "All rows/columns/names.", "anchors": ["src/formula.rs: fcellref, fcellrefr, fcellrefc, fcellrefa, frangeref*", "src/refs.rs: to_formula"]}
{"id": "C44", "title": "The package lists what it contains", "statement": "The written manifest lists the root and every written part except mimetype and META-INF exactly once and nothing else; it has entries for root, content, styles, meta and settings; every user-added file (a path that is no directory, none of the library's own parts and not in the fixed frame of the package) is written once under its path with its data and read back with the same path, version, media type and data. Writing fails exactly if the user has an entry for mimetype, META-INF/ or META-INF/manifest.xml.", "quantifier": "all manifests that are keyed by path", "why_tests_cant": "Sets of paths overlapping the standard parts.", "anchors": ["src/io/write.rs: create_manifest, write_ods_manifest, write_ods_extra", "src/io/read.rs: read_ods_manifest, read_ods_extras"]}
{"id": "C45", "title": "Each style is written exactly once, where it belongs", "statement": "Every style is written in exactly one place determined by its origin and use, and reading gives it the same origin and use.", "quantifier": "all style sets, all origins and uses", "why_tests_cant": "Partition over the product of families, origins and uses.", "anchors": ["src/io/write.rs: write_styles, write_office_styles, write_office_automatic_styles, write_office_font_face_decls", "src/io/read.rs: read_office_styles, read_office_automatic_styles, read_office_font_face_decls"]}
{"id": "C46", "title": "Cell spans are always positive and survive", "statement": "Setting a span of zero panics, every stored span is at least 1x1, and spans greater than one written to a file are read back unchanged.", "quantifier": "all span setting histories", "why_tests_cant": "History dependent.", "anchors": ["src/cell_.rs: CellSpan", "src/io/write.rs: write_cell", "src/io/read.rs: read_table_cell"]}
{"id": "C47", "title": "Collapsing a group changes the visibility of its members only", "statement": "Setting the display flag of a row or column group sets the visibility of exactly the rows or columns of the group and leaves every other reported attribute of every row or column as it was.", "quantifier": "all header states reachable by calls, all groups", "why_tests_cant": "Depends on which headers exist before and in which order they were made.", "anchors": ["src/sheet_.rs: set_col_group_displayed, set_row_group_displayed"]}
{"id": "C48", "title": "Row attributes survive writing", "statement": "For every row the style, default cell style, visibility and repeat count reported after writing a sheet and reading it again equals what was reported before.", "quantifier": "all row header states, all cell contents", "why_tests_cant": "Depends on which rows have cells, on repeats and on the headers the reader leaves behind.", "anchors": ["src/io/write.rs: write_start_current_row, write_empty_rows_before", "src/io/read.rs: read_table, read_table_row_attr"]}
{"id": "C49", "title": "Sheet attributes and print ranges survive writing", "statement": "The name, style, display flag, print flag and print ranges of a sheet are unchanged by writing and reading.", "quantifier": "all sheets", "why_tests_cant": "Names are arbitrary text that passes through escaping.", "anchors": ["src/io/write.rs: write_sheet", "src/io/read.rs: read_table, read_table_attr"]}
{"id": "C50", "title": "The contents of styles, formats, page layouts and master pages survive", "statement": "Writing a workbook and reading it again gives every style, value format, page layout and master page that is written the same attributes, properties, format parts, conditions, tab stops, headers and footers as before.", "quantifier": "all style sets of all families, all attribute lists, format parts, headers and footers", "why_tests_cant": "Contents are nested lists of arbitrary texts; which texts are lost depends on characters and on line breaks in the file.", "anchors": ["src/io/write.rs: write_tablestyle ... write_graphicstyle, write_valuestyle, write_pagestyles, write_masterpage, write_regions", "src/io/read.rs: read_cellstyle, read_paragraphstyle, read_value_format, read_part, read_part_text, read_part_number, read_page_style, read_master_page, read_headerfooter"]}
{"id": "C51", "title": "A whole workbook survives write and read", "statement": "A workbook with at least one sheet and without scripts, whose parts meet the conditions of the properties about them, can be read after it was written as a package or as a flat file, with every reading option. The workbook read has the same version and namespaces, and its metadata, settings, styles, fonts, validations, sheets and the other elements of the body that the writer knows are what their properties say of each of them alone; the sheets are in the same order. A sheet with other elements is read as it is without them, with those of them that stay in it (C69). Reading only the content gives the same sheets, for a flat file if no other element in it has the name of the body. Scripts and event listeners of a file are read into the workbook as C38 has it.", "quantifier": "all workbooks, all namespace maps in any order, packages and flat files, all reading options", "why_tests_cant": "The parts share files and readers: each function reads to its own end tag and hands the rest to the next one. Tests see a few combinations of parts; that none ends the loop of another, or is read twice or not at all, has to hold for all of them.", "anchors": ["src/io/write.rs: write_ods_impl, write_fods_content, write_ods_metadata, write_ods_settings, write_ods_styles, write_ods_content, write_office_body, write_xmlns", "src/io/read.rs: read_ods_impl, read_ods_impl_content_only, read_fods_impl, read_fods_impl_content_only, read_ods_content, read_office_body, read_namespaces_and_version, read_ods_styles, read_ods_metadata, read_ods_settings, calculations", "src/io/mod.rs: NamespaceMap"]}
{"id": "C52", "title": "Reading ends for every text that does not end inside a table", "statement": "The loops of the reader, counted turn by turn, end within as many turns as content.xml or the flat file has events (and one), for every text whose tags fit and that does not end inside a table, whether complete or cut off elsewhere; the outcome is the one that the model of reading states. For all texts, a workbook is returned after some number of turns exactly if the model of reading returns it. Reading does not always end: a table that can be read, cut off anywhere before its end tag but not inside the date of an annotation, makes the reader run forever, neither returning nor failing, since the loop of read_table does not look for the end of the file.", "quantifier": "for all texts of content.xml or of flat files, options and default settings; all tables that can be read and all places to cut them off", "why_tests_cant": "A test with a truncated file shows one place; that every other loop ends and that every cut inside a table hangs are claims about all texts and all places.", "anchors": ["src/io/read.rs:938-1086", "src/io/read.rs:260-354", "src/io/read.rs:736-868", "src/io/read.rs:1294-1496"]}
{"id": "C53", "title": "For which files reading cannot panic", "statement": "Reading a package or a flat file, whole or content only, with any option, returns a workbook or an error and does not panic, for every text of the files (well-formed or not, with any elements anywhere), if: the files together have at most 2^32-1 characters; conditions begin with three whole bytes; references in base cells and print ranges have no more than six letters in a row and durations no more than eleven digits in a row; rows and columns are not repeated zero times and with their repetitions number less than 2^32-2 and 2^32; a group of rows or columns or a header range ends behind a row or column of its table; scripts have an end tag. Each of the conditions behind the first is needed: without it there is a text of fitting tags that makes the reader panic.", "quantifier": "for all texts of all four files of a package or of a flat file, all options and default settings; 18 texts for the conditions", "why_tests_cant": "Fuzzing finds some of the panics; that there are no others is a claim about all files.", "anchors": ["src/io/read.rs:260-430", "src/io/read.rs:499-618", "src/io/read.rs:791-1094", "src/io/read.rs:1294-1496", "src/io/read.rs:1827-1869", "src/io/read.rs:2064-2249", "src/io/read.rs:3801-4298"]}
{"id": "C54", "title": "Annotations and frames of a cell survive write and read", "statement": "A cell with an annotation or draw frames (whose texts are paragraphs or lists without an element of the same name inside, whose annotation has no attribute named like one of its fields and a date up to the year 9999, and whose image data has no characters that are special in XML) is read with them: name, display, creator, date and attributes of the annotation; number and order of the frames, with title, description, attributes and images; attributes, data and texts of each image. The texts say the same, and are the same up to how their characters are cut into pieces (in flat files, up to a line break after each element inside); they are exactly the same if they are in the pieces that are read. Without any one of the conditions this is false.", "quantifier": "for all cells with such annotations and frames and any value (rich text as in C55); files with and without line breaks, all options and default styles", "why_tests_cant": "Texts are trees of any depth; the reader stops at the first end tag of the same name, which shows only for nested lists.", "anchors": ["src/io/write.rs:2261-2344", "src/io/read.rs:1655-1825", "src/io/read.rs:4704-4781", "src/io/read.rs:4960-5011", "src/draw.rs:17-29", "src/draw.rs:228", "src/draw.rs:350-356"]}
{"id": "C55", "title": "Rich text of a cell survives write and read", "statement": "A cell with rich text (paragraphs without a paragraph inside) is read again, with every option. If every paragraph has an element inside, rich text with the same paragraphs is read, with their attributes and elements, up to how the characters of texts are cut into pieces and, in flat files, a line break after each element inside. A paragraph without elements is read as its text alone: its attributes (its style) are lost; if it holds only texts without characters, it is dropped; if it is the only paragraph, the value is plain text. In packages the texts of the paragraphs that are not blank are always the same, in the same order. Headings are lost, lists are read as the paragraphs in them, and rich text with a paragraph inside a paragraph can make the file unreadable.", "quantifier": "for all rich text of paragraphs, in cells with any other content; files with and without line breaks, all options and default styles", "why_tests_cant": "The reader treats text before the first element of a paragraph differently from text after it, and the first paragraph differently from the second and later ones; elements nest to any depth.", "anchors": ["src/io/write.rs:2119-2259", "src/io/read.rs:1294-1496", "src/io/read.rs:1512-1573", "src/io/read.rs:4783-4956", "src/text.rs"]}
{"id": "C56", "title": "Prefixes in written files are declared and attributes are unique", "statement": "In content.xml, styles.xml, settings.xml and a flat file as written, every element and attribute has a prefix that is declared by an attribute of the root element (or none), and no tag has an attribute twice. The only conditions are about names that the workbook itself brings along: elements kept from a file, rich text and attribute maps use prefixes declared in the map of the file and have distinct attributes, annotations and fonts and formats have no attribute that is written anyway. The same for meta.xml if the map has the prefixes dc and xlink, or if no metadata needs them; otherwise not: meta.xml of a new workbook with a title uses the prefix dc without declaring it. A flat file with a prefix of its own, read and written again, uses it without declaring it.", "quantifier": "for all workbooks that can be written, with any styles, sheets, validations, scripts, settings and metadata, namespaces in any order, with and without line breaks", "why_tests_cant": "The writer has several hundred places that write a tag or attribute; whether a prefix is declared depends on the file and on where the workbook came from, and readers that do not check namespaces accept such files.", "anchors": ["src/io/write.rs:217-340", "src/io/write.rs:721-768", "src/io/write.rs:912-941", "src/io/write.rs:1141-1403", "src/io/read.rs:260-322", "src/io/read.rs:874-911", "src/io/mod.rs:13-37"]}
{"id": "C57", "title": "Format builders add the part that was asked for", "statement": "For each kind of value format part (number, fill character, scientific number, fraction, currency symbol, day, month, year, era, day of week, week, quarter, hours, minutes, seconds, text) and any sequence of calls of the methods of its builder followed by build: exactly one part is added at the end of the format, of the type of the builder, and nothing else of the format changes. Each attribute of the part has the value that the last method concerning it is documented to give, other attributes are not there and none is there twice, the text and position are the last ones given. Exceptions: min_integer_digits of a fraction sets number:min-numerator-digits, so that a built fraction never has number:min-integer-digits, whatever is called; a second locale of a currency symbol keeps the country and script of the first if it has none.", "quantifier": "for all formats, builders and sequences of method calls with any arguments", "why_tests_cant": "The methods can be combined in any order and repeated; tests build a handful of formats and compare nothing but that they can be written.", "anchors": ["src/format/builder.rs", "src/macro_format.rs:2-225", "src/macro_format.rs:227-770", "src/format/mod.rs:281-360", "src/attrmap2.rs:59-107"]}
{"id": "C58", "title": "Predefined formats show what they are named for", "statement": "What a value looks like in a format made by each of the create_* functions, by the meaning ODF gives to the parts of a format: create_boolean_format the truth value; create_number_format(decimals, grouping) a number with so many decimals, grouped or not, the fixed one with exactly so many; percentages times 100 with %; currencies the symbol before or after the amount with two decimals; the date formats YYYY-MM-DD, DD.MM.YYYY and MM/DD/YYYY, date and time YYYY-MM-DD HH:MM:SS, time of day HH:MM:SS modulo a day, intervals with all hours. The same for the localized versions, with any locale. Exceptions: create_loc_currency_prefix shows the amount twice, create_loc_datetime_format shows DD.MM.YYYY HH:MM:SS instead of the documented Y-M-D.", "quantifier": "for all names, locales, numbers of decimals, currency symbols with a non-blank character and all values, and all choices ODF leaves to the application (separators, rounding, default digits, names)", "why_tests_cant": "There are 23 functions and unboundedly many values; no test looks at what an application displays.", "anchors": ["src/format/create.rs", "src/format/builder.rs", "src/macro_attr_number.rs:33-53", "src/macro_attr_number.rs:263-266"]}
{"id": "C59", "title": "Default styles of a workbook name formats that exist and fit", "statement": "After WorkBook::new or locale_settings each of the eight default cell styles names, by style:data-style-name, exactly one value format of the workbook, and this shows values of its kind as is usual in the locale; each type of value has its default style; other styles and formats are unchanged. Holds for bool, number, percentage, currency and date in all four locales (en, cs-CZ, de-AT, en-US), for en-US also for time of day and interval, and for all eight after the deprecated create_default_styles. False for en, cs-CZ and de-AT: the formats for the time of day and for intervals are given the name of the one for date and time, so that default-time and default-interval name formats that are not there, default-datetime shows the time only, and two formats are called datetime1. In en-US date and time come as DD.MM.YYYY though dates come as MM/DD/YYYY. For other locales no formats are added and all eight names dangle.", "quantifier": "for all workbooks without formats of the eight names, all locales and all values", "why_tests_cant": "Whether a style name resolves is only seen by the application that opens the file; it falls back to a standard format without complaint.", "anchors": ["src/workbook_.rs:283-345", "src/locale/mod.rs", "src/locale/default.rs", "src/locale/cs_cz.rs", "src/locale/de_at.rs", "src/locale/en_us.rs", "src/defaultstyles.rs", "src/style/cellstyle.rs:89-113"]}
{"id": "C60", "title": "Attribute setters set the attribute they are named for, where it belongs", "statement": "Each setter of a style, font, tab stop, page layout, header, value format, annotation, frame or image (225 functions of the attribute macros, on the maps each of the 21 types uses them for) changes, if it returns, only attributes whose name is the name of the function (set_some_thing: some-thing, or ns:some-thing for set_ns_some_thing; 23 functions with names of their own as listed), and only attributes that the project's list of attributes (attr_checklist.txt) has for that element. Conversely every attribute marked there as handled has a setter. Exceptions: text properties get fo:font-size-rel instead of style:font-size-rel and style:rotation-angle instead of style:text-rotation-angle, page layouts style:dynamic-spacing, frames draw:corner-radius, and annotations, frames and images xml_id instead of xml:id; style:text-scale and draw:name of annotations have no setter.", "quantifier": "for all setters, types, arguments and attribute maps", "why_tests_cant": "There are some 600 combinations of setter and type; tests call a few and look at none of the attributes.", "anchors": ["src/macro_attr_style.rs", "src/macro_attr_fo.rs", "src/macro_attr_number.rs", "src/macro_attr_svg.rs", "src/macro_attr_table.rs", "src/macro_attr_text.rs", "src/macro_attr_draw.rs", "src/macro_attr_xlink.rs", "src/macro_style.rs:115-135", "src/attr_checklist.txt", "src/style/textstyle.rs:110", "src/style/pagestyle.rs:149", "src/draw.rs:321"]}
{"id": "C61", "title": "Attribute setters write the text of their argument, one that ODF allows", "statement": "A setter gives the attribute it is named for the text of its argument (true or false, the number with its unit or percent sign, a colour as six hexadecimal digits, the name of the variant in kebab case, the parts of a border, a shadow or line widths in their order with a blank between them), the setters of a locale and of a font those of the parts, and no other attribute changes; it fails only where a length is less than zero. The texts are ones ODF knows: with sound arguments (finite numbers other than minus zero, lengths that are given and not in em, positive where ODF wants that, locales of plain subtags) whatever setters of a type are called in whatever order on an empty map, each attribute has a text of the data type ODF 1.3 gives it (lengths, percentages, colours, booleans, counts, the enumerated words, borders and shadows as lists) and none is there twice. Exceptions, which no argument or not every argument gets right: the unlimited hyphenation ladder count is written no_limit, the alignments inside and outside, xlink:actuate as OnLoad, draw:corner-radius without unit, style:rel-column-width with a fraction, the relative font sizes in percent, glyph orientations other than zero, scale as relative width of a table, xlink:type other than simple.", "quantifier": "for all types, sequences of setters and arguments", "why_tests_cant": "The arguments are unbounded and a wrong text is only seen by an application that ignores the attribute.", "anchors": ["src/style/units.rs", "src/style/mod.rs:204-262", "src/macro_attr_style.rs", "src/macro_attr_fo.rs", "src/macro_attr_draw.rs:43-60", "src/macro_attr_xlink.rs"]}
{"id": "C62", "title": "Getters return what the setter was given", "statement": "Title, locale, transliteration format and style, automatic order, format source, truncation and volatility of a value format, width of a column, height of a row and their optimal size: after the setter the getter returns the argument (the locale without variants and extensions, none for the unknown locale; a width that is not given stays so), and no setter with another name changes what the getter returns. Exceptions: transliteration_locale returns the locale of the format whatever set_transliteration_locale was given; after set_row_height(Length::Default) row_height fails.", "quantifier": "for all arguments, attribute maps and other setters", "why_tests_cant": "The getters read texts back; that each reads the attribute its setter wrote needs all pairs to be tried.", "anchors": ["src/macro_attr_number.rs", "src/macro_attr_style.rs:1318-1365", "src/macro_attr_style.rs:1614-1648", "src/macro_attr_style.rs:1870-1892", "src/style/mod.rs:183-203", "src/style/units.rs:85-109"]}
{"id": "C63", "title": "Column widths and row heights survive writing and reading", "statement": "The width of a column and the height of a row (col_width, row_height) come back as they were set, for all columns and rows without a style of their own, and for those with a style as long as the style is in the book, does not ask for the optimal size, and is not shared by columns of different width. In general a column comes back with the default width if its style asked for the optimal one or any column with that style has the default width, else with the width of the last column with that style; a second writing and reading changes no size. Exceptions: a width set for a column that was read with the default width and a style stays lost; a width in a ColStyle that is given to a column without set_col_width is deleted from the style; a width for a column whose style is missing is lost, and a new automatic style can get just that name and take the width of another column away.", "quantifier": "for all lists of column or row headers of all sheets, all styles and widths, any number of writings and readings", "why_tests_cant": "Tests write a width or two and read them back; none sets the width of a column that was read, shares a style between columns or gives the width in the style.", "anchors": ["src/io/write.rs:483-543", "src/io/read.rs:648-675", "src/sheet_.rs:727-729", "src/sheet_.rs:793-804", "src/style/colstyle.rs", "src/style/rowstyle.rs"]}
{"id": "C64", "title": "What is put into a value comes out again", "statement": "A Rust value that is made into a cell value (From, set_value) and read again with the method for its type is the same: floats, bool, text, durations, dates with and without time, and integers of up to 32 bits or up to 2^53, and exactly those others that are floats themselves, and the greatest of each type; the others come back in their order with an error of at most their 2^53th part, as the nearest float. None and () give the empty value. A method for another integer type gives the number if it is one of that type, else the least or greatest of that type; a fraction is cut towards zero. Each method gives something for the types of value it is documented for and else the default. Markup gives its text without tags, with one line for each paragraph. Exceptions: a number that does not fit the type is cut silently instead of giving the default (300 as u8 is 255, not-a-number is 0); line breaks, spaces and tabs inside a paragraph are lost in as_cow_str_or; a time comes back as a date of 1899-12-30 and there is no method that returns it as a time.", "quantifier": "for all integers of the eight types, all floats, texts, markup, dates, times, durations and defaults", "why_tests_cant": "Tests use a few small numbers; at the bounds of 64 bits and of each smaller type rounding and saturation matter.", "anchors": ["src/value_.rs:56-460", "src/value_.rs:479-688", "src/xmltree.rs:210-221"]}
{"id": "C65", "title": "Text builders make the element they are named for, with attributes ODF knows", "statement": "Each of the 31 builders for rich text (TextP, TextSpan, …) makes the element it is named for, a different one each, and those the project's checklist marks as handled; texts and tags stand in it in the order they were added, no attribute is there twice, and the last call of a method counts. A method sets the attribute it is named for, one that ODF has for the element, to the text of its argument and changes nothing else; each attribute noted as handled has a method. Paragraphs built so, with at least one tag and no paragraph inside, come back from a file as they were built. Exceptions: condstyle_name sets text:condstyle-name (ODF: text:cond-style-name) and outline_level sets text:outlinelevel (ODF: text:outline-level); headings are lost on reading; there is no builder for line breaks.", "quantifier": "for all chains of calls on each of the 31 types, all arguments, nested to any depth, and both file formats", "why_tests_cant": "No test looks at the attributes the builders set; a misspelt one is written and read without complaint.", "anchors": ["src/text.rs:34-333", "src/macro_text.rs:1-54", "src/xmltree.rs:92-200"]}
{"id": "C66", "title": "Bytes of an image are kept as base64 and come back", "statement": "DrawImage::set_binary stores the base64 text (RFC 4648, without padding) of the bytes, and get_binary gives exactly these bytes back, also after the cell with the image was written and read. get_binary of any data gives bytes exactly if the data is the base64 text without padding of these bytes, and an error otherwise; without data there are no bytes. Nothing else in the image changes. Exceptions: data as ODF has it (xsd:base64Binary, with padding, and usually with line breaks) gives an error unless the number of bytes is a multiple of three and there is no white space; and what set_binary stores is valid ODF only for such numbers of bytes.", "quantifier": "for all lists of bytes, all texts, all images, all cells that can be written, and both file formats", "why_tests_cant": "Tests set a handful of images; whether get_binary accepts exactly the right texts is a question over all texts.", "anchors": ["src/draw.rs:373-412", "src/io/write.rs:2290-2315", "src/io/read.rs:1780-1815"]}
{"id": "C67", "title": "What is set is what is returned, and nothing else changes", "statement": "For each of the 445 functions that store, add to, empty, lend or return one field of a structure (cell references and ranges, spans, cells, validations, annotations, frames, images, XML tags, scripts, event listeners, sheets, workbooks, styles, style maps, page styles, master pages, headers and footers, fonts, value formats and their parts), each of the 107 functions for the registries of a workbook, and each of 49 constructors: after set_x, x returns the argument; after clear_x, nothing; after push_x or add_x, what it returned before and then the argument; after absolute, absolute_rows or absolute_cols, true; a change made through x_mut is a change of what x returns; and every other function that returns something returns what it returned before. Only repeat counts and spans are refused, by a panic, if they are zero. In a workbook, x(name) and iter_x return what add_x put under that name last unless it was removed. A constructor's argument is what the function with the name of the parameter returns. Whatever has a display flag and is made by new is displayed. The last is false for the headers and footers of a new master page: they are made by the derived default, so a header filled as in the documentation is written with style:display=\"false\".", "quantifier": "all functions in the three tables, all objects, arguments, names and functions applied through a mutable reference", "why_tests_cant": "There are tens of thousands of pairs of a writer and a reader and the tests touch a few dozen of them; that a setter does not touch a neighbouring field is tested nowhere, and no test looks at the display flag of a master page made with new.", "anchors": ["src/refs.rs:29-1010", "src/cell_.rs", "src/validation.rs:60-340", "src/style/masterpage.rs:57-420", "src/style/pagestyle.rs:34-130", "src/macro_style.rs", "src/macro_format.rs", "src/workbook_.rs:560-1300", "src/draw.rs", "src/sheet_.rs:580-1270", "src/io/write.rs:3043-3086"]}
{"id": "C68", "title": "The read options leave out exactly what they say", "statement": "Reading the content only gives the sheets, validations, other elements, scripts and version that reading the whole package gives; of a flat file with one body it gives the same sheets, validations and other elements and nothing else. Reading without empty cells succeeds whenever reading all cells does, and gives the same sheets with the same cells except those without value, formula, validation, spans, annotation and frames; headers of the rows that have cells are the same. With repeat counts kept this holds for the whole workbook; with repeats expanded it holds after the expansion for sheets whose row repeat counts are at most 1000, whose cells are inside rows and where nothing is in the way of the repeats. (Above 1000 the count is reset in the last five rows with a header, and without the empty cells these can be other rows: then values are missing. A cell with a column repeat of 0 shares its position with the next one. Only the content-only reader of flat files takes an element named office:body inside a script for the body.)", "quantifier": "all files, all four readers, all tables as event sequences", "why_tests_cant": "Tests read a file with one set of options and look at single cells; that two readings of the same file agree on everything else is a statement about pairs of runs over all files.", "anchors": ["src/io/read.rs: OdsOptions", "src/io/read.rs: read_ods_impl_content_only", "src/io/read.rs: read_fods_impl_content_only", "src/io/read.rs: ignore_cell", "src/io/read.rs: calculations"]}
{"id": "C69", "title": "The other elements of a sheet survive write and read in the sheet", "statement": "A sheet keeps elements the library does not look into: title, description, source, scenario, forms, shapes, names and conditional formats. A sheet with them is written with balanced tags and is read as it is without them, and has again, in their order, those elements it had. Elements of these names anywhere in a table of any file are read into the sheet.", "quantifier": "all sheets that meet the conditions of C23, all trees of elements in them, packages and flat files, all reading options", "why_tests_cant": "The elements are read by the loop that reads columns, rows and cells; that a tree of any content passes through it without touching the rest, and is where it was, is about all trees and all sheets. No test writes a sheet with such an element.", "anchors": ["src/io/write.rs: write_sheet, write_xmltag", "src/io/read.rs: read_table, read_office_body, read_xml", "src/sheet_.rs: Sheet::extra"]}
{"id": "C70", "title": "Loading and saving again changes nothing more", "statement": "Write a document, read it, and write and read what was read. From the second reading on nothing should change. In packages this holds for the metadata and the settings (the second and every later reading equals the first one), for trees that are kept as they are (up to the pieces of their texts), and for the cells of a sheet whose values are settled: text of one line that is not blank, rich text of paragraphs that have elements or are plain and not empty and that is not a single plain paragraph, and all other values. Any other value is settled after at most five times through a file, and five may be needed: a text ending in blank lines and a blank paragraph are changed by more than one reading. It does not hold for flat files, where each element inside a kept tree gets one more line break each time, for validations, which become more each time and of which one with a message makes the file unreadable at the second time, and for column groups: a group whose last columns are one repeated column is read, and the file that is then written cannot be read.", "quantifier": "All values, sheets, trees, metadata and settings that can be written and read; any number of times", "why_tests_cant": "Tests write and read once. That what is read is again something that can be written and read, and the same, needs a second and third time with every kind of content; the number of times needed has no bound that tests could show.", "anchors": ["src/io/write.rs:2042-2116", "src/io/read.rs:975-1000", "src/io/write.rs:1414-1470", "src/io/read.rs:2219-2249", "src/io/xmlwriter.rs:403-470"]}
{"id": "C71", "title": "What lies within the grid and does not overlap is written; an overlap is an error, not a panic", "statement": "Let all rows and columns of a sheet, with repeats and spans, end below 2^32 - 1, with repeat counts and spans of at least 1, and let no row group consist of a single row without cells that lies before the last row with cells. Then writing the sheet succeeds if no cell lies in the repeats of a cell before it in its row and no row with cells in the repeats of a row with cells before it, and returns an error otherwise; it does not panic. A workbook with a sheet, all of whose sheets are like this and whose other parts can be read back, is written as a package and as a flat file, and what is written is read again as C51 says.", "quantifier": "All sheets and workbooks within the limits: any cells, repeats, spans, headers, groups, header rows and columns, print ranges, styles, validations, settings, metadata", "why_tests_cant": "The writer subtracts and adds positions at each cell, keeps a count of open groups and indexes a list of pieces; whether one of these fails depends on the whole sheet. Tests show single sheets.", "anchors": ["src/io/write.rs:1576-1809", "src/io/write.rs:1828-2040", "src/io/write.rs:2042-2116", "src/io/write.rs:1485-1574", "src/io/write.rs:344-428"]}
{"id": "C72", "title": "What a program sets in a new sheet is what a program finds in the file", "statement": "Take any sequence of calls of the setters, add_cell, remove_cell and the clearing methods on the cells of a new sheet, where values, annotations and frames can be written (C30, C44), repeat counts are 1, spans are positive and everything ends below row and column 2^32 - 1. Then no call panics, the sheet is written, and in the table read from it the getters report for every position what the last calls for this position set: formula, style, validation and spans exactly; the value as C30 and C55 say, annotation and frames up to the pieces of their texts; and a cell without a style has the style of the workbook for values of its type. A position where nothing was set, or where what was set says nothing, reports a blank cell. The same holds for every sheet of a workbook whose sheets are filled like this, in a package and in a flat file, and with and without the options of the reader.", "quantifier": "All sequences of calls with these conditions, all positions, all workbooks whose other parts can be read again, both kinds of file, all options of the reader", "why_tests_cant": "The statement goes from the calls of one program to the results of the calls of another, over the cell map, the splitting into rows and pieces, the writer, the parser, the reader and the calculations after reading. Tests do this for a few fixed sheets.", "anchors": ["src/sheet_.rs:540-557", "src/sheet_.rs:1041-1300", "src/cell_.rs:60-460", "src/io/write.rs:1576-2320", "src/io/read.rs:499-618", "src/io/read.rs:914-1560"]}
{"id": "C73", "title": "What the iterators over cells say about their length, and taking a range from both ends", "statement": "Calls of next and next_back on a range of cells, in any order, give each cell of the range exactly once: those from the front in order, those from the back in reverse, and nothing only when nothing is left. At every moment the size hints of the iterators of a sheet keep the contract of Iterator (at least the lower, at most the upper number of items are still to come) and len, where the type offers it, is this number. cell_count is the number of positions with a cell, and the header maxima are the largest row and column with a header.", "quantifier": "All sheets, all ranges, all sequences of calls from both ends, all moments of an iteration", "why_tests_cant": "The size hint is rarely looked at: collecting into a vector takes only the lower bound, and no test asks for it. A wrong product shows only with a range that does not start in the first column.", "anchors": ["src/sheet_.rs:270-319", "src/sheet_.rs:321-370", "src/sheet_.rs:372-455", "src/sheet_.rs:457-491", "src/sheet_.rs:584-586", "src/sheet_.rs:613-620", "src/sheet_.rs:982-990"]}
{"id": "C74", "title": "Frozen headers and split views", "statement": "After any calls of split_col_header, split_row_header, split_horizontal and split_vertical on a sheet, the split between columns and the split between rows are each those of the last call about them, a frozen header up to column or row n splits behind it and scrolls the other part and the cursor to n + 1, and no other option of the view changes. A call panics exactly for a header at u32::MAX. Written and read again, every sheet of a workbook with distinct sheet names has the view its calls gave it. A copy of the sheet without data has everything but the cells and the view.", "quantifier": "All sequences of calls, all workbooks with distinct sheet names and with settings the writer can extend", "why_tests_cant": "Tests freeze one header and look at the result in an office program. The last call counting per direction, the independence of both directions and the survival beside all other settings are about sequences.", "anchors": ["src/sheet_.rs:560-577", "src/sheet_.rs:1355-1385", "src/io/write.rs:562-622", "src/io/read.rs:621-733"]}
{"id": "C75", "title": "Comments, processing instructions and declarations change nothing that is read", "statement": "Two files whose tags, texts and references are the same, in the same order, are read to the same workbook, or to the same error, by every reader and with every option, whatever comments, processing instructions, declarations and CDATA sections stand anywhere in either of them; so is the manifest. In particular a comment or an instruction may be put into a file anywhere between two tags, and also inside the text of a cell that has no tags before it.", "quantifier": "All files, all options, any number of comments in any places; texts of comments without quotes and without the greater-than sign", "why_tests_cant": "Every one of some forty reading loops has its own list of events it knows, and a comment in one of them is not something a test has. One loop that rejects an unknown event makes files of other programs unreadable.", "anchors": ["src/io/read.rs:260-322", "src/io/read.rs:736-789", "src/io/read.rs:791-868", "src/io/read.rs:1408-1490", "src/io/read.rs:2449-2553", "src/io/read.rs:3631-3672", "src/io/read.rs:3765-3974", "src/io/read.rs:4230-4298", "src/io/read.rs:4704-5010", "src/io/read.rs:5041-5055"]}
{"id": "C76", "title": "Line breaks and indentation between elements change nothing that is read", "statement": "A file and the same file without any of the text that stands between the elements of documents, metadata, settings, styles, validations, tables, rows and cells are read to the same workbook, or to the same error, by every reader and with every option. So a file may be indented line by line, as other programs do, wherever all elements around are of those kinds. Text inside paragraphs, titles, settings, format parts, scripts and the elements that are kept as trees is not touched.", "quantifier": "All files without an empty element office:script, all options, any amount of text in any of these places", "why_tests_cant": "The files of the test suite are what this library and one office program write. Each reading loop decides for itself what to do with text it does not expect, and whether the loop that is running is the one meant depends on everything before.", "anchors": ["src/io/read.rs:260-322", "src/io/read.rs:736-868", "src/io/read.rs:1408-1490", "src/io/read.rs:1655-1821", "src/io/read.rs:1827-1869", "src/io/read.rs:2087-2217", "src/io/read.rs:2449-2553", "src/io/read.rs:2613-3008", "src/io/read.rs:3801-3974", "src/io/read.rs:4267-4560"]}
{"id": "C77", "title": "Which elements may be written <n/> as well as <n></n>", "statement": "XML has two spellings for an element with nothing in it, and both mean the same. For every element name outside a list of 62 names the readers of this library agree: replacing any number of elements, anywhere in a file, by the other spelling changes neither the workbook nor the error that comes out, for every reader and every option. For each of the 62 names there is a file where the spelling changes the result. The list is exact. What is replaced is not inside an element of its own name, attributes are different from each other, and the file has none of the short elements that take in what follows them (number formats, page layouts, master pages and scripts).", "quantifier": "All files, all options, any number of replacements, all element names", "why_tests_cant": "The library writes one spelling of each element and tests read what the library or one office program wrote. Whether a loop handles Event::Empty and Event::Start is decided element by element in some sixty places, and a wrong guess loses a column or a row without an error.", "anchors": ["src/io/read.rs:260-322", "src/io/read.rs:736-868", "src/io/read.rs:946-1086", "src/io/read.rs:1408-1490", "src/io/read.rs:1655-1821", "src/io/read.rs:1827-1869", "src/io/read.rs:1968-2062", "src/io/read.rs:2065-2110", "src/io/read.rs:2282-2446", "src/io/read.rs:2449-2611", "src/io/read.rs:3801-3974", "src/io/read.rs:4267-4560", "src/io/read.rs:4704-4956"]}
{"id": "C78", "title": "Elements the library does not know change nothing that is read", "statement": "Files of other programs have elements of newer versions of ODF and of extensions in them. An element whose name is none of the 139 the readers compare with can be put anywhere between the elements of a document, around any part of it or between its parts, with any attributes, with text and with further such elements in it, and the workbook or the error that comes out is the same, for every reader and every option. Not covered are places where a paragraph, a text or a tree is read as it is. An unknown element is not passed over with all that is in it: elements in it that the library knows are read as if they stood in its place.", "quantifier": "All files, all options, any number of elements, all unknown names", "why_tests_cant": "The tests read files of this library and of one version of one office program. That no loop stops at, miscounts or takes over something it was not written for is a statement about all names and all places, in some twenty loops that run inside each other.", "anchors": ["src/io/read.rs:260-354", "src/io/read.rs:736-868", "src/io/read.rs:946-1086", "src/io/read.rs:1431-1475", "src/io/read.rs:1655-1821", "src/io/read.rs:1827-1869", "src/io/read.rs:1925-2062", "src/io/read.rs:2065-2110", "src/io/read.rs:2248-2553", "src/io/read.rs:2613-2837", "src/io/read.rs:3801-3974", "src/io/read.rs:4267-4560", "src/io/read.rs:5041-5055"]}
{"id": "C79", "title": "The order of attributes and attributes the library does not know change nothing that is read", "statement": "Where the readers take the attributes of an element apart (57 elements: tables, columns, rows, cells, groups, metadata, settings, event listeners, style maps, page layouts, master pages, headers and footers, validations, the sections of a file, and all elements without a meaning for the library), the attributes can stand in any order and further attributes with other names can stand between them, in any number of elements of a file: the workbook or the error that comes out is the same, for every reader and every option. Each attribute that is looked at is there once and its value is none that panics. Attributes of the other elements (properties, fonts, parts of formats, drawings, paragraphs, trees) are kept with all names.", "quantifier": "All files, all options, any number of elements, all orders, all further attributes", "why_tests_cant": "The tests read files of one version of one office program and of this library, which have their attributes in one order. Whether the meaning of one attribute depends on another that was read before it, as a value on its type, is a statement about all orders: fifteen attributes of a cell have more than 10^12.", "anchors": ["src/io/read.rs:736-868", "src/io/read.rs:914-1086", "src/io/read.rs:1097-1475", "src/io/read.rs:1655-1821", "src/io/read.rs:1827-1925", "src/io/read.rs:1925-2062", "src/io/read.rs:2064-2110", "src/io/read.rs:2215-2553", "src/io/read.rs:3540-3589", "src/io/read.rs:3801-4183", "src/io/read.rs:4267-4680"]}
{"id": "C80", "title": "How characters, quotes and white space in tags are written changes nothing that is read", "statement": "XML has several ways to write the same thing: a character can be a reference by name or by its decimal or hexadecimal number with any number of zeros in front, the value of an attribute stands in either quotes with each of its characters itself or as a reference, and there is any white space between attributes, around the equals sign and at the end of a tag. Two files that differ in this only, in any number of places, are read to the same workbook, or to the same error, by every reader and with every option. In a paragraph before its first tag, in fields of the metadata, settings, texts of formats and labels of drawings a character and its reference are the same too.", "quantifier": "All files, all options, any number of references and tags, all Unicode characters, all spellings", "why_tests_cant": "The tests read files of one office program and of this library, which have one spelling each. The spellings of one character are already infinitely many, and whether all places that gather text handle them alike is a statement about six loops.", "anchors": ["src/io/read.rs:5013-5027", "src/io/read.rs:2911-2960", "src/io/read.rs:4190-4230", "src/io/read.rs:4600-4660", "src/io/read.rs:4718-4773", "src/io/read.rs:4783-4956", "src/io/read.rs:4958-5011"]}
{"id": "C81", "title": "A saved workbook survives any changes to its files that mean nothing", "statement": "Other programs rewrite the XML of a file: they put in comments, indentation, elements and attributes of their own, change the order of attributes, the spelling of elements with nothing in them, of characters, quotes and the white space in tags. Whatever changes of these kinds (with the conditions of C75 to C80) are made one after the other, in any number and order, forwards or backwards, in any of the files, the workbook or the error that comes out is the same, for every reader and every option. In particular each workbook of C51 that was saved is read again from its changed files with all that C51 says.", "quantifier": "All files, all sequences of changes, all workbooks as in C51, all options", "why_tests_cant": "A test has one file, changed by one program in one way. That the conditions of the six kinds of changes allow one to follow another in any order is a statement about all sequences.", "anchors": ["src/io/read.rs:262-420", "src/io/read.rs:499-734", "src/io/write.rs:150-420"]}
{"id": "C82", "title": "The order of the hash maps changes nothing that is read", "statement": "Fonts, styles, formats, page layouts, master pages, validations, event listeners and namespaces are in hash maps, which are written in the order the maps give, another one in each run of a program. If a workbook as in C51 is written with the maps in one order then it is written with the maps in any other order, and what is read from the one and from the other is the same, with every option: version, metadata, settings, sheets, other elements, namespaces, validations of the workbook, for each name the style, format, page layout or master page of each family, and for each name the font. For packages the origin of the fonts is the same if at most one of them has the origin styles, else it depends on the order; a default style has no name in a file, so the names of two default styles of a family are given by the order. The texts of the files do depend on the order: the same program with the same data does not write the same file twice.", "quantifier": "All workbooks as in C51, all orders of all of their hash maps, all options", "why_tests_cant": "The order is chosen at random when a program starts, a test sees one of them. A failure that needs a certain order among many styles appears once in many runs.", "anchors": ["src/workbook_.rs:43-102", "src/lib.rs:91-95", "src/io/mod.rs:13-37", "src/io/write.rs:2360-2402", "src/io/write.rs:2500-2848", "src/io/write.rs:2866-3041"]}
{"id": "C83", "title": "What is calculated before writing settles with the first save", "statement": "Before writing, the writers change the workbook: they put the sizes of columns and rows into styles, merge and cut the column headers, put the views into the settings and fill in the metadata. A second save finds nothing left to do. The pass over the sizes makes no further style, gives no header another style and changes no attribute of a style, if the styles the headers name are there. The column headers that were cut at groups and header columns are cut to the same pieces, and they are again disjoint; this holds as well for both one after the other over all sheets, when the second pass over the sizes sees the merged and cut headers. If groups or header columns are changed after a save then the headers are those of a workbook that was never saved before. The metadata, the options of the workbook and every value of the settings stay the same, if the sheets have different names. If a header names a style that is not there then the second pass can change the style made by the first one, and headers that are alike but apart are moved by the first save.", "quantifier": "All tables of styles, all headers of columns and rows, all groups and header columns before and after, all metadata, all settings as in C36 and all views", "why_tests_cant": "Tests write once. The pieces and names a save leaves behind are seen only by a second save, perhaps with other groups, of any of all arrangements of headers.", "anchors": ["src/io/write.rs:417-427", "src/io/write.rs:428-481", "src/io/write.rs:483-543", "src/io/write.rs:545-622", "src/sheet_.rs:1704-1738"]}
{"id": "C84", "title": "The columns that are written depend on what each column has", "statement": "The headers of columns are split and merged by the setters, by reading and by saving. What is written does not depend on how they came about: with the same groups and header columns two sheets are written with the same column headers if each column has the same style, cell style, visibility and width in both, or no header in both. If headers that are alike and neighbours touch then this is the only case in which they are, and without groups and header columns no smaller number of headers says the same. Headers that are alike but apart are written like headers that touch, so different sheets can be written alike. All of this is for headers that do not overlap.", "quantifier": "All arrangements of column headers, all groups and header columns", "why_tests_cant": "There are exponentially many ways to cut the same columns into headers, a test sees the one its calls produce.", "anchors": ["src/io/write.rs:428-481", "src/sheet_.rs:1704-1738", "src/sheet_.rs:75-97"]}
{"id": "C85", "title": "Every column keeps its width through styles, merging and cutting", "statement": "Before writing, the widths of the columns of all sheets go into column styles, alike headers are merged and the headers are cut at groups and header columns. After that every column that had a header has one with the same cell style and visibility and with its own style name if it had one, and the style it now refers to gives its width, or it has no style and the default width. No other column gets a header. A second save leaves the headers as they are, and the styles still give each column its width. The passes get through if new styles find a name and no group and no header columns end with the last 32 bit number. This is for headers that do not overlap, with alike neighbours touching, whose styles are there, where headers that share a style agree on the width and a style with the optimal width is not used for a header with a length. Columns that share a style with different widths do not keep them.", "quantifier": "All sheets with all arrangements of column headers, groups and header columns, all tables of column styles", "why_tests_cant": "The three passes each change what the next one sees, over all sheets and one table of styles; a test looks at one sheet.", "anchors": ["src/io/write.rs:417-511", "src/sheet_.rs:1704-1738", "src/io/read.rs:648-675"]}
