# Formal model of spreadsheet-ods: design and trusted base

## Layout

* `rocq/theories/*Model.v` – the model: total, computable Gallina functions,
  each with a comment naming the file and lines of `/repo/src` it models and
  every simplification made. No proofs.
* `rocq/theories/*Spec.v` – small independent specifications (what the user
  relies on), not using the model's helpers.
* `rocq/theories/*Proofs.v` – lemmas.
* `rocq/theories/*Props.v` – the property theorems only (`exact lemma`),
  each followed by `Print Assumptions`, and `Example`s showing a concrete
  non-trivial case that meets the hypotheses.
* `MANIFEST.json` – property -> theorems; `seeded/LOG.jsonl` – seeded-bug runs.

## Conventions

* A Rust `char` is an `N` (its code point), a `&str`/`String` is `list N`.
* `u32`, `usize`, `i64` … are `N`/`Z`; wherever the Rust code can overflow the
  check is written out. Overflow, `unwrap` on `None`, failing `assert!`, index
  out of bounds and slicing errors are the explicit outcome `Panic` (the debug
  build behaviour; a release build would wrap – either way the value is wrong,
  so a theorem that excludes `Panic` excludes both).
* `Result<T, OdsError>` is `Ok x | Err`; error payloads are dropped.
* `&mut self` methods return the new value.
* `BTreeMap` is an ordered association list with strictly increasing keys,
  `HashMap` an association list (iteration order is a parameter or irrelevant).
* Loops are structural recursion or fuel with an explicit `OutOfFuel` outcome;
  theorems either show the fuel suffices or show it never does.

## Trusted base

1. The Coq 8.16.1 kernel (and `vm_compute`, which is part of it).
2. What `Print Assumptions` lists under each theorem (the goal is: nothing).
3. The correspondence of the model to the Rust source, checked by reading only.
4. The parts below that are *modelled as specifications of third party code*:
   `quick-xml` tokenising (only the subset the writer can produce), `nom`
   combinators (modelled by their documented meaning), `std` integer parsing and
   printing, `BTreeMap`/`HashMap` as finite maps, `chrono` calendar arithmetic
   (proleptic Gregorian validity rules).

Also a specification of third party code: a zip archive is a list of named entries that refuses a
name it has already (`PkgModel.v`). An `icu_locale_core::Locale` is the texts of its language, script
and region and one text for the rest (`FmtModel.v`); which texts its subtags accept is in `GetModel.v`.
The tables in `AccModel.v` say for each one-line accessor which field it touches; they were taken from
the source by matching the bodies of the functions, and a body that did not match is not in them.
`btree_map::Range` of `std` has no size hint of its own, so it is (0, None), and the default
`ExactSizeIterator::len` asserts that both bounds are equal (`HintModel.v`).
The crate `base64` with its `NO_PAD` configuration is in `ImageModel.v` (no padding either way, no other
characters, no bits left over).

Not modelled: the bytes of the zip container and file I/O, memory/performance, `get_size`
accounting, floating point text conversion (floats are carried as their text),
`nom` error values.

## Properties: what is modelled, how it is proved

| id | modelled | proof |
|----|----------|-------|
| C01 | `fmt_col_name`, `try_u32_from_colname` with u32 overflow | well-founded induction on the digit loop; value function of bijective base 26; u32::MAX refuted |
| C02 | `fmt_row_name`, `try_u32_from_rowname` | induction on decimal digits; u32::MAX refuted |
| C03–C06 | formatter and the nom parser as a recursive-descent parser over `list N` | parser lemmas "parse (fmt x ++ rest) = (x, rest)", composed; table names that the formatter forgets to quote are refuted |
| C07 | same parser | case analysis: all outcomes; overflow refuted |
| C08 | `contains`, `origin_span`, `out_looped` | arithmetic (`lia`), counting by bijection |
| C09 | `escape` and the entity decoder | induction over the string |
| C10 | `XmlWriter` as a state machine producing characters; a tokenizer for the produced subset | simulation: tokens(write calls) = calls |
| C11 | `write_xmltag`, `read_xml` over events | induction on trees; nested same name refuted |
| C12 | `AttrMap2` as two parallel lists | invariant + refinement to a function |
| C13, C14, C15, C46 | `CellData`, `Sheet` cell operations over an ordered map | refinement to a total function cell -> aspects, induction over histories |
| C16, C17 | iterators as state machines over the ordered list | loop invariant; non-termination of `IterCols` refuted |
| C18, C19, C20 | header maps, split functions, `dedup_colheader`, `calc_col_headers`, `write_table_columns` | lookup function extensionality; refuted for rows and for gaps |
| C21 | group vectors | invariant over histories |
| C22 | `split_hidden`, `remove_outlived` | induction over the span list, pointwise coverage function |
| C23 | `write_sheet` (row/cell layout) to an element stream, `read_table` from the stream | invariant of the position counters; round trip over the ordered map |
| C20, C48, C49 | column and row elements, sheet attributes of the same stream | as C23 |
| C24, C25 | the same stream with group/header elements | stack discipline invariant: open groups of writer and reader per row and column, sorted by their ends; witnesses if unbalanced |
| C26 | `format_duration2`, `token_duration`, `token_nano` | exact characterisation of the durations that survive; refuted in general |
| C27 | `token_datetime`, `%Y-%m-%dT%H:%M:%S%.f` formatting | digit parsing lemmas, calendar validity |
| C28 | `parse_u32`, `parse_i16/i32/i64` | decimal numeral lemmas |
| C29 | all enum tables | finite case analysis + "reject" for all other strings |
| C30, C31 | `write_cell` value part, `append_text`, `set_value` | induction over lines; refuted for blank lines |
| C32 | `auto_style_name*`, add/remove | invariant over histories; numerals injective |
| C33 | sheet vector of `Detach` | refinement to list of options |
| C34, C35, C36 | `ConfigMap` with index, `ConfigItem` tree, writers/readers, `calc_config`/`calc_derived` | tree induction, path lemmas |
| C37 | `write_office_meta`, `read_office_meta` over events | per field; refuted for empty elements and entities |
| C38, C39 | script/listener/validation writers and readers over events | refuted with witnesses, positive part proved |
| C40 | `condition.rs` | quoting parser, injectivity |
| C41 | `calc_cloned_sheet`, `calc_repeat_sheet` | expansion function over the grid |
| C42, C43 | macro arms as data, helper functions | case analysis over all arms; refuted for table forms |
| C44 | manifest map, extras | finite map reasoning |
| C45, C50 | writers and readers of all styles, formats, page layouts and master pages, three documents | one step of a reader per element written, permutation of the entries |
| C51 | `write_ods`, `write_fods`, `read_ods`, `read_fods` and the content-only readers, root elements and namespaces | each part shown to be one block that the readers of the others pass over; theorems of the parts applied to the workbook read |
| C52 | the loops of the readers, turn by turn, with the end of the file | stack of open tags against the mode of the reader; every reader leaves an end of its events |
| C53 | all readers of whole files, with every operation that can panic | invariant of each loop: what the events still to come can add at most, what a group or header range needs before it ends |
| C54 | `Annotation`, `DrawFrame`, `DrawImage` and their writers and readers | the tree reader run event by event inside the loop of a cell; texts compared after joining pieces |
| C55 | `Value::TextXml`, `read_text_or_tag`, `append_text` | balance of start and end tags in a paragraph; paragraph by paragraph, then put together |
| C56 | every place that writes a tag or an attribute, the namespace maps | attributes of each tag are among a fixed list in its order; whole writers compose |
| C57 | the builders of format parts, method by method, on the attribute list | reverse induction over the calls; the list operations are those of the two vectors of `AttrMap2` |
| C58 | the create_* functions; an interpreter of format parts for the meaning | computation on symbolic values; attributes that do not matter are abstracted |
| C59 | the four locales, `locale_settings`, `create_default_styles`, `CellStyle::new` on the tables of styles | adding named styles one after the other is a lookup in the list of them |
| C60 | all attribute setters and which type uses them on which map (generated from the macros by a script, read over) | finite check of the attributes of each macro; frame lemma by cases |
| C61 | the same, with the enumerations of units.rs | text of each argument as a table (SetText.v), schema types as another; one tactic for all setters |
| C62 | the getters of formats, columns and rows | value of an attribute after putting and taking |
| C63 | sizes of columns and rows put into styles before writing and taken from them after reading | what a style says after all headers in closed form; exact result for each header |
| C64 | conversions between Rust types and values, with f64 as m * 2^e and casts as in the Rust reference | nearest float by distance to all finite floats; order and error from that |
| C65 | builders of rich text on attribute lists | fold over the chain of calls; attributes by finite cases; files by C55 |
| C66 | base64 as numbers to bases 64 and 256 | groups of three bytes; the alphabet by finite cases; files by C54 |
| C67 | what the name of a function says: verb and noun | a check of all pairs of a writer and a reader, sound for all values |
| C68 | two readings of one file; which cells are empty | simulation of the loops, an invariant for the row headers |
| C69 | `write_sheet` and `read_table` with other elements in the sheet; where they are in the workbook read | the loop commutes with adding elements; a tree passes through it as one block |
| C70 | the functions of C11, C23, C35, C37, C39, C51, one after the other several times | what the specification says of one time, composed with itself; five times for values by the kind of value after each |
| C71 | `write_sheet` and what it calls, `write_ods`, `write_fods` | within the grid and without overlaps all sums and differences of the writer are defined; the count of open groups is the number begun less the number ended; an overlap is the one error |
| C72 | `run_ops`, `write_sheet`, `read_table`, `calculations`, `write_ods`, `read_ods`, `write_fods`, `read_fods` | every call keeps what is reported for a position writable (C13), so the sheet is within the grid and without overlaps (C71); its pieces are whole, columns have no default style, and the calculations leave cells without repeats alone |
| C73 | `Range::next`, `next_back`, `len`, the size hints of `CellIter`, `IterRows`, `IterCols`, `cell_count`, `col_header_max` | induction on the calls; a list without repeats inside a rectangle is no longer than its area (pigeonhole); the items to come are those of C16 and C17 |
| C74 | `split_col_header` …, `clone_no_data`, `calc_config`, `calc_derived` | induction on the calls, aspect by aspect; the file by C36 |
| C75 | every reading loop | one lemma for the common loop: a step that ignores such an event and commutes with their removal; the number of turns is enough because no step makes the rest longer (C52) |
| C76 | every reading loop, the elements open at each event | relation between both event lists; as long as a loop reads text, the element it reads is open and no text is left out (lockstep), in all other states text changes nothing |
| C77 | every reading loop, the elements open at each event and the loops running inside each other | relation between both event lists; the end tags the running loops wait for are open in this order, so the end tag of a replaced element ends none of them; one step on `<n/>` is two steps on `<n></n>`; witnesses by computing both readings |
| C78 | every reading loop, with the names each of them compares with | relation between both event lists with the elements open at each event; a loop that is where only elements are expected does nothing with a tag whose name is not in the list, and does not end with it |
| C79 | every reading loop and every loop over attributes, with the keys each of them compares with | two attributes with different keys can be read in either order, for each of the 18 loops over attributes; relation between both event lists in lockstep |
| C80 | references, values and tags as quick-xml reads them, `entity`, and every loop that gathers text | grammar of references, values and tags written from XML 1.0; one spelling of each reference is put for all others and every reader gives the same on both event lists |
| C81 | all of the readers, and the writers of C51 | closure of the changes of C75 to C80; each reader of a file gives the same on both sides of each change, so on both ends of a chain |
| C82 | the hash maps of a workbook, and the writers and readers of C51 | permutations of each map; what C51 says of a reading determines it up to the order, but for the origin of fonts and the names of default styles |
| C83 | `calc_col_headers`, `calc_col_header_styles`, `calc_row_header_styles`, `calc_config` and `calc_metadata` of the writer | merging forgets all cuts; what a header does to an attribute of its style does not depend on what was there |
| C84 | `calc_col_headers` and `dedup_colheader` of the writer | headers without alike neighbours are determined by what each column has |
| C85 | `calc_col_header_styles` and `calc_col_headers` over all sheets | each column keeps its width through the styles |

## Findings

Behaviours of the code that contradict what a user would expect; each is a proved
`…_refuted` theorem with a concrete witness.

* `C01`/`C02`: column and row `u32::MAX` are formatted but not parsed back.
* `C03`/`C04`: table names with characters the formatter does not quote (or empty
  names) do not survive.
* `C06`: trailing garbage behind a list of ranges is ignored.
* `C07`: long column names overflow.
* `C10`: attribute values written with the unescaped calls can inject markup.
* `C11`: an element nested in one of the same name ends the tree early; line breaks
  of flat files become text.
* `C12`: adding a slice of attributes can duplicate names.
* `C14`: a cell content made from scratch has repeat 0.
* `C15`: the used grid of an empty sheet is (1,1), and row `u32::MAX` overflows.
* `C16`: `peek_cell` before the first `next`; `size_hint` is one too small after it.
* `C17`: excluded bounds, overflow, non-terminating and overrunning column iterators.
* `C18`: setting the last column of a repeated header also sets the columns behind it;
  a second setting for the same column overwrites the columns to the right.
* `C19`: setting a second attribute of row `r` erases the header of row `r + 1`;
  `C47`: collapsing a row group therefore loses row styles inside the group.
* `C22`: a cell with repeat 0 makes the writer panic.
* `C26`: milliseconds are written without leading zeros, so 1.05 s is read as 1.5 s;
  negative durations make the file unreadable; huge durations make the parser panic.
* `C27`: years after 9999 are written with a '+' that is not read; invalid dates such as
  2021-02-30 become 1970-01-01, and overlong numbers wrap.
* `C29`: a content validation without list display is written "no" but read as "none";
  `xlink:actuate` is written "OnLoad"/"OnRequest" but read as "onLoad"/"onRequest"; the
  default length is written as an empty text that is not read.
* `C30`: blank lines of a text cell are lost, an empty text cell is lost, text of more than
  one line comes back as rich text.
* `C31`: the name of a currency is read without unescaping ("A&B" becomes "A&amp;B"); a
  file with a negative duration or a date after the year 9999 cannot be read.
* `C20`: equal column headers with a gap between them are merged into one header in the wrong
  place; columns right of the last cell are not written.
* `C23`: cells with repeat 0 are lost; repeated cells partly covered by a span are split; a
  row repeat set before another attribute makes the next row count as repeated and shifts
  the rows below.
* `C24`: a column group over columns with equal headers is never closed; header rows
  without cells give unbalanced tags. In both cases the file cannot be read.
* `C25`: two groups that begin together swap their display flags if the inner one was added first; a
  row group that ends in a row without cells is read one row short; groups and header rows behind
  the last row with cells are cut or lost; a group of a single row without cells makes the writer
  panic; a group that ends and one that begins within the same repeated row become nested.
* `C48`: attributes of rows without cells are lost (except for the first row of a gap).
* `C49`: an empty list of print ranges is read as no list.
* `C32`: a style renamed in place can only be found under its old name.
* `C33`: inserting or removing a sheet while another is detached makes `attach_sheet` overwrite
  an unrelated sheet and leaves a hole that makes every walk over the sheets panic.
* `C35`: empty text settings are dropped (every new workbook has two, the printer name and
  setup); a value directly in a map is written and not read; an indexed map is written only
  up to its first gap; an entry outside a map, or a value at the top level, panics on writing.
* `C36`: the zoom of the page view is written and not read; two sheets of one name share
  their options; a file whose `Views` is a named map can be read but makes the writer panic.
* `C40`: in a choice list a number cannot be told from the same digits as text.
* `C42`: `cell!(table => …)` ignores relative markers.
* `C37`: template, auto-reload, hyperlink behaviour and statistics are written as elements
  without content, which the reader skips (two names differ as well); a user defined string
  is cut to its last piece between special characters; names of user defined values are not
  escaped, so that `R&D` makes the file unreadable; a duration too long to represent makes
  the reader panic.
* `C38`: the end tag of a script is written `<//office:script>`, so that a workbook with a
  script cannot be read again; the listeners of a workbook without scripts are written outside of
  the element they belong into and are lost; `xlink:actuate` is written in a spelling that is
  not read; a script element without content makes the reader panic.
* `C39`: reading a content validation adds two, one under the name but without its messages, and
  one with an automatic name that has nothing but the messages; a text of a message is wrapped
  into another element, so that the file cannot be read after it was written again; a validation
  without list display makes the file unreadable; an empty validation element is ignored; a
  condition of fewer than three bytes makes the reader panic.
* `C41`: the row behind a row with a style is read with the style and visibility of that row and a
  repeat count of 0; if a value is put into it, the rows below move down by one when the workbook
  is written again. One of the last five rows loses repeats above 1000. Repeated styled cells at
  the end of a row are dropped, a single one is not.
* `C44`: a package that lists the directory META-INF/ can be read, but the workbook cannot be
  written; the version of the root entry is not updated; data of a directory entry and data the
  user gives for one of the library's own parts is dropped.
* `C45`: a named or default style of the origin content is written into no part of a package; writing
  a flat file gives all styles that origin in the workbook of the caller, so that an `.ods` written
  afterwards has lost its named and default styles; all fonts of styles.xml but the first are read
  with the origin content, and a flat file has no fonts of the origin styles; a default style is
  written without its name and is lost if another style has the automatic name it gets; a default
  value format is read as a named one; page layouts are written into both files; tab stops are
  written together with other paragraph properties only.
* `C50`: of an embedded text in a number format only what follows the last special character is
  read (an apostrophe as thousands separator is lost), in flat files a line break is read in its
  place, and without a position it is not written; attributes of paragraphs in headers and footers
  are lost; text directly in a region makes the file unreadable; an empty header is read as hidden.
* `C51`: a workbook with a script is written but cannot be read; elements of the body that the
  writer does not know, such as `table:shapes`, are kept when read and lost when written; the
  namespaces of a flat file are read under the name `fods.xml` and written from `meta.xml`, so that
  they are lost when the workbook is written again; a workbook without sheets cannot be written.
* `C52`: a file that ends inside a table, such as a truncated flat file, makes the reader run
  forever: the loop of `read_table` is the only one that does not look for the end of the file.
* `C53`: a file makes the reader panic with a group of rows or columns or a header range that is
  empty, an empty `office:script`, a validation condition of less than three bytes or with a special
  character within the third, a column name of more than six letters in a base cell or a print
  range, a duration of too many days, and (with overflow checks) a row or column repeated zero times
  in a group or more often than there are rows or columns.
* `C54`: an annotation with a list inside a list loses the outer list; texts other than paragraphs
  and lists are written and not read; an attribute named `office:name` or `office:display` is written
  twice in one tag; image data is not escaped; in flat files each element inside a text gets a line
  break.
* `C55`: the style of a paragraph without elements inside is lost, also between paragraphs with
  elements; rich text of one such paragraph becomes plain text; headings in a cell are not read;
  lists become the paragraphs in them; a paragraph inside a paragraph makes the file unreadable.
* `C56`: meta.xml declares only the prefixes meta and office, so with a title, description, subject,
  creator, date, language or a link it uses `dc` or `xlink` undeclared; namespaces of a flat file are
  read under the name `fods.xml` and written from the name `meta.xml`, so prefixes of its own are
  used undeclared after a round trip; an annotation with an attribute `office:name` has it twice.
* `C57`: `PartFractionBuilder::min_integer_digits` sets number:min-numerator-digits, so the setting is
  lost and no integer portion is displayed; the deprecated `push_fraction` likewise.
* `C58`: `create_loc_currency_prefix` adds the number twice, so amounts show as "EUR 1.501.50";
  `create_loc_datetime_format` is documented as Y-M-D but shows D.M.Y.
* `C59`: in the locales en (which `WorkBook::default` uses), cs-CZ and de-AT the formats of the time
  of day and of intervals are named datetime1: they replace the date and time format, and the styles
  default-time and default-interval name formats that do not exist. en-US shows dates month first but
  dates with times day first.
* `C60`: `set_font_size_rel` sets fo:font-size-rel (documented: style:font-size-rel);
  `set_rotation_angle` of text properties sets style:rotation-angle, which is of cells;
  `set_xml_id` sets an attribute `xml_id`; style:text-scale has no setter.
* `C61`: `HyphenationLadderCount::NoLimit` is written "no_limit"; `set_draw_corner_radius` writes a
  number without unit; `XLinkActuate` is written with a capital letter; `TextAlign::Inside` and
  `Outside` can be set though the documentation of the setter rules them out.
* `C62`: `transliteration_locale` reads number:language and number:country; `row_height` fails after
  `set_row_height(Length::Default)`.
* `C63`: the width set for a column that was read with the optimal width is lost, as nothing takes
  style:use-optimal-column-width back; the width in a `ColStyle` is deleted on writing if the column
  has none; a column whose style is missing loses its width and can take that of another away.
* `C64`: `as_u8_or(d)` and the like do not return the default for a number out of range or NaN;
  `as_cow_str_or` loses line breaks inside a paragraph, though documented to keep them.
* `C65`: `condstyle_name` sets text:condstyle-name and `outline_level` text:outlinelevel, attributes
  ODF does not have.
* `C66`: `get_binary` fails for base64 with padding or line breaks, which is what other programs
  write; `set_binary` writes it without padding, which is no `xsd:base64Binary`.
* `C67`: the headers and footers of `MasterPage::new` are made by the derived default, which has
  `display` false, unlike `HeaderFooter::new`; filled as in the documentation they are written with
  `style:display="false"`.
* `C68`: with `ignore_empty_cells` the rows without values have no header; the rule that resets
  repeat counts above 1000 in the last five headers then hits rows with values: they are read once.
  A repeat count of 0 for a row of styled cells panics, unless the option is set. The content-only
  reader of flat files looks for `office:body` everywhere, inside scripts too.
* `C69`: the names and conditional formats of a sheet are written after `</table:table>`, so after
  reading they belong to the workbook: a name of one sheet becomes global, and two sheets with a name
  of their own give a workbook with the same name twice.
* `C70`: a column group whose last columns are one `<table:table-column>` with a style and
  `table:number-columns-repeated` (as other programs write them) is read; the file written from it has
  a `<table:table-column-group>` that is not closed (write.rs:2105-2109 compares the first column of
  the header with the end of the group) and cannot be read. Saved again and again, a flat file gets
  more line breaks in its kept trees and any file more validations. `"a\n\n"` in a cell is rich text
  after one reading and `"a"` after two.
- A row group of one row that has no cells, before a row that has (C71, `C71_single_row_refuted`):
  `write_empty_rows_before` ends groups of a row before it begins those of the row
  (write.rs:1974-1990), so `row_group_count` goes below zero: a panic with overflow checks, an end tag
  before its start tag without. `CellContent::new()` with a validation, added to a sheet, is a panic
  when writing: its repeat count is 0 (`C71_new_content_refuted`, write.rs:1724-1731).
- A cell whose style was cleared gets the style of the workbook for values of its type in the file
  (C72, `C72_style_refuted`, write.rs:2143-2148); a cell with an empty text is not in the file at all
  (`C72_empty_refuted`).
- `Sheet::range(..).len()` always panics: `Range` is declared an `ExactSizeIterator` but passes on the
  hint of the btree range, which has no upper bound (C73, `C73_len_refuted`, sheet_.rs:476-491).
- The size hint of `iter_rows` multiplies the two columns instead of subtracting them: the upper bound is
  0 for every range that starts in the first column (`C73_rows_refuted`, `C73_rows_all_refuted`,
  sheet_.rs:347). The hint of `iter_cols` underflows if the end is left of the start
  (`C73_cols_panic_refuted`, sheet_.rs:452), and a rectangle of no columns gives a cell and then panics
  (`C73_cols_refuted`).
- `col_header_max` and `row_header_max` give where the last header begins, not the last column or row it
  covers (`C73_header_max_refuted`, sheet_.rs:982-990).
- `clone_no_data` is documented to copy all attributes, but drops frozen headers, splits, zoom and cursor
  (C74, `C74_copy_refuted`, sheet_.rs:560-577).
- Text in a CDATA section is dropped without an error, in cells as everywhere else (C75,
  `C75_cdata_refuted`, read.rs:4945). A comment inside a user defined metadata value or inside
  number:embedded-text drops the text before it (`C75_user_refuted`, `C75_number_refuted`,
  read.rs:4161-4168, 2990-2992).
- Where the model of the parser meets a comment it looks for the next ">" outside quotes; quick-xml looks
  for "-->". The theorems of C75 about characters are for comments where both are the same; those about
  events are for all.
- The spelling of elements with nothing in them matters for 62 names (C77, `spelling_names`). Written
  `<n></n>`, table:table-column is not seen, and what applies to the columns moves to the left
  (read.rs:1012). Written `<n/>`, table:table-row is not seen, and all rows below move up (read.rs:1053);
  the same goes for table:table, validations, annotations, frames, settings, metadata such as
  meta:template, headers and footers. `<style:header-style/>` makes the properties of the footer
  those of the header too (read.rs:2008-2018). Groups and headers without columns or rows at the beginning
  of a sheet are a panic with overflow checks (`C77_panic_refuted`, read.rs:988-1005).
- Unknown elements are not skipped as a whole, their contents are read as if the tags were not there (C78). Shapes other than frames that
  are anchored to a cell (`draw:rect`, `draw:custom-shape`, `draw:g`, ...) are lost and their paragraphs become text of the cell: a cell with
  the text A and a rectangle labelled B is read as a cell with the paragraphs A and B (`C78_inside_refuted`, read.rs:1438-1472).
- The order of attributes matters in one case only (C79): if two values are wrong and one of them panics, the one that comes first decides
  whether opening the file fails with an error or panics (`C79_panic_refuted`, conditions of validations, read.rs:2215-2247).
- A reference the library does not know, as `&nbsp;`, stays in a text as it is written, so that it cannot be told from `&amp;nbsp;`; in the value of an
  attribute it is an error (C80_unknown, read.rs:5013-5027).
- `pc!` and `em!` (macro_units.rs:60-71) expand to `$l into()`, without the dot: a program that uses one of them does not compile. Macros are not
  part of the model but for `cell!` (C42).
- Files are not reproducible (C82): styles, fonts, validations and namespaces are written in the order of `std::collections::HashMap`, another one in
  each run (lib.rs:91-95). Of two fonts with the origin styles the one that comes first keeps it, so what is read is not the same in each run
  (`C82_fonts_refuted`, read.rs:1930-1950).
- A header that names a style that is not there (C83): the automatic name of a style made for another header can be that name, and then the next save
  sets the optimal width of that style (`C83_dangling_refuted`, write.rs:483-543).
