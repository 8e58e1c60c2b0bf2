# Design

Target: martianzhang/db-recovery (Go) at the pinned commit in /repo, a tool that reads MySQL/InnoDB files offline:
`recovery` prints REPLACE statements from a table's data file (live or free-list rows, columns taken from the data
dictionary in ibdata1), `redo` prints UPDATE statements from undo records found in the redo log.  Nothing is
executed here; the model is a reading of the source, and that reading is the only tie between theorems and code.

## Files

| file | content |
|------|---------|
| `GoBase.v` | Go run-time notions: bytes as `Z`, `uint64`/`int64` with explicit wrap, bounds-checked slices that panic, outcomes `Ok`, `Panic`, `NoFuel`, a stdout writer, decimal formatting, UTF-8 decoding, maps as association lists |
| `Utils.v` | recovery/utils/utils.go and const.go |
| `Ibdata.v` | recovery/ibdata/parse.go, format.go, structure.go, const.go |
| `Todo.v` | recovery/ibdata/todo.go and getTableFromDict (helpers kept in the repository, not called by the commands) |
| `Redo.v` | recovery/redo/parse.go, mlog.go, structure.go, const.go |
| `Cmd.v` | cmd/command.go's use of the options; recovery/logs/logs.go levels |
| `Main.v` | cmd/main.go and the command line of cmd/command.go: commands, options, exit status |
| `SpecInno.v` | how InnoDB writes integers and column values |
| `SpecText.v` | decimal and date texts |
| `SpecTypes.v` | DECIMAL, fractions of seconds, ENUM |
| `SpecSql.v` | how MySQL reads string literals, REPLACE and UPDATE statements |
| `SpecRecord.v`, `SpecRow.v` | how InnoDB lays out COMPACT and REDUNDANT records; which row a record stores |
| `SpecPage.v` | pages: headers, linked records, free list |
| `SpecDict.v` | dictionary tables |
| `SpecRedo.v`, `SpecUndo.v` | redo and undo records; what a log should print |
| `SpecCmd.v` | options |
| `SpecTool.v` | the whole task: a server's tables, the system file and the table file that store them |
| `SpecToolRedo.v` | the redo command: a server's tables, its log, the updates to restore |
| `SpecTodo.v` | undo pages |
| `SpecHistory.v`, `SpecLoad.v` | servers that run the recovered UPDATE and REPLACE statements |
| `SpecOwn.v` | whose rows the pages of a file hold |
| `SpecName.v` | how names are stored in the dictionary |
| `SpecSmall.v` | files with smaller pages |
| `SpecLarge.v` | files with larger pages and the blocks they are read in |
| `SpecChars.v` | the text of statements; character sets of columns and clients |
| `SpecOld.v` | SET values; DATETIME, TIME and TIMESTAMP before MySQL 5.6 |
| `SpecSeal.v` | encrypted and compressed pages |
| `SpecLine.v` | lines without line ends in them |
| `SpecJson.v` | JSON columns and the values MySQL takes for them |
| `SpecMain.v` | command lines and the options they give |
| `SpecAccept.v` | MySQL's own definition of a table, and the REPLACEs it takes |
| `SpecTrx.v` | rows with the transactions that wrote them |
| `SpecUnique.v` | tables clustered on a UNIQUE key that is not a PRIMARY KEY |
| `SpecKeys.v` | a server with any unique keys and collations running the statements |
| `SpecInject.v` | what a line holds outside quoted text; SQL mode NO_BACKSLASH_ESCAPES |
| `SpecInjectRedo.v` | what an UPDATE line holds outside quoted text; UPDATE statements without WHERE; tables whose values print as numbers, dates or hexadecimal digits |
| `SpecOutside.v` | REDUNDANT records with a column stored outside the record |
| `PBase.v` ... `PToolRedo.v` | lemmas and proofs |
| `PBuild.v` | writes whole pages, for the examples of PropTool.v |
| `Prop*.v` | property theorems only, each followed by `Print Assumptions` and an `Example` meeting its hypotheses |

The `Spec*` files use no function of the model other than its data types and, in SpecRow and SpecUndo only, the
column decoder `ParseData`, which is itself the subject of C09-C22 against SpecInno.v.

## How the model is built

* Definitions carry the file and line range they transcribe.  They are total, computable functions.
* Bytes are `list Z`.  Theorems that need it assume `all_bytes` (each in [0,256)), which every Go byte slice meets.
* `uint64` arithmetic is `Z` with `u64 x = x mod 2^64` at each place where the Go expression can wrap; conversions to
  `int` are `i64`.
* A Go panic is the outcome `Panic`.  Recovered panics (`defer recover` in the redo handlers) are modelled, including the
  cursor value that survives them.
* Loops whose bound is data dependent take fuel and return `NoFuel` when it runs out.  Theorems exclude it or prove it
  unreachable (C62), or speak about it (C42, C43: a cyclic page list really is an endless loop in Go).
* stdout is the list of printed lines.  Log output goes to stderr and is not modelled.
* Go errors are `option bytes` (the message).
* Go maps are association lists in insertion order; where the code ranges over a map the result is shown not to depend on
  the order (C58).
* A file is a list of read events (`IoBytes`, `IoErr`); `None` is a failing open.
* Floating-point values are bit patterns; `runtime` is a record of the functions that format them (`%v` of float32 and
  float64) and of the local time zone offset.  Theorems quantify over every `runtime`.
* Slice capacity: only two places in the code let a slice see bytes beyond its length, data[pos:pos+n] of the redo buffer
  (`slice_cap`) and the fixed-size reads of FLOAT/DOUBLE (`ParseDataCap`); the bytes there are those of the backing array
  followed by `spare` zero bytes, `spare` being arbitrary.

## What is modelled and what is not

Modelled: every function the two commands reach in utils.go, ibdata/parse.go, ibdata/format.go, redo/parse.go, redo/mlog.go,
main, the command line and option handling of cmd/command.go, and the level logic of logs.go; of
the functions the commands do not reach, those of ibdata/todo.go.

Not modelled:

* usage and help texts, `version`, logo;
* cobra, pflag, Go's flag and glog are not in /repo: Main.v writes out what their documented parsing does with the flags defined here
  (and assumes that the log directory can be written), so C125 and C126 trust that description;
* log lines (stderr) and their formatting;
* encoding/binary struct decoding as such (`ReadIntoStruct`): headers are modelled as reads at the field offsets its layout
  implies (C49 states them);
* `GetFilesFromOS`, `GetMaxLength`, `mlogRecMark`, `mlogZipWriteBlobPtr`: never called;
* `getTableBySpaceID` (only logs): never influences output;
* tests (`*_test.go`, cmd/test).

Simplifications, each noted where it is made:

* `strings.ToLower` is modelled for A-Z (Cmd.v says why other letters cannot matter to the comparisons made).
* `time.Unix(...).Format` is the civil calendar in closed form (`civil_of_days`, proved against a day-by-day calendar in
  PCal.v), with a constant zone offset per call.
* The `MySQLVersion` branch of the dictionary code is constant in the program (the field is never set); only the branch taken is
  modelled.
* Go shares one backing array between the dictionary's column list and the list rows are decoded into.  The model copies.
  Only `FieldValue` and `IsBinary` are written through that alias; no modelled function reads these from the dictionary's
  copy, except `IsBinary` of a later row, which is carried explicitly (C40's `as_decoded`).
* SpecTool.v's `clustered_slots` and `has_key` describe keys of whole columns; keys of parts of columns are the subject of C112.
* REDUNDANT records with NULL columns are covered by C37 only; REDUNDANT records with external columns are not specified.
* Redo data is assumed shorter than 2^62 bytes where the cursor could wrap (4 GiB for C68), pages are 16384 bytes.

## Trusted base

* Coq 8.16.1's kernel, and coqchk for the independent check.
* Axioms: none of our own.  Every property theorem prints `Closed under the global context` under `Print Assumptions`, with
  no exception.  `coqchk -o` lists seven constants of the standard library's `Coq.ssr.ssrunder.Under_rel` module type
  (Under_rel, Under_rel_from_rel, Under_relE, Over_rel, over_rel, over_rel_done, under_rel_done), loaded because
  `Coq.micromega.ZifyBool` depends on it; no theorem uses them.
* No plugin, functor, module type, `Admitted`, or disabled check.
* The reading of the Go source described above, and the reading of InnoDB's formats in the `Spec*` files.

## Status of each property

A property that is true of the code is `proved`.  One that is false of the code is `partial`: a `_refuted` theorem gives the
witness (or shows it fails for every input of a class), and a `_partial` theorem states the strongest version that holds.

| id | title | status | theorems | remarks |
|----|-------|--------|----------|---------|
| C01 | Compressed 32-bit integers decode to what InnoDB wrote | proved | `C01_compressed_roundtrip` | Value, consumed length and size function, for every n < 2^32 in any context (buffer length below 2^63). |
| C02 | Compressed-integer reader never reports more than the buffer holds | proved | `C02_compressed_reader_total` | Complete case analysis of value, error and panic. |
| C03 | 64-bit 'compressed' reader leaves the cursor just after the field | proved | `C03_ull_cursor`, `C03_ull_exact` | Cursor after the field, for all values. C03_ull_exact: the exact number of bytes that must follow the field; with fewer the reader crashes. |
| C04 | 64-bit 'compressed' reader returns the value written | partial | `C04_ull_value_refuted`, `C04_ull_value_partial`, `C04_ull_value_is_shifted_partial`, `C04_exact_refuted` | False of the code: the low word is read from the wrong place (utils.go:401-418). Witness in C04_ull_value_refuted; C04_exact_refuted says for exactly which values the result is right; proved: high word, and exactly which bytes are returned as low word. |
| C05 | Much-compressed identifiers below 2^32 are read exactly | proved | `C05_much_compressed_value` | Value and size for all identifiers below 2^32. |
| C06 | Much-compressed identifiers of 2^32 and above are read exactly | partial | `C06_much_compressed_large_refuted`, `C06_much_compressed_large_partial`, `C06_exact_refuted` | False of the code: the high part is lost and the size is one short (utils.go:420-471). Witness, C06_exact_refuted (when it is right), and exact characterisation of what is returned. |
| C07 | Big-endian field readers are exact | proved | `C07_big_endian_exact`, `C07_big_endian_short` | Widths 1,2,3,4,7,8; panic on short input. |
| C08 | Little-endian field readers are exact | proved | `C08_little_endian_unsigned`, `C08_little_endian_signed`, `C08_little_endian_float`, `C08_fixed_length_int` | All widths, signed and unsigned, and FixedLengthInt. |
| C09 | Signed integer columns are recovered exactly | proved | `C09_signed_int` | All five widths, all values, and the printed decimal text. |
| C10 | Unsigned TINYINT, SMALLINT, INT and BIGINT columns are recovered exactly | proved | `C10_unsigned_int` | Widths 1, 2, 4, 8; all values; printed decimal text. |
| C11 | MEDIUMINT UNSIGNED columns are recovered exactly | partial | `C11_unsigned_mediumint_refuted`, `C11_unsigned_mediumint_partial`, `C11_exact_refuted` | False of the code for values from 2^22 on: the 3-byte read is masked with 0x3FFFFF. Witness, and for every value the result is the value mod 2^22; C11_exact_refuted: right exactly for the values below 2^22. |
| C12 | BIT columns of every width are recovered | partial | `C12_bit_refuted`, `C12_bit_partial`, `C12_exact_refuted` | False of the code: 3-byte columns lose the top two bits and 5-, 6- and 7-byte columns panic. Witnesses, exactness for 1, 2, 4, 8 bytes (3 bytes below 2^22), and C12_exact_refuted (right exactly then). |
| C13 | DATE columns are recovered exactly | proved | `C13_date` | All years, months, days of the encoding. |
| C14 | TIME columns are recovered exactly, including negative times | proved | `C14_time` | All TIME(0) values of both signs. |
| C15 | DATETIME columns are recovered exactly | partial | `C15_datetime_refuted`, `C15_datetime_partial`, `C15_datetime_short_refuted`, `C15_years_refuted` | False of the code: years outside the window are misprinted (C15_years_refuted, for every year outside 1991-2099) and fewer than three following bytes panic. Exactness for years 1991-2099 with three following bytes. |
| C16 | Old-format (pre-5.6) DATETIME columns are recovered exactly | proved | `C16_old_datetime` | All pre-5.6 DATETIME values, sign bit set or clear. |
| C17 | TIMESTAMP columns are recovered exactly | partial | `C17_timestamp_refuted`, `C17_timestamp_partial`, `C17_exact_refuted` | False of the code: the hour is printed on a 12-hour clock. Witness; C17_exact_refuted: right exactly for the instants in the hours 1 to 12; exactness of date, minutes, seconds and hour modulo 12 for all instants and offsets. |
| C18 | YEAR columns are recovered exactly | partial | `C18_year_refuted`, `C18_year_partial`, `C18_exact_refuted` | False of the code for byte 0 (printed as 1900). Witness, exactness for 1..255, and both in one (C18_exact_refuted). |
| C19 | Variable-length text and undecoded fixed-binary columns are recovered byte for byte | proved | `C19_text_exact`, `C19_text_never_past_end` | Exact bytes, and independence of what follows the field. |
| C20 | CHAR columns lose only their trailing pad spaces | partial | `C20_char_refuted`, `C20_char_only_white_space_partial`, `C20_char_exact_partial`, `C20_exact_refuted` | False of the code: TrimSpace also removes leading white space and other trailing white space. Witness; C20_exact_refuted: the text is right exactly when it neither begins nor ends with white space; proved: only white space is removed. |
| C21 | Binary columns survive the hex round trip | proved | `C21_binary_hex` | All byte strings. |
| C22 | FLOAT and DOUBLE columns carry the stored bit pattern | proved | `C22_float_bits` | All bit patterns; the decimal formatting itself is a parameter of the model (see DESIGN.md). |
| C23 | Escaped values read back as the original under MySQL string lexing | partial | `C23_escape_refuted`, `C23_escape_partial`, `C23_exact_refuted` | False for exactly one string, 0001-01-01T00:00:00Z, which prints as empty (C23_escape_refuted, C23_exact_refuted); proved for every other byte string. |
| C24 | No value can break out of its quotes in a recovered REPLACE statement | proved | `C24_no_breakout` | Proved for every byte string and every following text. |
| C25 | One REPLACE statement per recovered row, in order | proved | `C25_one_line_per_row` | Proved: one line per row, in order, and no line feed inside a line unless a name contains one. |
| C26 | A REPLACE statement parses back to the table and the row's values | partial | `C26_replace_refuted`, `C26_replace_partial`, `C26_exact_refuted` | C26_exact_refuted: a REPLACE reads back as its row exactly if the names have no backquote, no text is NULL or 0001-01-01T00:00:00Z, and no BIT value is above 1. C26_replace_refuted is a witness, C26_replace_partial the positive half. |
| C27 | InnoDB's internal columns never reach the REPLACE statement | proved | `C27_internal_columns` | Proved: the statement is a function of the non-internal columns, one text each. |
| C28 | The text 'NULL' is not turned into SQL NULL | partial | `C28_null_text_refuted`, `C28_null_text_partial` | False for the text NULL in any column of any row (C28_null_text_refuted); every other string prints as a quoted string. |
| C29 | BIT values are printed as a literal denoting the same bits | partial | `C29_bit_literal_refuted`, `C29_exact_refuted`, `C29_bit_literal_partial` | C29_exact_refuted: the literal reads back as the BIT value exactly if the value is 0 or 1 (10 prints as b'10', which is 2). |
| C30 | A one-column recovered UPDATE sets the column to its old value where the key matches | proved | `C30_update_one_column` | Proved. |
| C31 | A recovered UPDATE assigns every changed column | partial | `C31_update_set_refuted`, `C31_update_set_partial` | False for every UPDATE with two or more columns: they are joined with 'and', so MySQL sees one assignment (C31_update_set_refuted is general); proved for one column. |
| C32 | A recovered UPDATE is safe for every value | partial | `C32_update_value_refuted`, `C32_exact_refuted`, `C32_update_value_partial` | C32_exact_refuted: an UPDATE of text or NULL values reads back as meant exactly if it sets one column, has a key, names have no backquote, and every value has no quote and has backslashes only before % or _. A value can add an assignment (C32_update_value_refuted). |
| C33 | The redo filter prints exactly the requested tables | partial | `C33_filter_refuted`, `C33_filter_partial`, `C33_ignored_refuted`, `C33_any_file_partial`, `C33_any_file_refuted` | False when both names are given: the database is not compared once the table name matches (refuted by a.t versus b.t; C33_ignored_refuted: with a table name given the database name never makes any difference). Proved for all other combinations, as printed or skipped exactly when requested (C33_filter_partial). For arbitrary files, damaged ones included: there is one content of the log, made of messages and UPDATE statements of tables of the dictionary, from which the names requested only select (C33_any_file_partial), and the selection is right if and only if no statement is about a table of the requested name in another database (C33_any_file_refuted). |
| C34 | COMPACT records decode to the row that was stored | proved | `C34_fields`, `C34_row` | Field boundaries and whole rows, for every column list the descriptors describe (the mismatches are C35 and C36), any position in the page; tables of at least three columns, which every clustered index has. |
| C35 | Which columns are treated as variable length | partial | `C35_fixed_length_refuted`, `C35_fixed_length_partial`, `C35_described_partial`, `C35_place_partial`, `C35_varchar_refuted`, `C35_several_refuted`, `C35_file_refuted`, `C35_redundant_refuted` | False: latin1 VARCHAR (main type 1) is treated as fixed length; fixed-size character sets of type 13 are treated as variable. C35_varchar_refuted: in every COMPACT record that ends with such a VARCHAR(n), the column is printed as the text followed by the bytes behind the record, n in all, so it is right exactly if the text has n bytes. C35_several_refuted: with any number of such columns anywhere among columns of fixed length, the bytes from the record's origin on are cut up by the lengths of the dictionary, so a record is right exactly if every text in it has its full length; C35_file_refuted: the lines printed for whole files of such records, in which each text comes out with its full length (with bytes of the next columns or records). C35_place_partial: the same for one such column, any columns before it. C35_redundant_refuted: a REDUNDANT record with a shorter text is not read at all, nor are the records behind it in its page. C35_fixed_length_refuted has a witness page. C35_fixed_length_partial, C35_described_partial: exactly for which types, lengths and character sets the decision is InnoDB's, and that C34 then applies. |
| C36 | Long VARBINARY columns are decoded | partial | `C36_varbinary_refuted`, `C36_last_refuted`, `C36_varbinary_partial` | False: the dictionary reader sets the length of VARBINARY to 0, so the second length byte is not read (witness page with a 200-byte value). C36_last_refuted: in every table, row and page, a value of 128 bytes or more in the last column is cut to 128 + length/256 bytes. Proved for all rows whose VARBINARY values have fewer than 128 bytes. |
| C37 | NULLs in REDUNDANT records come back as NULL | partial | `C37_redundant_null_refuted`, `C37_redundant_null_partial`, `C37_exact_refuted` | False: the NULL flag of REDUNDANT offsets is masked away; a NULL is read as the bytes filling its place (witness; C37_exact_refuted: every NULL text column is read as the empty string, every NULL integer column as the least number of its type). Proved: the row is decoded as if NULL columns held their filler, all other columns exactly. |
| C38 | REDUNDANT records without NULLs decode to the stored row | proved | `C38_fields`, `C38_row` | Field by field and as rows, one- and two-byte offsets, any position. |
| C39 | Every value in a printed row comes from that row's own record | partial | `C39_own_record_refuted`, `C39_own_record_partial`, `C39_redundant_own_record_partial`, `C39_cut_refuted`, `C39_cut_page_refuted` | C39_cut_refuted and C39_cut_page_refuted: when the page end cuts the last column of a record, the column keeps the value it had in the record before. |
| C40 | A live page yields exactly its linked records, in order | proved | `C40_live` | Both record formats, any order of the records in the page; for REDUNDANT pages records without NULL columns (see C37). A NULL column may additionally be marked binary by an earlier row (shown as unhex(NULL)), which as_decoded states. |
| C41 | Recovery reads exactly the page's free list | proved | `C41_free` | As C40, along the free list from PAGE_FREE to the zero link. |
| C42 | Reading a page always finishes | partial | `C42_ends_refuted`, `C42_exact_refuted`, `C42_ends_partial` | False: C42_ends_refuted gives a page whose two records link to each other, read for ever. Proved for all pages whose links form no cycle; C42_exact_refuted: where every place met is a record of the table the reading ends if and only if the links lead to a place that ends the list. |
| C43 | Page reading either ends within 16384 records or never | proved | `C43_bounded`, `C43_fuel` | All page images; C43_fuel adds that fuel plays no role once the reading has ended. |
| C44 | A damaged page does not crash the tool | partial | `C44_crash_refuted`, `C44_crash_partial`, `C44_cut_refuted`, `C44_cut_page_refuted` | C44_cut_refuted and C44_cut_page_refuted: a column that would start beyond the page end crashes the tool, at record and at page level. |
| C45 | Only clustered-index leaf pages are printed | proved | `C45_eligible` | Stated as an equation between outputs: file of all pages = file of the eligible ones (type INDEX, level 0, max trx id 0; recovery: free list inside the page and non-zero garbage). That eligible pages do contribute is C75. |
| C46 | Data file is read as the sequence of its distinct pages | proved | `C46_pages`, `C46_firsts` | For files of whole 16384-byte pages; what 'firsts' means is itself proved (C46_firsts). |
| C47 | A trailing partial page is not treated as a page | partial | `C47_tail_refuted`, `C47_exact_refuted`, `C47_tail_partial` | False: a short last chunk is zero-padded and taken for a page (witness: 70 bytes after a page; C47_exact_refuted: for every file and every tail). Proved: tails of at most 25 bytes, which cannot hold the page type, change nothing of the output. |
| C48 | I/O errors while reading a file are reported | partial | `C48_read_error_refuted`, `C48_exact_refuted`, `C48_open_error_partial`, `C48_read_error_partial`, `C48_redo_refuted`, `C48_redo_partial` | False for read errors (witness: an error after the first page, no error returned; C48_exact_refuted: no read error of any data file is ever reported; C48_redo_refuted: in a log file a failing read after the first four blocks counts as the end of the file). Proved: a failing open is reported without output, for data and log files; for log files also a header or checkpoint that cannot be read; with a read error the output is that of the pages before it. |
| C49 | Page headers are decoded field by field | proved | `C49_headers` | All fields of the three headers, for every 16 KiB image. |
| C50 | Asking for an unknown table is reported | partial | `C50_unknown_refuted`, `C50_unknown_partial` | False: no error is returned (witness: a one-page file, empty dictionary). Proved: nothing is printed, for every file and dictionary. |
| C51 | Externally stored columns are recovered | partial | `C51_external_partial`, `C51_external_refuted` | False: of an externally stored column the prefix and the 20-byte reference are printed; refutation holds for every record with such a text column. Proved: what is printed is exactly the part held in the record. |
| C52 | Dictionary names split into database and table | proved | `C52_slash`, `C52_plain` | One SYS_TABLES row; other ids keep their entry. |
| C53 | Column attributes follow the dictionary's type word | proved | `C53_attributes`, `C53_length` | All rows of a table map at once; C53_length adds the length, which is 0 for VARBINARY (main type 4) whatever the dictionary says. |
| C54 | The null-bitmap width always matches the columns | partial | `C54_rows`, `C54_tables`, `C54_internal`, `C54_key_refuted`, `C54_key_partial`, `C54_single_refuted` | C54_single_refuted: with a one-column primary key that is not the first column, the count of NULL-able columns is right exactly when the first column and the key are alike in that. |
| C55 | Moving the primary key first keeps every column | partial | `C55_single_refuted`, `C55_order_refuted`, `C55_first_partial`, `C55_leading_partial`, `C55_exact_refuted`, `C55_others_partial` | False. C55_exact_refuted says exactly for which keys it holds: for distinct column names and a key among them moveColumns2First never panics, and its result is the key first and the rest after it if and only if the key is empty or is the first column alone. C55_single_refuted: a one-column key elsewhere replaces the first column by a second copy of the key column; C55_order_refuted, C55_leading_partial: a leading key of several columns is reversed. Proved besides: the one-column leading key, and tables without a PRIMARY key. |
| C56 | Internal columns are placed right after the key | proved | `C56_placed` | The whole map: position, type and length of the inserted columns, order of the others, and tables without clustered index unchanged. Hypothesis: at most one clustered index and key length within the table. |
| C57 | Columns end up sorted by position | partial | `C57_order_refuted`, `C57_exact_refuted`, `C57_order_partial` | False: sortColumns sorts a copy (C57_order_refuted). C57_exact_refuted: the columns of a table are in position order if and only if its SYS_COLUMNS rows came in position order. |
| C58 | Result does not depend on Go's map iteration order | proved | `C58_finish`, `C58_by_name`, `C58_by_id` | finishDict (sort, key reordering, internal columns) on maps equal up to the order of tables and of indexes; lookups by name and by id. |
| C59 | Missing dictionary pages are reported as errors | proved | `C59_absent`, `C59_tables`, `C59_messages` | Per tree; when SYS_TABLES is the missing one the exact error is given, and C59_messages says what any reported error means. Presence means: a page whose number the header page names and whose index id is the tree's. |
| C60 | Redo blocks are reassembled in order | proved | `C60_blocks` | All files of well-formed 512-byte blocks; payload bytes up to the first block of length zero, per file, in order. |
| C61 | A bad block length does not crash the tool | partial | `C61_block_length_refuted`, `C61_block_length_partial` | Refuted for every length field outside the well-formed ones described by bad_length; partial theorem: every sequence of blocks with the remaining fields is read without a crash. |
| C62 | The redo scan always terminates | proved | `C62_terminates` | The fuel given to the scan (one step per byte plus one) always suffices; the model's NoFuel outcome is unreachable. |
| C63 | The redo cursor never moves backwards | proved | `C63_forward` | For every byte string, position and dictionary; also covers the steps that end with an error message. |
| C64 | Every supported redo record is stepped over exactly | partial | `C64_exact_step_refuted`, `C64_exact_step_partial`, `C64_room_refuted` | False for the records of C65-C67 and C77 and close to the log's end (C64_room_refuted: exactly when fewer than room bytes follow; two types crash, an in-place update is resumed in its middle). Proved for every other record type, all contents and contexts that leave room bytes (depending on type and transaction id). |
| C65 | File rename records are stepped over exactly | partial | `C65_rename_refuted`, `C65_file_name_partial` | Refuted for every rename record: the second name is left in the stream. The single-name file records are proved exact. |
| C66 | COMP_REC_SEC_DELETE_MARK records are stepped over exactly | partial | `C66_sec_delete_refuted`, `C66_sec_delete_partial` | Refuted for every record: the last three bytes are left. The REDUNDANT record is proved exact. |
| C67 | An update of a column to NULL does not stop the scan | partial | `C67_null_update_refuted`, `C67_update_partial` | Refuted for every update with a NULL in every log: everything after it is lost silently. Proved exact when no new value is NULL. |
| C68 | Every update undo record in the log yields its UPDATE statement | partial | `C68_log_partial`, `C68_log_refuted`, `C68_null_refuted` | Composed from log files to printed lines (statements, and the messages DECIMAL columns cause), for logs of ordinary records with enough following bytes, below 4 GiB, with the filter combinations of C33; false otherwise (C68_null_refuted: in every log with an update to NULL nothing behind it is printed). |
| C69 | A malformed or foreign undo record is skipped as a whole | partial | `C69_skip_refuted`, `C69_skip_partial`, `C69_exact_refuted` | False when a column position is not in the dictionary (C69_exact_refuted: for every such record the exact position inside it where the scan goes on). Proved for every body: resumes at the recorded end, or is within five bytes of the log's end, or reports 'field not found'. |
| C70 | Insert and delete undo records print nothing | partial | `C70_silent_refuted`, `C70_silent_partial`, `C70_exact_refuted` | False for a DECIMAL key, which prints a diagnostic (C70_exact_refuted: one message for each such column, nothing else, for every record). Proved for all bodies: only the two diagnostics can be printed. |
| C71 | Unknown record types resynchronise byte by byte | partial | `C71_resync_refuted`, `C71_resync_partial`, `C71_exact_refuted`, `C71_log_refuted` | False within the last bytes of the log (C71_exact_refuted: exactly when the bytes that follow do not read as two compressed integers; C71_log_refuted: the whole log then ends with an error or a crash). Proved with at least ten bytes following, for every byte that is the type of no entry of the specification. |
| C72 | Recovered statements are the only thing printed | partial | `C72_only_replace_refuted`, `C72_exact_refuted`, `C72_only_replace_partial` | False for DECIMAL columns: C72_exact_refuted gives, for every file whose eligible pages hold rows, exactly one message per DECIMAL value that is not NULL, before the statements of its page. Proved for arbitrary file contents: every line is a REPLACE statement for the requested table, or that message and then the dictionary has a DECIMAL column for it; dictionary reading prints nothing. |
| C73 | Operation and file-list options mean what the help says | proved | `C73_mode`, `C73_files`, `C73_redo` | Both commands are characterised by their options; the redo list is the unique decomposition of the option at commas. |
| C74 | Log levels are nested and case-insensitive | proved | `C74_levels`, `C74_emitted`, `C74_nested`, `C74_case_insensitive` | Case folding is modelled for A-Z; see Cmd.v for why other letters cannot matter. |
| C75 | A data file is printed as one faithful statement per row | proved | `C75_lines`, `C75_statements` | For files of whole pages; rows as in C34-C37 and lists as in C40/C41; values printable as in C26-C29. C75_lines includes DECIMAL columns, whose messages (C72) precede the page's statements; C75_statements is the case without. |
| C76 | A log that ends right after a record does not crash the tool | partial | `C76_log_end_refuted`, `C76_log_end_partial`, `C76_exact_refuted`, `C76_undo_room` | Refuted by a log that ends with MLOG_UNDO_HDR_REUSE (C76_exact_refuted: every log where such a record or a delete mark has fewer than room bytes after it); proved for logs whose records have room bytes after them, and for logs that end with an undo record (C76_undo_room: an update's always has room). |
| C77 | A dummy record is one byte | partial | `C77_dummy_refuted`, `C77_dummy_partial` | Refuted for every dummy record followed by two compressed integers: both are swallowed. Proved: nothing is printed and at most ten bytes are lost. |
| C78 | No log file header crashes the tool | partial | `C78_header_refuted`, `C78_header_partial` | Exact: crashes if and only if no byte from offset 16 on is zero. |
| C79 | Statements before damage are still printed | proved | `C79_prefix` | All prefixes covered by log_lines, arbitrary tails. |
| C80 | The redo command prints only UPDATE statements of requested tables | partial | `C80_only_update_refuted`, `C80_only_update_partial`, `C80_exact_refuted` | False because of the two messages (C80_exact_refuted: every log with an undo record whose key has a DECIMAL column) and of C33. Proved for arbitrary logs and dictionaries: nothing else is printed. |
| C81 | The data dictionary is read as it is stored | partial | `C81_dictionary`, `C81_columns_refuted`, `C81_exact_refuted`, `C81_columns_partial` | C81_dictionary gives everything but column order for every dictionary stored in trees of any number of pages (root first in the file). The order is false for keys: C81_exact_refuted says that the columns of a table with a key are in clustered index order if and only if the key is its first column (or empty); C81_columns_refuted singles out leading composite keys. C81_columns_partial: tables without a key and with a one-column leading key. Leaves out of key order in the file: C89. |
| C82 | Data file recovery as a whole is faithful | partial | `C82_statements_partial`, `C82_moved_refuted`, `C82_statements_refuted`, `C82_one_type_refuted`, `C82_nothing_refuted` | From the bytes of both files to the printed lines. Proved for tables without a primary key, or with a key in front of the table whose columns read the same backwards in type (front_key: one column, or several of one type, where turning the key round changes no byte), and for the column types and values of SpecTool.encodes (the others are covered by their own properties). False otherwise: C82_statements_refuted (a composite key of different types: the row (1, 258) is printed as (385, -126)); C82_moved_refuted (in general: with a one-column key that is not the table's first column, of the first column's type, every row is printed with the value of the key first); C82_one_type_refuted (exactly, for every key of any number of columns in any place, when all columns have one type: the printed values are in the order the record stores them, key first, and a line is right if and only if that order gives the same list). Of a file of REDUNDANT pages nothing at all is printed if the table begins with its key and the key begins and ends with integers of different length (C82_nothing_refuted). REDUNDANT records without NULLs only (C37). |
| C83 | The listing of an undo page shows what the page holds | partial | `C83_undo_listing_refuted`, `C83_undo_listing_partial`, `C83_exact_refuted` | Partial: holds for undo numbers and table ids below 2^32 (C83_undo_listing_partial); refuted by a page whose first record has undo number 2^32, for which no line shows the record's table (C83_undo_listing_refuted), and in general (C83_exact_refuted): for every larger table id the listing shows its low word, and for every larger undo number whose low word is below 128 it shows the undo number's high word as the table id; the line is right if and only if the two happen to be equal. |
| C84 | No undo page crashes the listing | partial | `C84_undo_no_log_refuted`, `C84_undo_no_log_partial` | Refuted for every page whose log start is below 38 (C84_undo_no_log_refuted); proved for every page whose log start leaves 24 bytes of the page (C84_undo_no_log_partial). |
| C85 | Table structure recovery yields a statement | partial | `C85_table_structure_refuted`, `C85_table_structure_partial` | Refuted for every input: whenever the function succeeds its text is empty (C85_table_structure_refuted). What remains true is the error for an unopenable file (C85_table_structure_partial). |
| C86 | Dictionary look-ups by name return the named entry | proved | `C86_column_type`, `C86_table_found`, `C86_table_unknown` | All three look-ups, for every list and dictionary: the type of the first column of the name or 0; the one table of the names; the empty table when there is none. |
| C87 | The redo command as a whole is faithful | partial | `C87_lines_partial`, `C87_redo_partial`, `C87_exact_refuted`, `C87_redo_refuted` | From the bytes of the system tablespace and of all log files to the printed lines. C87_lines_partial: exact lines, in order, for text, number and date values, keys in front of the table (any number of columns), any number of changed columns. C87_exact_refuted: such a line restores the old values exactly if one column was changed (C31), the names have no backquote, and the values have no quote and backslashes only before % or _ (C32). C87_redo_partial is the positive half, C87_redo_refuted a witness (an old value it's). Dictionary trees of any number of pages, rows as they lie in the file (C89); ordinary records with room after them (C64, C76). |
| C88 | An UPDATE for a table without a primary key identifies its row | partial | `C88_keyless_refuted` | False for every table without a primary key (C88_keyless_refuted, quantified over all dictionaries, tables, row ids and surroundings): the condition is always `DB_ROW_ID`='<nil>', because the row id is never decoded. The old values in the same statement are right. Tables with a primary key: C87. |
| C89 | Dictionary tables of several pages are read completely and in key order | partial | `C89_order_partial`, `C89_exact_refuted`, `C89_order_refuted` | C89_order_partial: for every dictionary whose four trees have any number of leaf and node-pointer pages after their roots, the rows read are exactly the stored ones, and the columns are in order when the leaves lie in the file in key order. The order is false when they do not (C89_order_refuted, for whole files; C89_exact_refuted for every order of the pages: all rows are read, in the order of the file, and the columns of a table are right if and only if that order is theirs): leaves are read in file order and sortColumns sorts a copy. |
| C90 | An index of an unknown table is reported | partial | `C90_stray_partial`, `C90_stray_refuted` | C90_stray_partial: the data file command prints exactly one line, naming the last such table id, whatever else the dictionary and the table file hold. False for the redo log command (C90_stray_refuted: prints nothing at all, for every such dictionary; the error goes to the log file only). |
| C91 | Running the recovered UPDATEs gives the rows their former values | partial | `C91_order_partial`, `C91_backwards_partial`, `C91_order_refuted` | False in the printed order: general theorem that a row whose column was logged twice with different values is left with the later of them (C91_order_refuted), with an example. Proved for the updates of C87 when no column of a row was changed twice, and without that condition if the statements are run from last to first. Histories may hold inserts, deletes and rollbacks. The server (SpecHistory.v) reads the statements with the SQL reader of SpecSql.v. |
| C92 | Running the recovered REPLACEs in an empty table gives its rows | partial | `C92_load_partial`, `C92_load_refuted`, `C92_one_type_refuted` | Proved for the tables of C82 (front_key). False for other keys: the values of a composite key of different types come out wrong, so the loaded table differs (C92_load_refuted, for all run-time conversions and options but RecoveryData); when all columns have one type the loaded rows are the stored ones in record order, key first (C92_one_type_refuted). |
| C93 | Running the statements for the deleted rows adds them and keeps the others | partial | `C93_recover_partial`, `C93_live_refuted`, `C93_version_refuted` | Proved when no two of the live and deleted rows have the same key, for the tables of C82. False otherwise, by two general theorems: a live row with the key of a deleted one is lost, and of two deleted versions of a row the one deleted earlier is left. Free list order (last deleted first) is InnoDB's. |
| C94 | Rows marked as deleted count as deleted | partial | `C94_marks_partial`, `C94_marks_refuted`, `C94_unpurged_refuted` | Proved for PrintData and files without delete marks. False with them, by two general theorems: PrintData prints every marked record as well, and RecoveryData prints nothing of a file whose pages have no free list. |
| C95 | Only rows of the requested table are printed | partial | `C95_own_partial`, `C95_own_refuted` | False: the reader never compares a page's index id with the table's. C95_own_refuted: the rows of every other page that can be read as this table's are printed as its rows, so there are more lines than own rows. C95_own_partial: exactly the own rows if no other index's page could be read (secondary indexes never can). |
| C96 | NULL in a REPLACE statement is NULL | partial | `C96_null_bit_refuted`, `C96_null_partial` | False: C96_null_bit_refuted shows that a NULL in a BIT column is written bNULL, so the statement of every row with one cannot be read as a statement, whatever the other columns hold (rows whose earlier columns stand for values, names without backquotes). Partial: in every other column, binary ones included, NULL is read back as NULL. |
| C97 | A recovered UPDATE gives the old value back | partial | `C97_binary_refuted`, `C97_bit_refuted`, `C97_value_partial` | False: for every log with an update of one binary column (C97_binary_refuted) the printed statement sets it to the hexadecimal digits of the old bytes, which are different bytes unless there are none; for every update of a BIT column of 1, 2, 4 or 8 bytes (C97_bit_refuted) it sets it to the decimal digits of the old number, whose bytes are always another number. Partial: text columns whose value can be written as it is and integers, anywhere in any log of supported entries. Several changed columns are C31. |
| C98 | Record status and low bits | proved | `C98_status`, `C98_low_bits` | These two functions are not called by the tool. |
| C99 | Fixed lengths by MySQL type | partial | `C99_exact_refuted`, `C99_fixed_length_partial` | Not called by the tool. False exactly for INT, DATETIME and VAR_STRING (C99_exact_refuted); true of the other types (partial). |
| C100 | DECIMAL values | partial | `C100_decimal_refuted` | False of every value: the stored bytes are passed on as text and a stray line is printed; C100_decimal_refuted shows that no DECIMAL value has its text for its stored bytes. |
| C101 | Fractions of seconds | partial | `C101_time_refuted`, `C101_datetime_refuted`, `C101_timestamp_refuted`, `C101_zero_partial` | False unless the fraction is zero: it is dropped, and negative times are then one second off (C101_time_refuted, with the exact condition). DATETIME and TIMESTAMP give one text for all fractions. |
| C102 | ENUM values put back | partial | `C102_enum_refuted`, `C102_names_partial` | Exact: right if and only if no other member of the ENUM is named like the number. Names are compared byte by byte in the specification, as with a binary collation. |
| C103 | No value becomes NULL | partial | `C103_exact_refuted`, `C103_null_refuted`, `C103_types_partial` | Exact: the types 1-6, 9, 10, 12 and 13 always give a value, all others never do. |
| C104 | Dictionary rows that make no sense | partial | `C104_tables_refuted`, `C104_columns_refuted`, `C104_indexes_refuted`, `C104_fields_refuted`, `C104_null_refuted`, `C104_name_refuted`, `C104_unknown_partial` | False: one such row makes loading the dictionary crash. Exact for each of the four tables; a NULL name is even taken for a table called NULL. |
| C105 | The log is read in the order it was written | partial | `C105_order_partial`, `C105_order_refuted`, `C105_statements_refuted` | False in general: blocks are taken in the order they lie in the files and their numbers are only printed to the debug log. For logs that have not come round (numbers in order in the files) the bytes scanned are those written (C105_order_partial). Once the log has come round the newer part is scanned first (C105_order_refuted) and, where both parts are whole records, the newer statements are printed before the older ones (C105_statements_refuted), so running them in order leaves an older value. Logs whose blocks are all in use; records cut by the seam are left to C68/C86. |
| C106 | A damaged log block is not taken for the log | partial | `C106_ignored_refuted`, `C106_checksum_refuted`, `C106_checksum_partial` | False: the output depends on nothing in the file header, the checkpoints, the block numbers and flags other than the length, or the checksums (C106_ignored_refuted); for every checksum function, the log with every stored checksum off by one is reported exactly as before (C106_checksum_refuted). What holds: where every block is sound, exactly the sound blocks are scanned (C106_checksum_partial). |
| C107 | A page with a wrong checksum is not used | partial | `C107_checksum_refuted`, `C107_checksum_partial` | False: for every checksum function, the file with a wrong checksum stored in each page yields all the statements of the original (C107_checksum_refuted; tables of 3 to 50 columns). What holds: where every page is sound, exactly the rows of sound pages are printed (C107_checksum_partial). The checksum is a parameter: InnoDB's own functions are not modelled. |
| C108 | The size of a record | partial | `C108_redundant_partial`, `C108_compact_refuted` | True of REDUNDANT records, with offsets of one or two bytes (C108_redundant_partial). False of every COMPACT record: the bytes below the origin are never counted, and the NULL or external flag of the last column is added to the size (C108_compact_refuted gives the value). The code only adds the sizes up and uses the sum for nothing. |
| C109 | Dropped tables are not tables | partial | `C109_dropped_refuted`, `C109_dropped_partial`, `C109_again_refuted` | False: delete marks of SYS_TABLES rows are ignored. The tables read are those not dropped if and only if no dropped table is left in the leaves (C109_dropped_refuted, C109_dropped_partial); for a table dropped and created again, some orders in which Go may visit the map give the columns of the dropped one, others those of the new one (C109_again_refuted). |
| C110 | Recovered updates find their row by the whole key | partial | `C110_columns_refuted`, `C110_lost_refuted`, `C110_where_refuted`, `C110_leading_partial`, `C110_kept_partial` | False. For every key of two columns: exactly what the columns become and which key column is lost (the first if the table begins with the two in the wrong order, the second if it is the table's second column and the first comes later), for lists of columns (C110_columns_refuted) and for every stored dictionary (C110_lost_refuted). In the first case every recovered UPDATE says <nil> for the lost column, for whole logs and the whole command (C110_where_refuted). Proved, for keys of any number n of columns: nothing is lost if they stand in the table in the key's order, with any columns before and between them, or in any order behind the first n columns (C110_kept_partial; C110_leading_partial is the case of the first columns). Missing: which columns are lost of keys of three or more columns, against the order of the table and partly among its first n columns. |
| C111 | A recovered UPDATE sets the columns that were changed | partial | `C111_set_refuted`, `C111_behind_partial` | False: moving a key of n columns to the front overwrites the first n columns and leaves the others in place, so a changed column is taken for the one as many places further on as there are key columns behind it. C111_set_refuted gives this for every log of updates of tables whose key, of any number of columns, stands in table order anywhere or in any order behind the first n columns (a changed column must have the type of the one it is taken for, for the value to be shown at all), with the exact statements, and shows that a statement is right exactly if every changed column lies behind the whole key; in C111_case undoing a change of u sets the primary key y instead. C111_behind_partial: right if all changed columns lie behind the key. Missing: neighbours of another type, and keys of which a column is lost (C110). |
| C112 | Columns of which the key holds only a part are recovered whole | partial | `C112_prefix_refuted`, `C112_whole_partial`, `C112_update_refuted`, `C112_nothing_refuted` | False: the tool ignores the lengths in SYS_FIELDS, takes the part for the column and does not expect the column again behind the key. C112_prefix_refuted: for tables whose columns have one type and are NOT NULL, and every key of columns or parts of them, each row is printed with the first values of its record, as many as the table has columns, and is right exactly if these are its values (C112_case: ('abcdef','uvw') with key v(3) comes out as ('abc','abcdef')). C112_whole_partial: right for keys that hold all of their columns, as in C82. C112_update_refuted: the recovered UPDATEs of such tables look for the row by the part, and their conditions are the row's key exactly if every value fits in its part. C112_nothing_refuted: if the key is a part of the first column and an integer column follows that, nothing is printed of a file of REDUNDANT pages, unless a value of the first column happens to take as many bytes as the integer. Missing: columns of different types in COMPACT pages, nullable columns. The lengths are bytes (single-byte character sets). |
| C113 | Virtual columns are not read from the records | partial | `C113_virtual_refuted`, `C113_redundant_refuted`, `C113_chance_refuted`, `C113_wide_refuted` | False: the tool takes a virtual column for a stored one. C113_virtual_refuted: for a table with any number of virtual columns behind the others, signed integers of any width, nullable or not (as long as their NULL bits fit in the bytes of the record's NULL bitmap), and COMPACT pages, every row is printed with its other values and, for the virtual columns, the numbers made of the bytes that follow its record, so it is right exactly if the values happen to be those numbers. In REDUNDANT pages (integer columns), the byte below the record's end offsets is taken for the end of the virtual column: unless it is by chance the number that fits, the record and the rest of its page are not read (C113_redundant_refuted, and with end offsets of two bytes the two bytes below them, C113_wide_refuted; behind the supremum record that byte is 0, so the whole page is lost), and if it is (one byte), the bytes behind the record are taken for the value (C113_chance_refuted). Missing: virtual columns of other types, bitmaps that would need another byte. For tables without virtual columns: C82. |
| C114 | Tables are found and named by their own names | partial | `C114_plain_partial`, `C114_unfound_refuted`, `C114_special_refuted`, `C114_update_refuted`, `C114_request_refuted` | True for names of letters, digits and underscores without partitions (C114_plain_partial). False for all others: the reader compares requests with the stored names, so nothing is printed for any other table (C114_unfound_refuted), nor for any name with a character no stored name has (C114_special_refuted), and the redo command finds no update for such a request (C114_request_refuted); a recovered UPDATE names the right table exactly when the names are plain and there are no partitions (C114_update_refuted). |
| C115 | Instances with smaller pages are recovered | partial | `C115_default_partial`, `C115_data_refuted`, `C115_redo_refuted` | True for 16384 (C115_default_partial, from C82). False for 4096 and 8192, for every instance: the reader takes blocks of 16384 bytes, page 7 begins none, so the dictionary is never found (C115_data_refuted, C115_redo_refuted). Larger pages: C116. |
| C116 | Instances with larger pages are recovered | partial | `C116_cut_refuted`, `C116_lost_refuted`, `C116_whole_partial`, `C116_redo_partial` | True if all records lie in the first 16384 bytes of their pages (C116_whole_partial; for the redo command, which reads no data file, C116_redo_partial). False otherwise: of every leaf just the rows before the first record, in list order, behind those bytes are printed (C116_cut_refuted says exactly which), so rows are missing as soon as there is such a record (C116_lost_refuted), without a word. Assumed: the dictionary's own pages are read whole, the second and later blocks of a page do not look like leaves, no record lies across the border; tables as in C82, updates as in C87. |
| C117 | Texts of columns of every character set are recovered | partial | `C117_exact_refuted`, `C117_own_partial`, `C117_one_byte_refuted`, `C117_ucs2_refuted`, `C117_mixed_refuted`, `C117_two_byte_partial`, `C117_swallowed_refuted`, `C117_breakout_refuted`, `C117_update_refuted`, `C117_update_partial` | False: the tool prints the bytes of the column's character set as they are. C117_exact_refuted: a client reads the text that the column held exactly if its set writes the text as the column's does; C117_one_byte_refuted: for a UTF-8 client and a set of one byte per character, only if the text is ASCII; C117_ucs2_refuted: in UCS-2 not even ASCII; C117_mixed_refuted: no client reads both of two columns whose sets give different texts the same bytes (C117_case: A-tilde and copyright sign in latin1, e-acute in UTF-8). C117_swallowed_refuted and C117_breakout_refuted: for a client with GBK, Big5, SJIS or another set with two-byte characters, a value ending with a character whose second byte is a backslash swallows its closing quote, and the text of the next column stands outside of quotes (C117_case: '); drop table x; -- '). Proved: C117_own_partial (columns with the client's own set, any set without ASCII bytes in characters of several bytes) and C117_two_byte_partial (two-byte sets, texts without such characters). UPDATE statements, which do not escape at all (C32): C117_update_refuted (a client reads the old text exactly if its set writes it as the column's does) and C117_update_partial (two-byte sets, texts without a quote or backslash of their own). |
| C118 | The text of the statements printed from data files | proved | `C118_written` | C118_written gives the exact bytes of every line; the values are those of the row (tables and values as in C82, where front_key excludes the keys for which the tool prints other rows). That such a line reads back as these values is C82. |
| C119 | SET values can be put back | partial | `C119_set_refuted`, `C119_names_partial`, `C119_many_refuted` | False in two cases, exactly described by C119_set_refuted: a member named like the printed number (MySQL takes a string that names members before it takes it as a number), and tables with 23 or 24 members when one of the two last is in the value (the 3-byte read is masked, C11; C119_many_refuted). True when no member is named like a number and the count is not 23 or 24 (C119_names_partial). Names are compared byte by byte, as with a binary collation. |
| C120 | DATETIME, TIME and TIMESTAMP columns of tables made before MySQL 5.6 | partial | `C120_datetime_partial`, `C120_early_refuted`, `C120_time_partial`, `C120_timestamp_refuted`, `C120_timestamp_early_refuted`, `C120_timestamp_first_refuted` | DATETIME from the year 1000 on and TIME are printed as bare numbers that MySQL reads as the same value: proved. DATETIME of the years 1 to 999 is false: the number has 11 to 13 digits, of which MySQL takes the first two for a year from 1970 to 2069 (C120_early_refuted). TIMESTAMP is false for every value: the number of seconds is printed, and MySQL reads ten digits as YYMMDDhhmm (C120_timestamp_refuted) and nine in a year that begins 300 days or more after, or ended 300 days or more before, the stored time (C120_timestamp_early_refuted), if it does not refuse them; of eight or fewer, until March 1973, it reads another time in every time zone of whole quarters of an hour (C120_timestamp_first_refuted). Missing: the zero date (printed as 0, which servers take or refuse depending on their SQL mode). |
| C121 | Encrypted and page-compressed data files | partial | `C121_sealed_refuted`, `C121_others_partial` | False: a file of encrypted or compressed pages gives no line at all and no error, whatever it holds. Proved: with distinct page numbers, the other pages of such a file are read as if the sealed ones were absent. |
| C122 | One line for each statement | partial | `C122_data_partial`, `C122_redo_refuted` | True of the data command for all files whatever (C122_data_partial; the names given on the command line must have no such bytes themselves, as they are printed as given). False of the redo command: the line of a recovered update has such a byte exactly if one of its names or values has (C122_redo_refuted; C122_redo_case is an old value with a line feed). |
| C123 | Pages are recovered independently of each other | partial | `C123_selection_partial` | C123_selection_partial: for the tables of C82 (front_key) and pages with different numbers. The lines are compared as statements (db, table, values as SQL reads them), not byte by byte: a NULL in a VARBINARY column is printed as NULL or as unhex(NULL) depending on the rows before it. Missing: tables outside C82, for which the rows themselves are wrong. |
| C124 | Statements for tables with JSON columns are accepted | partial | `C124_json_refuted`, `C124_null_partial` | False: a document is printed as unhex('...') of its stored binary form, a binary string, which MySQL refuses for a JSON column (error 3144). C124_json_refuted: the statement of a row is accepted if and only if all its JSON columns are NULL. C124_null_partial: rows whose JSON columns are all NULL are printed with their values and accepted. C124_case: a table with a row that is refused and one that is accepted. |
| C125 | Commands run with the options given | partial | `C125_data_refuted`, `C125_redo_refuted`, `C125_required_partial`, `C125_unknown_partial` | False for lines that begin with an option: flag.Parse, called in each command for the logging library, reads the same command line, does not know the option, and exits with status 2 before anything is read (C125_data_refuted, C125_redo_refuted, in general). Proved, in the same theorems: all other lines, with options anywhere behind the first word, repeated or not, in both spellings, and with further words behind the command, run the command with the last values given. C125_required_partial: without a required option nothing runs; C125_unknown_partial: nor with an option the command does not have. A value in an argument of its own must not be the command's next word (cobra drops the first such argument). cobra and flag are described in Main.v, not part of /repo. |
| C126 | The exit status tells failure | partial | `C126_data_refuted`, `C126_table_refuted`, `C126_redo_refuted`, `C126_crash_partial`, `C126_redo_crash_partial` | False: if the system tablespace or the table's file cannot be opened the status is 0 (C126_data_refuted, C126_table_refuted), for the redo command even without a message (C126_redo_refuted). What the status says is exactly whether the command crashed (C126_crash_partial, C126_redo_crash_partial) or the command line was refused (C125). |
| C127 | Statements fit the table as MySQL knows it | partial | `C127_taken_refuted`, `C127_plain_partial` | False: the statements name no columns and have a value for every column of InnoDB's dictionary. C127_taken_refuted: for the tables of C82 the statement of a row is taken exactly if InnoDB added no column for a FULLTEXT index (it stays when the index is dropped) and no column is generated. C127_plain_partial: for all other tables it is taken and has the row's values. C127_case: a table of each kind that is refused. |
| C128 | Rows of unfinished transactions are not printed | partial | `C128_committed_refuted`, `C128_committed_partial` | False: DB_TRX_ID is read and dropped, so rows of open transactions are printed like the others (C128_committed_refuted: every row is printed, and the claim holds for just those files all of whose rows were committed). C128_committed_partial: right for those files, for the tables of C82. Missing: nothing that is true of the model for those tables; tables outside C82 as there. |
| C129 | Tables clustered on a UNIQUE key | partial | `C129_crash_refuted`, `C129_values_refuted`, `C129_second_refuted`, `C129_unique_partial`, `C129_redundant_refuted`, `C129_nothing_refuted` | False: movePrimaryKeyFirst and addInternalColumns know the clustered index only by the names PRIMARY and GEN_CLUST_INDEX, so the columns DB_TRX_ID and DB_ROLL_PTR are not reckoned with. One or two columns: the program crashes at the first record (C129_crash_refuted). Three signed integer columns or more: what follows the key is read 13 bytes early (C129_values_refuted); after a one-column key the second column is printed as the first bytes of the transaction number (C129_second_refuted). C129_unique_partial: right if all columns are in the key, in its order, and there are three or more (COMPACT pages). REDUNDANT pages: a record is rejected, and with it the rest of its page, if a column of fixed length meets a value of another length (C129_redundant_refuted, any types); so of a REDUNDANT file with an integer column behind the key nothing is printed, whatever rows it holds (C129_nothing_refuted). Missing: what is printed for columns of other types in COMPACT pages, and of REDUNDANT records that are not rejected. |
| C130 | Updates of tables clustered on a UNIQUE key | partial | `C130_never_refuted`, `C130_position_refuted` | False of the program: the key is looked up by the index names PRIMARY and GEN_CLUST_INDEX only. C130_never_refuted: whatever the log files hold, no printed line is a readable UPDATE of such a table (the WHERE part would be empty). C130_position_refuted: at every update record of a table without a known key whose first key value is a text of 1 to 127 bytes beginning with an ASCII character not below the number of columns, nothing is printed and the scan goes on at the second character of the text. Nothing of the claim remains true for such tables; C53 to C76 treat the tables with a known key. |
| C131 | Rows put back cost no other rows | partial | `C131_kept_partial`, `C131_lost_refuted`, `C131_live_partial`, `C131_unique_refuted` | False: REPLACE removes every row that clashes with the new one in any unique key, so a live row that clashes with a deleted one outside the primary key is lost (C131_lost_refuted for all tables, keys and collations; C131_unique_refuted is a witness with a live row whose primary key no deleted row has). C131_kept_partial says exactly which rows are there afterwards, and that all are if nothing clashes; C131_live_partial: the live rows give the table back in an empty table with any keys. Missing: tables outside tool_input (see C82). |
| C132 | No file can put SQL of its own into the output of the data commands | proved | `C132_only_replace` | For all files, not only well-formed ones; names of database and table come from the command line and are taken to have no backquote. What clients with multi-byte sets or the mode NO_BACKSLASH_ESCAPES make of the lines is C117 and C133. |
| C133 | Statements for servers in SQL mode NO_BACKSLASH_ESCAPES | partial | `C133_mode_partial`, `C133_breakout_refuted` | False for each row with a text that has a NUL, line feed, carriage return, Ctrl-Z, quotation mark or backslash: C133_mode_partial says that a line is read as its row exactly if there is none; C133_breakout_refuted: what follows `'); ` in the last value is left over as statements of its own. Missing: tables outside tool_input (see C82). |
| C134 | No log can put SQL of its own into the output of the redo command | partial | `C134_breakout_refuted`, `C134_decimal_refuted`, `C134_plain_partial`, `C134_key_refuted` | False: values are not escaped in the UPDATE statements. C134_breakout_refuted: for every log with an update whose old text in a text column is a, then `';`, then x, the printed line reads as an UPDATE of every row of the table (no WHERE), followed by x as SQL (C134_case). C134_decimal_refuted: so does a DECIMAL with such bytes, which are printed as they are stored (C134_decimal_case: the number 658187040 in a DECIMAL(11) gives an UPDATE of every row and a comment). C134_key_refuted: the same in a text of the key: the UPDATE then looks for the beginning of that text and the rest is SQL (C134_key_case). Proved: C134_plain_partial (all log files, well formed or not, and all dictionaries whose tables that can be printed hold no text and no DECIMAL columns, with names without backquote: integers, floats, dates and times, BIT, BINARY, VARBINARY, binary BLOB and the columns InnoDB adds; each line is one UPDATE of fixed shape or one of the two messages. Assumes that Go prints floats without quotes and that no time zone is more than a day from UTC). Texts that can be written as they are, are C32 and C97. |
| C135 | Updates of tables with a DATETIME in the primary key are recovered | partial | `C135_key_refuted`, `C135_decimals_partial` | False: key values are passed to the decoder without the bytes behind them, which it needs for a DATETIME. C135_key_refuted: whatever the log, the key columns around it, the change and the request, nothing is printed of a record whose key holds a DATETIME of up to four decimals (or a BIT of 33 to 56 bits), but the remarks on DECIMALs before it; the lines of the other records stay. C135_decimals_partial: with five or six decimals the statement is printed in the years 1991 to 2099, with any other key columns before and after, and names the row of the whole second. Keys of other types are C87. |
| C136 | REDUNDANT rows with a column stored outside the record are printed | partial | `C136_several_refuted`, `C136_front_partial`, `C136_stale_refuted`, `C136_lost_refuted`, `C136_crash_refuted`, `C136_file_refuted` | False: the flag that marks such a column stays in its end offset as 2^14. C136_stale_refuted: as the last column it is printed with the value of the row before, whatever the record holds. C136_lost_refuted: with a column of fixed length behind it the record is rejected, and with it all rows that follow in the page (none is printed if it is the first). C136_crash_refuted: with a column of variable length behind it the tool stops with a panic; C136_file_refuted: of a file whose first leaf begins with such a record no row is printed at all. All for every page, record, table and value. C136_front_partial: in the first case all columns in front of it are exact. C136_several_refuted: with any number of such columns, and the first of them not the last column, the record is rejected exactly if somewhere a column of fixed length comes directly behind one of them, and decoding it panics otherwise. |
| C137 | GEOMETRY columns are recovered | partial | `C137_null_refuted`, `C137_place_partial`, `C137_last_partial`, `C137_behind_refuted`, `C137_update_refuted`, `C137_redundant_refuted`, `C137_text_refuted` | Refuted, for all files: whatever the system and the data file hold, every line is the message about DECIMAL or a statement in which each GEOMETRY column of the table has the value NULL (C137_null_refuted; ParseData has no case for the type). Likewise for all log files: a recovered UPDATE that names a GEOMETRY column sets it to NULL (C137_update_refuted). A column behind a GEOMETRY is read from the GEOMETRY's own bytes, because its length is taken to be the 12 of the dictionary: an INT is the number made by its 13th to 16th byte, whatever is stored for the INT (C137_behind_refuted). A text behind a GEOMETRY of less than 128 bytes is read with the GEOMETRY's length from its 13th byte on (C137_text_refuted). In a REDUNDANT page a record whose GEOMETRY has more than 12 bytes, as they all have, is not read at all, nor is what follows it in the page (C137_redundant_refuted). Proved: what COMPACT records of such tables are read as, any columns before the GEOMETRY and columns of fixed length behind it (C137_place_partial); with the GEOMETRY as the last column all others are exact (C137_last_partial). Missing: several columns of varying length behind a GEOMETRY and values stored outside the record (the findings of NULL cover them). |
| C138 | CHAR columns are loaded with their values | partial | `C138_exact_refuted`, `C138_many_refuted` | Exactly decided for whole files, either record format, any columns besides. C138_exact_refuted: a CHAR(n) of a character set with one byte per character is loaded with its value, whatever the value, except the text NULL in a CHAR(4), which becomes SQL's NULL (the padding saves it in longer columns). C138_many_refuted: a CHAR of a character set with several bytes per character is right exactly if the value has no white space of Unicode at either end and is not the text NULL, and is loaded as SQL's NULL exactly if it is NULL with nothing but white space around. C138_case: a page with a witness for both. Assumed as in C75: the printed texts have no quote or backslash (C27). |

## Findings about the code

Each is the witness of a `_refuted` theorem unless another theorem is named.

* 64-bit compressed integers: low word read from the wrong place (C04); identifiers from 2^32 on lose their high part (C06).
* MEDIUMINT UNSIGNED and 3-byte BIT are cut to 22 bits (C11, C12); 5- to 7-byte BIT columns panic (C12).
* DATETIME years outside 1991-2099 are misprinted, and a DATETIME near the end of the buffer panics (C15); an update of a
  table with a DATETIME of up to four decimals in its key is therefore never printed from a log (C135).
* TIMESTAMP hours are printed on a 12-hour clock (C17); YEAR 0 prints 1900 (C18); CHAR loses leading white space (C20).
* DECIMAL values are never recovered (C100), fractions of seconds are dropped (C101), ENUM values are printed as numbers (C102),
  old DECIMAL and geometry values become NULL (C103).
* SET values are printed as numbers, which are wrong for members named like numbers and for the last members of 24 (C119); TIMESTAMP columns
  made before MySQL 5.6 are printed as a count of seconds, which MySQL reads as another time or not at all (C120).
* Encrypted and page-compressed data files give neither rows nor an error (C121).
* Recovered UPDATEs are cut into several lines by line ends in their names or values (C122).
* JSON documents are printed as binary strings, which MySQL refuses for JSON columns (C124).
* MySQL refuses the statements of tables with a stored generated column, or with the column InnoDB adds for FULLTEXT indexes (C127).
* Rows of transactions that never committed are printed like the others (C128).
* Tables clustered on a UNIQUE key instead of a PRIMARY KEY: a crash with one or two columns, wrong values with more (C129).
* An option before the first word of the command, which the usage text offers as a global flag, ends the program (C125): Go's flag.Parse, called for the
  logger, does not know it. The exit status is 0 when files cannot be opened (C126).
* The text NULL becomes SQL NULL, and the text 0001-01-01T00:00:00Z becomes empty (C23, C28); BIT values above 1 print as a different literal (C29).
* A NULL in a BIT column is written bNULL, which makes the REPLACE statement unreadable (C96). UPDATE statements give binary columns
  hexadecimal digits and BIT columns decimal digits instead of their old bytes (C97).
* UPDATE statements join assignments with `and` (C31) and do not escape values (C32). C32_exact_refuted and C87_exact_refuted say
  exactly which UPDATEs are read as meant, C26_exact_refuted which REPLACEs.
* With both names given the redo filter ignores the database (C33).
* latin1 VARCHAR is treated as fixed length (C35); VARBINARY above 127 bytes is misread (C36); REDUNDANT NULLs are lost (C37);
  a column beyond the page keeps the previous row's value (C39).
* A cyclic record list is read for ever (C42); a damaged page panics (C44); a partial last page is zero-padded and parsed (C47);
  read errors are dropped (C48); an unknown table is not reported (C50); external columns print their reference (C51).
* Moving a primary key first is right only if the key is the table's first column: otherwise it loses or reverses columns (C54,
  C55, C81: C55_exact_refuted and C81_exact_refuted say so exactly); sortColumns sorts a copy (C57).
* A NULL where the dictionary should have a number crashes the tool (C104).
* Bad block lengths, headers without NUL, and logs ending after certain records crash the redo command (C61, C76, C78).
* Rename, secondary delete-mark, NULL-update and dummy records are stepped over wrongly (C65, C66, C67, C77).
* DECIMAL columns print a test message among the statements (C70, C72, C80).
* At the level of the whole tool: the bytes of a composite leading key are read as its columns in reverse order, which is harmless only
  if their types are alike (C82); a one-column key elsewhere is printed first, and so lands in the wrong column (C82); the dictionary's column
  order is the clustered index's, and REPLACE statements name no columns, so they are right only for leading keys (C81, C82).
* A page of any type whose bytes 66-73 hold 1 to 4 is taken for a dictionary page; C81 assumes it does not happen. Pages of
  dictionary trees above the leaves are parsed as if they held rows; their records are rejected one by one (C89). Leaves are
  read in file order, not key order (C89).
* The UPDATEs of a log are printed oldest first; run in that order they leave a row that was changed twice with a value from the
  middle of its history. From last to first they always restore it (C91).
* Running the statements for deleted rows overwrites live rows with the same key, and of several deleted versions of a row the
  oldest remains (C93). Rows in pages of other tables in the same file are printed as rows of the requested table (C95). Records marked as deleted but not purged are printed as live rows and not recovered (C94).
* Log blocks are read in the order they lie in the files, not in the order they were written (C105); checksums of
  blocks and pages are never compared (C106, C107).
* Tables that were dropped stay tables as long as their dictionary records remain in the list (C109); keys of several columns lose
  columns, so a recovered UPDATE finds its row by other columns and may set others (C110, C111).
* A column of which the key holds only a part is read as that part (C112); a virtual column takes the bytes behind the record (C113).
* Names with characters other than letters, digits and underscores, and partitioned tables, are never found (C114); instances
  with pages of 4096 or 8192 bytes give nothing (C115), with larger ones the rows of a page up to the first record behind its
  first 16384 bytes (C116).
* Texts are printed in the bytes of the column's character set: read as UTF-8 a text of a one-byte set is right only if it is ASCII, and
  two columns may leave no client that reads both; for clients with GBK and similar sets a value can end the quotes (C117).
* No statement about a table clustered on a UNIQUE key is ever printed from a log; at an update of a table whose key is a text the scan
  goes on in the middle of the text (C130).
* The statements for deleted rows are REPLACE statements: a live row that clashes with a deleted one in any unique key is lost (C131).
* For a server in SQL mode NO_BACKSLASH_ESCAPES a row is read wrongly as soon as a text has a character written with a backslash, and
  what follows `');` in a text is run as a statement (C133).
* An old text with `';`, or a DECIMAL stored in such bytes, ends the recovered UPDATE: it then changes every row, and the rest of
  the text is run as SQL; in a text of the key the rest is run as SQL too (C134).
* A REDUNDANT row with a column stored outside the record is printed with the value of the row before, is lost together with the rest
  of its page, or stops the tool, depending on the column behind it (C136).
* Columns of type GEOMETRY (type 14 of MySQL 5.7) have no case in the decoder: the
  tool prints NULL for them, and reads the columns behind them from the GEOMETRY's
  own bytes, as it takes their length to be the dictionary's 12; recovered UPDATEs
  set them to NULL (C137). REDUNDANT records with a GEOMETRY are not read at all.
* VARCHARs with character set latin1, the default of MySQL 5.7, are taken to have a
  fixed length: the tool prints the text and bytes of what follows, and does not
  read REDUNDANT records with one (C35).
* A CHAR(4) with the text NULL is loaded as SQL's NULL; CHARs of character sets with several bytes per character lose white space
  at both ends, and NULL with white space around becomes SQL's NULL (C138).
* Unused helpers: the undo page listing crashes on pages without a log (C84); table structure recovery always returns an empty
  text (C85); the fixed length of an INT is given as 0 (C99).

## Wrong programs

`seeded/LOG.jsonl` records edits of the model in a scratch copy, one JSON object per line: the definition, the edit, the claim it
breaks, the theorems that failed and the theorems tightened as a result.
