{"id": "C01", "title": "Compressed 32-bit integers decode to what InnoDB wrote", "statement": "For every n < 2^32, every byte string before and after it, reading the InnoDB 'compressed' encoding of n at its position with MatchParseCompressed returns exactly n, the exact number of bytes of the encoding and no error, and MatchGetCompressedSize(n) is that same number.", "quantifier": "all n in [0,2^32), all surrounding bytes, all positions", "why_tests_cant": "2^32 values times arbitrary context; the five length classes meet at boundaries a sampled test can miss", "anchors": ["recovery/utils/utils.go:MatchParseCompressed", "recovery/utils/utils.go:MatchGetCompressedSize"]}
{"id": "C02", "title": "Compressed-integer reader never reports more than the buffer holds", "statement": "For every buffer and position, MatchParseCompressed either returns (value < 2^32, 1..5 bytes all inside the buffer, no error), or returns an error having found a 5-byte form that does not fit, or panics; it panics exactly when the position is not inside the buffer or a 2-, 3- or 4-byte form is truncated.", "quantifier": "all byte buffers, all positions", "why_tests_cant": "must hold at every truncation point of every buffer", "anchors": ["recovery/utils/utils.go:MatchParseCompressed"]}
{"id": "C03", "title": "64-bit 'compressed' reader leaves the cursor just after the field", "statement": "For every 64-bit value written in InnoDB's u64-compressed form (compressed high word, 4-byte low word) and followed by at least five more bytes, MatchUllReadComPressed advances the caller's cursor by exactly the length of the field.", "quantifier": "all 64-bit values, all surrounding bytes", "why_tests_cant": "every value class and every context; a wrong advance silently desynchronises the whole redo scan", "anchors": ["recovery/utils/utils.go:MatchUllReadComPressed"]}
{"id": "C04", "title": "64-bit 'compressed' reader returns the value written", "statement": "For every 64-bit value written in InnoDB's u64-compressed form, MatchUllReadComPressed returns that value.", "quantifier": "all 64-bit values, all surrounding bytes", "why_tests_cant": "the defect only shows for particular following bytes", "anchors": ["recovery/utils/utils.go:MatchUllReadComPressed"]}
{"id": "C05", "title": "Much-compressed identifiers below 2^32 are read exactly", "statement": "For every identifier below 2^32 written in InnoDB's much-compressed form, MatchUllReadMuchCompressed returns that identifier and MachUllGetMuchCompressedSize of it is the exact number of bytes it occupies.", "quantifier": "all identifiers in [0,2^32), all following bytes", "why_tests_cant": "2^32 identifiers; table ids and undo numbers steer everything that follows", "anchors": ["recovery/utils/utils.go:MatchUllReadMuchCompressed", "recovery/utils/utils.go:MachUllGetMuchCompressedSize"]}
{"id": "C06", "title": "Much-compressed identifiers of 2^32 and above are read exactly", "statement": "For every 64-bit identifier written in InnoDB's much-compressed form, MatchUllReadMuchCompressed returns it and MachUllGetMuchCompressedSize gives its encoded length.", "quantifier": "all identifiers in [2^32,2^64)", "why_tests_cant": "needs servers with more than 4 billion undo numbers; no fixture has them", "anchors": ["recovery/utils/utils.go:MatchUllReadMuchCompressed", "recovery/utils/utils.go:MachUllGetMuchCompressedSize"]}
{"id": "C07", "title": "Big-endian field readers are exact", "statement": "For every k in {1,2,3,4,7,8} and every n < 256^k, reading the k-byte big-endian encoding of n followed by anything returns n; on fewer than k bytes the reader panics rather than inventing a value.", "quantifier": "all widths, all values, all following bytes, all short buffers", "why_tests_cant": "256^8 values", "anchors": ["recovery/utils/utils.go:MatchReadFrom1", "recovery/utils/utils.go:MatchReadFrom2", "recovery/utils/utils.go:MatchReadFrom3", "recovery/utils/utils.go:MatchReadFrom4", "recovery/utils/utils.go:MatchReadFrom7", "recovery/utils/utils.go:MatchReadFrom8"]}
{"id": "C08", "title": "Little-endian field readers are exact", "statement": "ParseBinaryInt8/16/24/32/64 and their unsigned forms return exactly the two's-complement (or unsigned) number whose little-endian bytes they are given, for every number of that width; FixedLengthInt returns the little-endian value of every buffer of up to eight bytes and ignores bytes beyond the eighth.", "quantifier": "all widths, all values, all buffers", "why_tests_cant": "unbounded value space including every sign boundary", "anchors": ["recovery/utils/utils.go:ParseBinaryInt8", "recovery/utils/utils.go:ParseBinaryInt16", "recovery/utils/utils.go:ParseBinaryInt24", "recovery/utils/utils.go:ParseBinaryInt32", "recovery/utils/utils.go:ParseBinaryInt64", "recovery/utils/utils.go:FixedLengthInt"]}
{"id": "C09", "title": "Signed integer columns are recovered exactly", "statement": "For TINYINT, SMALLINT, MEDIUMINT, INT and BIGINT (signed), every value v of the type, stored as InnoDB stores it (big-endian with the sign bit flipped), is turned by ParseData into exactly v and printed in decimal as v.", "quantifier": "all widths 1,2,3,4,8 and all values of each", "why_tests_cant": "2^64 values; sign-boundary mistakes hide between samples", "anchors": ["recovery/utils/utils.go:GetIntValue", "recovery/utils/utils.go:ParseData"]}
{"id": "C10", "title": "Unsigned TINYINT, SMALLINT, INT and BIGINT columns are recovered exactly", "statement": "For every unsigned column of width 1, 2, 4 or 8 bytes and every value of it, ParseData returns exactly that value.", "quantifier": "all four widths, all values", "why_tests_cant": "2^64 values", "anchors": ["recovery/utils/utils.go:GetUintValue", "recovery/utils/utils.go:ParseData"]}
{"id": "C11", "title": "MEDIUMINT UNSIGNED columns are recovered exactly", "statement": "For every value of an unsigned 3-byte column, ParseData returns exactly that value.", "quantifier": "all 2^24 values", "why_tests_cant": "the fixture only inserts 400000, which is below the failing range", "anchors": ["recovery/utils/utils.go:GetUintValue"]}
{"id": "C12", "title": "BIT columns of every width are recovered", "statement": "For every BIT(n) column, 1 <= n <= 64, stored in (n+7)/8 bytes, and every value, ParseData returns that value.", "quantifier": "all widths of 1..8 bytes, all values", "why_tests_cant": "the fixture has only BIT(1)", "anchors": ["recovery/utils/utils.go:GetUintValue", "recovery/utils/utils.go:ParseData"]}
{"id": "C13", "title": "DATE columns are recovered exactly", "statement": "For every year < 16384, month < 16 and day < 32, the InnoDB encoding of that DATE is printed as year-month-day with at least two digits each.", "quantifier": "all (year, month, day)", "why_tests_cant": "every day of 16384 years", "anchors": ["recovery/utils/utils.go:ParseDate"]}
{"id": "C14", "title": "TIME columns are recovered exactly, including negative times", "statement": "For every MySQL 5.6 TIME(0) value, |hours| <= 838, minutes and seconds < 60, of either sign, the stored three bytes are printed as [-]hh:mm:ss of that value.", "quantifier": "all hours, minutes, seconds and both signs", "why_tests_cant": "1.2 million values per sign and the sign bias", "anchors": ["recovery/utils/utils.go:ParseTime"]}
{"id": "C15", "title": "DATETIME columns are recovered exactly", "statement": "For every MySQL 5.6 DATETIME(0) value, the five stored bytes, whatever bytes follow them in the record, are printed as yyyy-mm-dd hh:mm:ss of that value.", "quantifier": "all dates and times, all following bytes", "why_tests_cant": "the outcome depends on the neighbouring column's bytes", "anchors": ["recovery/utils/utils.go:GetTimeFormat", "recovery/utils/utils.go:ParseDateTime"]}
{"id": "C16", "title": "Old-format (pre-5.6) DATETIME columns are recovered exactly", "statement": "For every pre-5.6 DATETIME value, stored as an 8-byte integer YYYYMMDDhhmmss with the sign bit set or clear, ParseDateTime prints yyyy-mm-dd hh:mm:ss of that value.", "quantifier": "all dates and times", "why_tests_cant": "the format guess must be right for every value", "anchors": ["recovery/utils/utils.go:GetTimeFormat", "recovery/utils/utils.go:ParseDateTime"]}
{"id": "C17", "title": "TIMESTAMP columns are recovered exactly", "statement": "For every 32-bit UNIX time and every fixed offset of the local zone, the printed local date and time determine the instant: minutes, seconds and date are exact and the hour is that of a 24-hour clock.", "quantifier": "all 2^32 instants, all zone offsets", "why_tests_cant": "needs a value after noon to fail; the two sample timestamps are just after midnight", "anchors": ["recovery/utils/utils.go:ParseTimeStamp"]}
{"id": "C18", "title": "YEAR columns are recovered exactly", "statement": "For every stored YEAR byte, ParseData returns the year it denotes (0 denotes 0000, b > 0 denotes 1900+b).", "quantifier": "all 256 bytes", "why_tests_cant": "finite but the special value is never inserted by the fixture", "anchors": ["recovery/utils/utils.go:ParseData"]}
{"id": "C19", "title": "Variable-length text and undecoded fixed-binary columns are recovered byte for byte", "statement": "For VARCHAR, VARCHAR in any charset, TEXT, and latin1 CHAR, ParseData returns exactly the stored bytes, for every byte string including invalid UTF-8 and embedded NULs, and never reads past the field.", "quantifier": "all byte strings and all following bytes", "why_tests_cant": "unbounded strings", "anchors": ["recovery/utils/utils.go:ParseData"]}
{"id": "C20", "title": "CHAR columns lose only their trailing pad spaces", "statement": "For every CHAR column value in a multi-byte charset, ParseData returns the stored string without its trailing pad spaces and with everything else intact.", "quantifier": "all strings", "why_tests_cant": "needs values with leading blanks or control characters", "anchors": ["recovery/utils/utils.go:ParseData"]}
{"id": "C21", "title": "Binary columns survive the hex round trip", "statement": "For BLOB, VARBINARY and BINARY columns ParseData marks the column binary and returns a hex string from which unhex() gives back exactly the stored bytes, for every byte string.", "quantifier": "all byte strings", "why_tests_cant": "unbounded strings", "anchors": ["recovery/utils/utils.go:ParseBlob", "recovery/utils/utils.go:ParseData"]}
{"id": "C22", "title": "FLOAT and DOUBLE columns carry the stored bit pattern", "statement": "For every 32-bit (64-bit) pattern stored little-endian in a FLOAT (DOUBLE) column, followed by anything, ParseData returns the float whose IEEE bit pattern is exactly that.", "quantifier": "all 2^32 and 2^64 patterns", "why_tests_cant": "NaNs, denormals, negative zero cannot be enumerated", "anchors": ["recovery/utils/utils.go:ParseFloat", "recovery/utils/utils.go:ParseDouble"]}
{"id": "C23", "title": "Escaped values read back as the original under MySQL string lexing", "statement": "For every byte string s, MySQL's string-literal lexer applied to a quote, EscapeValue(s), a quote, yields exactly s and stops at that closing quote whatever statement text follows.", "quantifier": "all byte strings, including invalid UTF-8; all following text", "why_tests_cant": "unbounded strings and every mix of escapes and multi-byte sequences", "anchors": ["recovery/utils/utils.go:EscapeValue"]}
{"id": "C24", "title": "No value can break out of its quotes in a recovered REPLACE statement", "statement": "For every byte string s and every continuation, the lexer never ends the literal inside EscapeValue(s): text of a column value is never interpreted as SQL.", "quantifier": "all byte strings, all continuations", "why_tests_cant": "an injection is a single adversarial input", "anchors": ["recovery/utils/utils.go:EscapeValue", "recovery/ibdata/format.go:makeReplaceIntoStatement"]}
{"id": "C25", "title": "One REPLACE statement per recovered row, in order", "statement": "For every list of rows, makeReplaceIntoStatement prints exactly one line per row, in row order, and the n-th line depends only on the n-th row and the table and database names.", "quantifier": "all row lists, all names", "why_tests_cant": "unbounded lists", "anchors": ["recovery/ibdata/format.go:makeReplaceIntoStatement"]}
{"id": "C26", "title": "A REPLACE statement parses back to the table and the row's values", "statement": "For every row, reading the printed statement with an SQL reader for 'replace into `db`.`tbl` values (...);' gives back the database, the table and, in column order, exactly the user columns' values with NULL for missing ones.", "quantifier": "all rows, all values of all supported types, all backquote-free names", "why_tests_cant": "unbounded rows and values", "anchors": ["recovery/ibdata/format.go:makeReplaceIntoStatement"]}
{"id": "C27", "title": "InnoDB's internal columns never reach the REPLACE statement", "statement": "No value of DB_ROW_ID, DB_TRX_ID or DB_ROLL_PTR influences the printed statement and every other column contributes exactly one value.", "quantifier": "all rows and column lists", "why_tests_cant": "unbounded rows; internal columns can sit at any index", "anchors": ["recovery/ibdata/format.go:makeReplaceIntoStatement"]}
{"id": "C28", "title": "The text 'NULL' is not turned into SQL NULL", "statement": "A string column holding the four characters NULL is printed as a quoted string; only SQL NULLs are printed as NULL.", "quantifier": "all rows with string columns", "why_tests_cant": "one particular string value", "anchors": ["recovery/ibdata/format.go:makeReplaceIntoStatement", "recovery/ibdata/parse.go:parseRecords"]}
{"id": "C29", "title": "BIT values are printed as a literal denoting the same bits", "statement": "For every BIT value, the printed literal b'...' denotes that value in MySQL.", "quantifier": "all BIT values", "why_tests_cant": "coincides with the right answer only for 0 and 1, the values BIT(1) can hold", "anchors": ["recovery/ibdata/format.go:makeReplaceIntoStatement"]}
{"id": "C30", "title": "A one-column recovered UPDATE sets the column to its old value where the key matches", "statement": "For every table, key and single old column value whose names contain no backquote and whose values contain no quote or backslash, the printed UPDATE reads back as exactly that table, that assignment and that key.", "quantifier": "all names, keys and values without quoting characters", "why_tests_cant": "unbounded names and values", "anchors": ["recovery/redo/parse.go:makeSQL"]}
{"id": "C31", "title": "A recovered UPDATE assigns every changed column", "statement": "For every undo record with any number of changed columns the printed UPDATE reads back as a SET list with one assignment per column.", "quantifier": "all column counts >= 1", "why_tests_cant": "the fixture updates one column", "anchors": ["recovery/redo/parse.go:makeSQL"]}
{"id": "C32", "title": "A recovered UPDATE is safe for every value", "statement": "For every string value the printed UPDATE reads back with exactly that value.", "quantifier": "all string values", "why_tests_cant": "needs a quote in the data", "anchors": ["recovery/redo/parse.go:makeSQL"]}
{"id": "C33", "title": "The redo filter prints exactly the requested tables", "statement": "With a database and/or table name given, an UPDATE is printed for a table exactly when its database matches (if one was given) and its name matches (if one was given).", "quantifier": "all requested and actual names", "why_tests_cant": "all combinations of four names", "anchors": ["recovery/redo/mlog.go:mlogUndoInsert"]}
{"id": "C34", "title": "COMPACT records decode to the row that was stored", "statement": "For every table layout and every row of it stored as a COMPACT-format record anywhere in a page, the field boundaries computed for the record give back, for every column, exactly the stored bytes, and NULL exactly for the NULL columns.", "quantifier": "all layouts (any number and order of nullable, fixed and variable-length columns), all rows, all record positions", "why_tests_cant": "unbounded layouts and rows: null bitmap byte crossings, one- and two-byte lengths", "anchors": ["recovery/ibdata/parse.go:ibRecInitOffsetsNew", "recovery/utils/utils.go:RecGetNthField", "recovery/utils/utils.go:RecGetNthFieldOffs", "recovery/ibdata/parse.go:parseRecords"]}
{"id": "C35", "title": "Which columns are treated as variable length", "statement": "A column is read with a stored length exactly when InnoDB stores one for it, for every main type and declared length; in particular latin1 VARCHAR columns.", "quantifier": "all main types and lengths", "why_tests_cant": "the fixture uses one charset", "anchors": ["recovery/utils/utils.go:GetFixedLength", "recovery/ibdata/parse.go:ibRecInitOffsetsNew"]}
{"id": "C36", "title": "Long VARBINARY columns are decoded", "statement": "For a VARBINARY(n) column with n > 255 and a value of 128 bytes or more (two-byte length), the row decodes to the stored bytes.", "quantifier": "all rows with such a column", "why_tests_cant": "fixture VARBINARY is 10 bytes", "anchors": ["recovery/ibdata/parse.go:getAllColumns", "recovery/ibdata/parse.go:ibRecInitOffsetsNew"]}
{"id": "C37", "title": "NULLs in REDUNDANT records come back as NULL", "statement": "For every row stored in REDUNDANT format, a NULL column is reported as NULL.", "quantifier": "all layouts and rows", "why_tests_cant": "fixture tables are COMPACT/DYNAMIC", "anchors": ["recovery/ibdata/parse.go:ibRecInitOffsetsOld"]}
{"id": "C38", "title": "REDUNDANT records without NULLs decode to the stored row", "statement": "For every row without NULLs or externally stored fields stored in REDUNDANT format with one- or two-byte offsets anywhere in a page, every column gets back exactly its stored bytes.", "quantifier": "all rows, both offset widths, all record positions", "why_tests_cant": "unbounded rows; this is how the whole data dictionary is read", "anchors": ["recovery/ibdata/parse.go:ibRecInitOffsetsOld", "recovery/utils/utils.go:Rec1GetFieldEndInfo", "recovery/utils/utils.go:Rec2GetFieldEndInfo", "recovery/utils/utils.go:RecGet1byteOffsFlag"]}
{"id": "C39", "title": "Every value in a printed row comes from that row's own record", "statement": "For every page, the values of a recovered row are a function of that row's record alone, not of rows decoded before it.", "quantifier": "all pages and all sequences of records", "why_tests_cant": "needs an oversized field in one record after a good one", "anchors": ["recovery/ibdata/parse.go:parseRecords"]}
{"id": "C40", "title": "A live page yields exactly its linked records, in order", "statement": "For every COMPACT page whose records form a list from infimum to supremum, reading the page without recovery yields one decoded row per linked record, in list order, and nothing else.", "quantifier": "all list lengths, all record placements, all next-pointer signs", "why_tests_cant": "unbounded chains with forward and backward links", "anchors": ["recovery/ibdata/parse.go:parsePage"]}
{"id": "C41", "title": "Recovery reads exactly the page's free list", "statement": "For every COMPACT page and free list starting at PAGE_FREE and ended by a zero link, recovery yields one row per freed record in list order, whatever the live records are.", "quantifier": "all free lists, all live contents", "why_tests_cant": "unbounded lists", "anchors": ["recovery/ibdata/parse.go:parsePage"]}
{"id": "C42", "title": "Reading a page always finishes", "statement": "For every page content, reading the page terminates.", "quantifier": "all 256^16384 pages", "why_tests_cant": "a cycle of record pointers is one corrupt page among all", "anchors": ["recovery/ibdata/parse.go:parsePage"]}
{"id": "C43", "title": "Page reading either ends within 16384 records or never", "statement": "For every page, if reading it has not ended after 16384 records it never ends: no page yields more rows than that.", "quantifier": "all pages", "why_tests_cant": "bounds every execution", "anchors": ["recovery/ibdata/parse.go:parsePage"]}
{"id": "C44", "title": "A damaged page does not crash the tool", "statement": "For every page content, reading the page returns rows or stops, without a run-time panic.", "quantifier": "all page contents", "why_tests_cant": "one bad pointer or length suffices", "anchors": ["recovery/ibdata/parse.go:parsePage", "recovery/utils/utils.go:RecGetNthField"]}
{"id": "C45", "title": "Only clustered-index leaf pages are printed", "statement": "A page contributes statements only if its type is INDEX, its level is 0 and its max transaction id is 0; in recovery mode only if, in addition, its free list is non-empty, starts inside the page and its garbage count is non-zero.", "quantifier": "all pages and both modes", "why_tests_cant": "every combination of six header fields", "anchors": ["recovery/ibdata/parse.go:ParseDataPage"]}
{"id": "C46", "title": "Data file is read as the sequence of its distinct pages", "statement": "For every file that is a whole number of pages, the parser sees every page once, in file order, keeping the first of several pages that carry the same page number.", "quantifier": "all files of any length", "why_tests_cant": "unbounded files and duplicate patterns", "anchors": ["recovery/ibdata/parse.go:parseFile"]}
{"id": "C47", "title": "A trailing partial page is not treated as a page", "statement": "For every file, bytes after the last whole page are ignored or reported.", "quantifier": "all file lengths", "why_tests_cant": "needs a truncated file", "anchors": ["recovery/ibdata/parse.go:parseFile", "recovery/utils/utils.go:ReadNextBytes"]}
{"id": "C48", "title": "I/O errors while reading a file are reported", "statement": "If reading the data file fails midway the caller gets an error.", "quantifier": "all failure points", "why_tests_cant": "needs fault injection at every read", "anchors": ["recovery/ibdata/parse.go:parseFile", "recovery/utils/utils.go:ReadNextBytes", "recovery/redo/parse.go:ParseRedoLogs"]}
{"id": "C49", "title": "Page headers are decoded field by field", "statement": "For every page image, the decoded FIL header, index page header and dictionary header fields are the big-endian values at their documented offsets.", "quantifier": "all page images", "why_tests_cant": "all field values", "anchors": ["recovery/ibdata/parse.go:parseFilHeader", "recovery/ibdata/parse.go:parsePageHeader", "recovery/ibdata/parse.go:parseSysPageHeader"]}
{"id": "C50", "title": "Asking for an unknown table is reported", "statement": "ParseDataPage for a table that is not in the dictionary returns an error and prints nothing.", "quantifier": "all dictionaries, names and files", "why_tests_cant": "all name/dictionary combinations", "anchors": ["recovery/ibdata/parse.go:getTableColumnsFromDict", "recovery/ibdata/parse.go:ParseDataPage"]}
{"id": "C51", "title": "Externally stored columns are recovered", "statement": "For a BLOB/TEXT column stored off-page, the recovered value is the column value.", "quantifier": "all externally stored values", "why_tests_cant": "fixture blobs are a few bytes", "anchors": ["recovery/ibdata/parse.go:ibRecInitOffsetsNew", "recovery/ibdata/parse.go:parseRecords"]}
{"id": "C52", "title": "Dictionary names split into database and table", "statement": "For every SYS_TABLES name 'db/table' without further slashes the dictionary entry has that database and that table; a name without slash has an empty database.", "quantifier": "all names", "why_tests_cant": "unbounded strings", "anchors": ["recovery/ibdata/parse.go:getAllTables"]}
{"id": "C53", "title": "Column attributes follow the dictionary's type word", "statement": "For every SYS_COLUMNS row of a known table, the column recorded for it is nullable exactly when bit 256 of PRTYPE is clear, unsigned exactly when bit 512 is set, has MySQL type PRTYPE mod 256, is binary exactly when it is a BLOB with bit 1024 set, and rows of unknown tables change nothing.", "quantifier": "all rows and table maps", "why_tests_cant": "all 2^32 type words", "anchors": ["recovery/ibdata/parse.go:getAllColumns"]}
{"id": "C54", "title": "The null-bitmap width always matches the columns", "statement": "After any sequence of SYS_COLUMNS rows the NullCount of every table equals the number of its nullable columns, and it still does after the key columns have been moved first and the internal columns added.", "quantifier": "all sequences of dictionary rows, all tables", "why_tests_cant": "unbounded histories; a mismatch shifts every field of every row", "anchors": ["recovery/ibdata/parse.go:getAllColumns", "recovery/ibdata/parse.go:addInternalColumns"]}
{"id": "C55", "title": "Moving the primary key first keeps every column", "statement": "For every table and primary key the reordered column list is the key columns in key order followed by the remaining columns in their order.", "quantifier": "all tables and keys", "why_tests_cant": "fixture keys are the single first column", "anchors": ["recovery/ibdata/parse.go:moveColumns2First", "recovery/ibdata/parse.go:movePrimaryKeyFirst"]}
{"id": "C56", "title": "Internal columns are placed right after the key", "statement": "With a primary key of k columns DB_TRX_ID and DB_ROLL_PTR are inserted at positions k and k+1, without one DB_ROW_ID, DB_TRX_ID, DB_ROLL_PTR are put in front, all other columns keeping their order; only tables with such an index change.", "quantifier": "all tables and key lengths", "why_tests_cant": "unbounded tables", "anchors": ["recovery/ibdata/parse.go:addInternalColumns", "recovery/ibdata/parse.go:addColumns"]}
{"id": "C57", "title": "Columns end up sorted by position", "statement": "After the dictionary is read the columns of every table are in position order whatever the order of the dictionary rows.", "quantifier": "all row orders", "why_tests_cant": "needs dictionary pages out of key order", "anchors": ["recovery/ibdata/parse.go:sortColumns"]}
{"id": "C58", "title": "Result does not depend on Go's map iteration order", "statement": "For every dictionary with distinct table ids, at most one matching table and at most one clustered index (PRIMARY or GEN_CLUST_INDEX) per table, table lookup by name, lookup by id, key reordering and internal-column insertion give the same result for every iteration order of the table and index maps.", "quantifier": "all iteration orders of all maps", "why_tests_cant": "Go randomises map iteration; a test sees one order", "anchors": ["recovery/ibdata/parse.go:getTableColumnsFromDict", "recovery/ibdata/parse.go:movePrimaryKeyFirst", "recovery/ibdata/parse.go:addInternalColumns", "recovery/redo/mlog.go:getPrimaryKey"]}
{"id": "C59", "title": "Missing dictionary pages are reported as errors", "statement": "If the file has no root page for some one of the four dictionary B-trees (or no dictionary header page at all), ParseDictPage never returns a dictionary without an error.", "quantifier": "all files", "why_tests_cant": "all subsets of missing pages", "anchors": ["recovery/ibdata/parse.go:getAllTables", "recovery/ibdata/parse.go:getAllColumns", "recovery/ibdata/parse.go:getAllIndexes", "recovery/ibdata/parse.go:getAllFields"]}
{"id": "C60", "title": "Redo blocks are reassembled in order", "statement": "For every sequence of well-formed log files the bytes handed to the record parser are exactly the concatenated payloads of the blocks up to the first empty block of each file, in file order.", "quantifier": "all files and block sequences", "why_tests_cant": "unbounded logs", "anchors": ["recovery/redo/parse.go:ParseRedoLogs", "recovery/redo/parse.go:readRedoBlockHeader"]}
{"id": "C61", "title": "A bad block length does not crash the tool", "statement": "For every block length field the redo reader returns normally or with an error.", "quantifier": "all 65536 length fields", "why_tests_cant": "needs a torn block", "anchors": ["recovery/redo/parse.go:ParseRedoLogs"]}
{"id": "C62", "title": "The redo scan always terminates", "statement": "For every byte sequence, dictionary and filter the redo record scan ends, after at most one iteration per input byte.", "quantifier": "all inputs", "why_tests_cant": "non-termination on one input among all", "anchors": ["recovery/redo/parse.go:parseRedoBlockData", "recovery/redo/mlog.go:mlogListEndCopyCreated", "recovery/redo/mlog.go:mlogRecUpdateInPlace"]}
{"id": "C63", "title": "The redo cursor never moves backwards", "statement": "For every input and every record handler, the cursor after a record is strictly beyond where the record's type byte was.", "quantifier": "all inputs and record types", "why_tests_cant": "all byte sequences", "anchors": ["recovery/redo/parse.go:parseRedoBlockData"]}
{"id": "C64", "title": "Every supported redo record is stepped over exactly", "statement": "For every record of the supported types as InnoDB writes it, followed by anything, the scan resumes exactly at the byte after the record and prints nothing (except for update undo records).", "quantifier": "all records of all supported types, all contexts", "why_tests_cant": "one wrong length loses every later record", "anchors": ["recovery/redo/mlog.go:mlogNBytes", "recovery/redo/mlog.go:mlogRecInsert", "recovery/redo/mlog.go:mlogRecUpdateInPlace", "recovery/redo/mlog.go:mlogListEndCopyCreated", "recovery/redo/parse.go:parseRedoBlockData"]}
{"id": "C65", "title": "File rename records are stepped over exactly", "statement": "MLOG_FILE_RENAME and MLOG_FILE_RENAME2 records, which carry two names, are consumed completely.", "quantifier": "all names", "why_tests_cant": "needs a RENAME TABLE in the log", "anchors": ["recovery/redo/mlog.go:mlogFileOp"]}
{"id": "C66", "title": "COMP_REC_SEC_DELETE_MARK records are stepped over exactly", "statement": "The record (index description, value byte, two-byte offset) is consumed completely.", "quantifier": "all such records", "why_tests_cant": "obsolete record type absent from fixtures", "anchors": ["recovery/redo/mlog.go:mlogCompRecSecDeleteMark"]}
{"id": "C67", "title": "An update of a column to NULL does not stop the scan", "statement": "After an in-place update record that sets a column to NULL the scan continues with the next record.", "quantifier": "all such records and continuations", "why_tests_cant": "needs an UPDATE ... = NULL in the log", "anchors": ["recovery/redo/mlog.go:mlogRecUpdateInPlace"]}
{"id": "C68", "title": "Every update undo record in the log yields its UPDATE statement", "statement": "For every log consisting of supported records, the printed lines are, in log order, exactly the UPDATE statements of the update undo records of known, requested tables.", "quantifier": "all logs, dictionaries, rows and filters", "why_tests_cant": "unbounded logs", "anchors": ["recovery/redo/mlog.go:mlogUndoInsert", "recovery/redo/parse.go:makeSQL", "recovery/redo/parse.go:parseRedoBlockData"]}
{"id": "C69", "title": "A malformed or foreign undo record is skipped as a whole", "statement": "Whatever the body of an undo record contains - unknown table, garbage that makes decoding panic - the scan resumes exactly at the end given by its length field.", "quantifier": "all undo bodies", "why_tests_cant": "all bodies; relies on panic recovery", "anchors": ["recovery/redo/mlog.go:mlogUndoInsert"]}
{"id": "C70", "title": "Insert and delete undo records print nothing", "statement": "Only undo records of type update-existing produce output.", "quantifier": "all undo records", "why_tests_cant": "all bodies", "anchors": ["recovery/redo/mlog.go:mlogUndoInsert"]}
{"id": "C71", "title": "Unknown record types resynchronise byte by byte", "statement": "On a byte that is no known record type, the scan prints nothing and resumes at the very next byte.", "quantifier": "all unknown types and contexts", "why_tests_cant": "all inputs", "anchors": ["recovery/redo/parse.go:validateLogHeader", "recovery/redo/parse.go:parseRedoBlockData"]}
{"id": "C72", "title": "Recovered statements are the only thing printed", "statement": "On success the data-file command prints only REPLACE statements.", "quantifier": "all tables, rows and pages", "why_tests_cant": "needs a DECIMAL column", "anchors": ["recovery/utils/utils.go:ParseData", "recovery/ibdata/format.go:makeReplaceIntoStatement"]}
{"id": "C73", "title": "Operation and file-list options mean what the help says", "statement": "Recovery mode is on exactly for OpType=RecoveryData; the redo file list is the comma-separated parts of the option in order, and joining them with commas gives the option back.", "quantifier": "all option strings", "why_tests_cant": "all strings", "anchors": ["cmd/db-recovery/command.go:FromDataFile", "cmd/db-recovery/command.go:FromRedoFile"]}
{"id": "C74", "title": "Log levels are nested and case-insensitive", "statement": "For every level string, messages of a severity are emitted exactly when the severity is at or below the configured level; unknown names mean info; case does not matter.", "quantifier": "all level strings and severities", "why_tests_cant": "all strings", "anchors": ["recovery/logs/logs.go:InitLogs", "recovery/logs/logs.go:Debug"]}
{"id": "C75", "title": "A data file is printed as one faithful statement per row", "statement": "For every data file of whole pages, dictionary entry and recovery mode: if the eligible pages hold rows linked in their record lists (or free lists, in recovery mode), the command succeeds and prints exactly one REPLACE statement per row, in file order and list order within a page, and each statement, read back, names the database and table asked for and carries exactly the values of the row's user columns.", "quantifier": "all page sequences, dictionaries, column layouts, rows and both modes", "why_tests_cant": "It composes file reading, page selection, list walking, record decoding and SQL printing over unboundedly many layouts and contents; tests only run single sample files.", "anchors": ["recovery/ibdata/parse.go:ParseDataPage", "recovery/ibdata/parse.go:parsePage", "recovery/ibdata/parse.go:parseRecords", "recovery/ibdata/format.go:makeReplaceIntoStatement"]}
{"id": "C76", "title": "A log that ends right after a record does not crash the tool", "statement": "For every log that consists of complete supported records the scan ends without a crash, whichever record is the last one.", "quantifier": "all logs of complete records", "why_tests_cant": "The crash depends on which record type is last and on how many bytes follow; tests use logs with a long zero tail.", "anchors": ["recovery/redo/parse.go:parseRedoBlockData", "recovery/utils/utils.go:MatchParseCompressed"]}
{"id": "C77", "title": "A dummy record is one byte", "statement": "After MLOG_DUMMY_RECORD, which InnoDB writes as a single byte, the scan resumes at the very next byte.", "quantifier": "all positions and following bytes", "why_tests_cant": "The bytes swallowed after the record are arbitrary and may hold any records.", "anchors": ["recovery/redo/parse.go:parseRedoBlockData"]}
{"id": "C78", "title": "No log file header crashes the tool", "statement": "For every 512-byte log file header the reader returns normally or with an error.", "quantifier": "all headers", "why_tests_cant": "There are 256^512 headers; tests read well-formed ones.", "anchors": ["recovery/redo/parse.go:readRedoLogFileHeader"]}
{"id": "C79", "title": "Statements before damage are still printed", "statement": "For every log that begins with supported records, the statements of those records are printed first, in order, whatever bytes follow - even when the rest crashes the scan.", "quantifier": "all well-formed prefixes and all tails", "why_tests_cant": "Damaged tails are arbitrary bytes; tests contain no damaged logs.", "anchors": ["recovery/redo/parse.go:parseRedoBlockData"]}
{"id": "C80", "title": "The redo command prints only UPDATE statements of requested tables", "statement": "Whatever the log files and the dictionary contain, every line the redo command prints on success is an UPDATE statement of a table of the dictionary that was requested.", "quantifier": "all log bytes, dictionaries, filters and option strings", "why_tests_cant": "It is a statement about arbitrary, also damaged, logs; tests feed a single well-formed one.", "anchors": ["cmd/db-recovery/command.go:FromRedoFile", "recovery/redo/parse.go:makeSQL", "recovery/redo/mlog.go:mlogUndoInsert"]}
{"id": "C81", "title": "The data dictionary is read as it is stored", "statement": "Given a system tablespace whose four dictionary tables each fit one page, reading it prints nothing and yields exactly the tables, space ids, indexes with their fields, NULL counts and columns it stores, each table's columns in the order of its clustered index records (key columns, internal columns, the others).", "quantifier": "all system tablespaces (any other pages included) holding a consistent dictionary with any numbers of tables, columns, indexes and fields", "why_tests_cant": "A test reads one sample ibdata file; the order of key columns and the cooperation of the four tables matter for every possible dictionary.", "anchors": ["recovery/ibdata/parse.go:ParseDictPage", "recovery/ibdata/parse.go:moveColumns2First", "recovery/ibdata/parse.go:addInternalColumns"]}
{"id": "C82", "title": "Data file recovery as a whole is faithful", "statement": "Run on a system tablespace and a table's data file, the tool prints exactly one REPLACE statement for each row of the table (each live row, or with RecoveryData each row of the free lists), in file order, and each statement, read as MySQL reads it, gives every column of the table the value it had.", "quantifier": "all dictionaries, tables with columns of the readable types, rows, page layouts (both record formats), file names and option values", "why_tests_cant": "It composes dictionary reading, page walking, record decoding, value formatting and SQL quoting; tests exercise one table with one page.", "anchors": ["cmd/db-recovery/command.go:FromDataFile", "recovery/ibdata/parse.go:ParseDictPage", "recovery/ibdata/parse.go:ParseDataPage", "recovery/utils/utils.go:ParseData"]}
{"id": "C83", "title": "The listing of an undo page shows what the page holds", "statement": "For every 16384-byte undo page whose first log has a first record inside the page, ParseUndoPageHeader prints the 14 header fields at the offsets InnoDB gives them, in order, then the record's next offset and position, and then the id of the table the record belongs to, and nothing else.", "quantifier": "all pages, all header values, all undo numbers and table ids in [0,2^64)", "why_tests_cant": "the function needs a real undo page and nothing in the repository calls it; large identifiers do not occur in small test files", "anchors": ["recovery/ibdata/todo.go:ParseUndoPageHeader"]}
{"id": "C84", "title": "No undo page crashes the listing", "statement": "ParseUndoPageHeader returns normally on every 16384-byte page, including pages whose log start is zero.", "quantifier": "all 16384-byte pages", "why_tests_cant": "the crash depends on an unsigned subtraction wrapping for log starts below 38", "anchors": ["recovery/ibdata/todo.go:ParseUndoPageHeader"]}
{"id": "C85", "title": "Table structure recovery yields a statement", "statement": "When RecoveryTableStruct succeeds for a table the dictionary knows, the text it returns is a CREATE TABLE statement for it; a file that cannot be opened is reported as an error.", "quantifier": "all dictionaries, files and names", "why_tests_cant": "a test sees one table; the claim is about every table", "anchors": ["recovery/ibdata/todo.go:RecoveryTableStruct", "recovery/ibdata/todo.go:MakeCreateTableSql"]}
{"id": "C86", "title": "Dictionary look-ups by name return the named entry", "statement": "getColumnType returns the type of the first column with the name asked for, and 0 when there is none; getTableFromDict returns the table with the names asked for whenever only one has them, and an empty one when none has them.", "quantifier": "all column lists, dictionaries and names", "why_tests_cant": "order and duplicates of names are unbounded", "anchors": ["recovery/ibdata/todo.go:getColumnType", "recovery/ibdata/parse.go:getTableFromDict"]}
{"id": "C87", "title": "The redo command as a whole is faithful", "statement": "Given a system tablespace that stores a dictionary and log files of supported records, the redo command prints exactly one UPDATE per update of a requested table, in log order, and each statement, read back as SQL, sets the changed columns of the row with the recorded key to their old values.", "quantifier": "all dictionaries, logs, file lists and filter options", "why_tests_cant": "dictionaries, logs and values are unbounded; the claim joins dictionary reading, log reassembly, the record scan, value decoding and statement printing", "anchors": ["cmd/db-recovery/command.go:NewFromRedoFileCommand", "recovery/redo/parse.go:ParseRedoLogs", "recovery/redo/mlog.go:mlogUndoInsert", "recovery/redo/parse.go:makeSQL", "recovery/ibdata/parse.go:ParseDictPage"]}
{"id": "C88", "title": "An UPDATE for a table without a primary key identifies its row", "statement": "For every table without a primary key, the WHERE condition of the UPDATE printed for an undo record tells rows with different row ids apart.", "quantifier": "all dictionaries, tables without a primary key, undo records and surrounding log bytes", "why_tests_cant": "row ids and logs are unbounded", "anchors": ["recovery/redo/mlog.go:mlogUndoInsert", "recovery/redo/mlog.go:getPrimaryKey", "recovery/utils/utils.go:ParseData"]}
{"id": "C89", "title": "Dictionary tables of several pages are read completely and in key order", "statement": "Whatever leaf pages a dictionary table's tree consists of and wherever they lie in the system tablespace after the root, every row is read, pages above the leaves contribute nothing, and the columns of a table come out in their order.", "quantifier": "all dictionaries, trees, page orders and page contents", "why_tests_cant": "trees and their layout in the file are unbounded", "anchors": ["recovery/ibdata/parse.go:ParseDictPage", "recovery/ibdata/parse.go:getAllColumns", "recovery/ibdata/parse.go:checkFieldSize", "recovery/ibdata/parse.go:parsePage"]}
{"id": "C90", "title": "An index of an unknown table is reported", "statement": "If SYS_INDEXES holds a row whose table is not in SYS_TABLES, wherever it lies among the rows, each command tells the user so and prints no statement.", "quantifier": "all dictionaries, trees, positions of such rows, options and table or log files", "why_tests_cant": "fixture dictionaries are intact; the error must survive any number of later good rows", "anchors": ["recovery/ibdata/parse.go:getAllIndexes", "recovery/ibdata/parse.go:ParseDictPage", "cmd/db-recovery/command.go:NewFromDataFileCommand", "recovery/redo/parse.go:ParseDictPage"]}
{"id": "C91", "title": "Running the recovered UPDATEs gives the rows their former values", "statement": "After any history of changes to the tables, running the statements printed from the redo log, in the order in which they are printed, gives every row that stayed in its table the values it had before the first logged change.", "quantifier": "all dictionaries, histories, table contents and logs", "why_tests_cant": "one needs a server, and histories with several changes of one row; the tests only parse fixture logs", "anchors": ["cmd/db-recovery/command.go:NewFromRedoFileCommand", "recovery/redo/parse.go:ParseRedoLogs", "recovery/redo/mlog.go:mlogUndoInsert"]}
{"id": "C92", "title": "Running the recovered REPLACEs in an empty table gives its rows", "statement": "For every table of the dictionary and its data file, running the statements printed for its rows in an empty table of the same definition gives exactly these rows, in file order.", "quantifier": "all dictionaries, tables, data files and table contents", "why_tests_cant": "no server is run in the tests and table contents are unbounded", "anchors": ["cmd/db-recovery/command.go:NewFromDataFileCommand", "recovery/ibdata/parse.go:ParseDataPage", "recovery/ibdata/format.go:makeReplaceIntoStatement"]}
{"id": "C93", "title": "Running the statements for the deleted rows adds them and keeps the others", "statement": "Running the statements printed by RecoveryData in the table as it is now keeps every row of the table, and adds every deleted row in its last version.", "quantifier": "all dictionaries, tables, free lists and present table contents", "why_tests_cant": "needs a server and pages with several deleted versions of a row", "anchors": ["cmd/db-recovery/command.go:NewFromDataFileCommand", "recovery/ibdata/parse.go:parsePage", "recovery/ibdata/format.go:makeReplaceIntoStatement"]}
{"id": "C94", "title": "Rows marked as deleted count as deleted", "statement": "A record with the delete mark, not yet purged, is not printed by PrintData and is printed by RecoveryData.", "quantifier": "all dictionaries, tables, data files and marks", "why_tests_cant": "fixtures were taken after purge; marks can be on any record", "anchors": ["recovery/ibdata/parse.go:parseRecords", "recovery/ibdata/parse.go:parsePage", "recovery/ibdata/parse.go:ParseDataPage"]}
{"id": "C95", "title": "Only rows of the requested table are printed", "statement": "The rows printed for a table are those in the pages of its own clustered index; a page of another table in the same file (the system tablespace holds many tables) contributes nothing.", "quantifier": "all dictionaries, tables, data files and index ids on pages", "why_tests_cant": "fixtures have one table per file; which foreign pages can be parsed depends on their bytes", "anchors": ["recovery/ibdata/parse.go:ParseDataPage", "recovery/ibdata/parse.go:parsePage", "cmd/db-recovery/command.go:NewFromDataFileCommand"]}
{"id": "C96", "title": "NULL in a REPLACE statement is NULL", "statement": "A NULL column value of a recovered row is written so that MySQL reads the statement and the column as NULL, in columns of every type.", "quantifier": "all rows, column types, other column values and table names without backquotes", "why_tests_cant": "needs NULL in each column type combined with arbitrary other columns; the statement must be parsed, not compared with a golden file", "anchors": ["recovery/ibdata/format.go:makeReplaceIntoStatement"]}
{"id": "C97", "title": "A recovered UPDATE gives the old value back", "statement": "The UPDATE printed for an update undo record sets the changed column to the value it had before: the old bytes of a binary column, the old number of a BIT column, the old text or integer otherwise.", "quantifier": "all logs, dictionaries, update undo records changing one column, old values and keys", "why_tests_cant": "all byte strings and numbers in all positions of all logs", "anchors": ["recovery/redo/parse.go:makeSQL", "recovery/redo/parse.go:ParseRedoLogs", "recovery/utils/utils.go:ParseData"]}
{"id": "C98", "title": "Record status and low bits", "statement": "RecGetStatus returns the low three bits of the third byte before a record's origin and crashes exactly when there is none; UtAlignOffset returns the low bits of the first byte.", "quantifier": "all byte strings and offsets", "why_tests_cant": "all offsets, including those before the start and past the end", "anchors": ["recovery/utils/utils.go:RecGetStatus", "recovery/utils/utils.go:UtAlignOffset", "recovery/utils/utils.go:RecGetBitField1"]}
{"id": "C99", "title": "Fixed lengths by MySQL type", "statement": "GetFixedLengthByMySQLType returns the declared length for every MySQL type of fixed storage size and 0 for every type of variable size.", "quantifier": "all MySQL types of either kind and all lengths", "why_tests_cant": "all lengths for all types", "anchors": ["recovery/utils/utils.go:GetFixedLengthByMySQLType"]}
{"id": "C100", "title": "DECIMAL values", "statement": "For every DECIMAL(p,s) value, stored as MySQL stores it, the value recovered is the text of that number, and nothing else is printed.", "quantifier": "all precisions, scales, signs and digits; all following bytes", "why_tests_cant": "unboundedly many precisions and values; the claim that none is right needs all of them", "anchors": ["recovery/utils/utils.go:ParseData"]}
{"id": "C101", "title": "Fractions of seconds", "statement": "For TIME(n), DATETIME(n) and TIMESTAMP(n) columns with n from 1 to 6 the recovered value is the stored one, including its fraction.", "quantifier": "all times, numbers of digits and fractions; all following bytes", "why_tests_cant": "all fractions of all times, negative ones included", "anchors": ["recovery/utils/utils.go:ParseTime", "recovery/utils/utils.go:ParseDateTime", "recovery/utils/utils.go:ParseTimeStamp", "recovery/utils/utils.go:ParseData"]}
{"id": "C102", "title": "ENUM values put back", "statement": "Running the statement recovered for an ENUM value stores the same member again.", "quantifier": "all lists of members and all members", "why_tests_cant": "it depends on the names of all the members", "anchors": ["recovery/utils/utils.go:ParseData", "recovery/utils/utils.go:GetUintValue"]}
{"id": "C103", "title": "No value becomes NULL", "statement": "A stored value that is not NULL is never shown as NULL because of its column's type.", "quantifier": "all column types and all bytes", "why_tests_cant": "all type numbers with all contents", "anchors": ["recovery/utils/utils.go:ParseData"]}
{"id": "C104", "title": "Dictionary rows that make no sense", "statement": "A row of SYS_TABLES, SYS_COLUMNS, SYS_INDEXES or SYS_FIELDS with NULL or another kind of value where a number or a name belongs is skipped or reported; the other rows are loaded.", "quantifier": "all lists of rows with any values", "why_tests_cant": "any row among any number of others may be the bad one", "anchors": ["recovery/ibdata/parse.go:getAllTables", "recovery/ibdata/parse.go:getAllColumns", "recovery/ibdata/parse.go:getAllIndexes", "recovery/ibdata/parse.go:getAllFields"]}
{"id": "C105", "title": "The log is read in the order it was written", "statement": "The redo records are taken in the order of the log block numbers, also when the log has come round and its newest blocks lie before its oldest ones.", "quantifier": "all sets of log files and all positions of the newest block", "why_tests_cant": "the log files may have come round at any block", "anchors": ["recovery/redo/parse.go:ParseRedoLogs", "recovery/redo/parse.go:readRedoBlockHeader"]}
{"id": "C106", "title": "A damaged log block is not taken for the log", "statement": "A redo log block whose stored checksum is not that of its bytes, or lies before the last checkpoint, is not used; block headers other than the length matter to the result.", "quantifier": "all log files, all checksum functions and all damaged blocks", "why_tests_cant": "every block and every checksum value", "anchors": ["recovery/redo/parse.go:ParseRedoLogs", "recovery/redo/parse.go:readRedoBlockHeader", "recovery/redo/parse.go:readRedoLogFileCheckpoint"]}
{"id": "C107", "title": "A page with a wrong checksum is not used", "statement": "Rows are recovered from a page only if its stored checksum is that of its contents.", "quantifier": "all data files, all tables and all checksum functions", "why_tests_cant": "every page and every checksum value", "anchors": ["recovery/ibdata/parse.go:parseFile", "recovery/ibdata/parse.go:parseFilHeader", "recovery/ibdata/parse.go:ParseDataPage"]}
{"id": "C108", "title": "The size of a record", "statement": "The size computed for a record (its extra bytes and its data) is the number of bytes it takes in the page.", "quantifier": "all COMPACT and REDUNDANT records of all tables", "why_tests_cant": "all combinations of columns, NULLs and lengths", "anchors": ["recovery/utils/utils.go:RecOffsSize", "recovery/utils/utils.go:RecOffsExtraSize", "recovery/utils/utils.go:RecOffsDataSize", "recovery/ibdata/parse.go:parsePage"]}
{"id": "C109", "title": "Dropped tables are not tables", "statement": "A table whose row of SYS_TABLES is delete-marked is not in the dictionary; a table created again under its name is read with its own columns.", "quantifier": "all dictionaries and all sets of dropped tables", "why_tests_cant": "any subset of the tables may be dropped, and Go's map order differs from run to run", "anchors": ["recovery/ibdata/parse.go:getAllTables", "recovery/ibdata/parse.go:getTableColumnsFromDict", "recovery/ibdata/parse.go:ParseDictPage"]}
{"id": "C110", "title": "Recovered updates find their row by the whole key", "statement": "After the dictionary is read every column of a table's primary key is still among its columns, so that the WHERE of every recovered UPDATE shows the value of each.", "quantifier": "all dictionaries, tables with a composite key and logs", "why_tests_cant": "every pair of places in tables of any width", "anchors": ["recovery/ibdata/parse.go:moveColumns2First", "recovery/ibdata/parse.go:ParseDictPage", "recovery/redo/mlog.go:getColumnsByName"]}
{"id": "C111", "title": "A recovered UPDATE sets the columns that were changed", "statement": "For every update of a row the printed UPDATE statement assigns the old values to the very columns that the update changed, wherever the table's primary key stands among its columns.", "quantifier": "all dictionaries, tables with a primary key of any number of columns, logs and requests", "why_tests_cant": "tables of any width with the key in any place; logs of any length", "anchors": ["recovery/redo/mlog.go:getColumnByPos", "recovery/redo/mlog.go:mlogUndoInsert", "recovery/ibdata/parse.go:moveColumns2First"]}
{"id": "C112", "title": "Columns of which the key holds only a part are recovered whole", "statement": "If the primary key holds only the first bytes of a column (SYS_FIELDS gives their number), InnoDB stores the whole column again behind the key; every row of such a table is printed with the values of all its columns.", "quantifier": "all dictionaries, keys of columns and parts of columns, pages and rows", "why_tests_cant": "every combination of key parts, column counts and values", "anchors": ["recovery/ibdata/parse.go:getAllFields", "recovery/ibdata/parse.go:moveColumns2First", "recovery/ibdata/parse.go:ParseDataPage"]}
{"id": "C113", "title": "Virtual columns are not read from the records", "statement": "A virtual generated column, marked in the type word of SYS_COLUMNS, is in no record; no value is printed for it that was read from the page.", "quantifier": "all dictionaries, tables with a virtual column, pages, rows and bytes behind them", "why_tests_cant": "whatever bytes follow a record", "anchors": ["recovery/ibdata/parse.go:getAllColumns", "recovery/ibdata/parse.go:ParseDataPage", "recovery/ibdata/parse.go:parseRecords"]}
{"id": "C114", "title": "Tables are found and named by their own names", "statement": "A table whose database or table name has any characters, or that is partitioned, is found when it is asked for by the names it has, and the printed statements name it; the dictionary stores characters other than letters, digits and the underscore as @ and a code, and partitions with #P# behind the name.", "quantifier": "all names, stored forms of names, dictionaries, tables, rows, logs and updates", "why_tests_cant": "names of any characters and length", "anchors": ["recovery/ibdata/parse.go:getTableColumnsFromDict", "recovery/ibdata/parse.go:getAllTables", "cmd/db-recovery/command.go:FromDataFile", "cmd/db-recovery/command.go:FromRedoFile"]}
{"id": "C115", "title": "Instances with smaller pages are recovered", "statement": "The files of an instance with pages of 4096 or 8192 bytes (innodb_page_size) give its rows and updates like those of one with 16384.", "quantifier": "all system tablespaces with pages of 4096 or 8192 bytes, all table files, logs, names and options", "why_tests_cant": "the contents of whole instances", "anchors": ["recovery/ibdata/parse.go:parseFile", "recovery/ibdata/parse.go:ParseDictPage", "cmd/db-recovery/command.go:FromDataFile", "cmd/db-recovery/command.go:FromRedoFile"]}
{"id": "C116", "title": "Instances with larger pages are recovered", "statement": "The files of an instance with pages of 32768 or 65536 bytes (innodb_page_size) give all rows of a table, live or deleted, wherever in its pages their records lie.", "quantifier": "all dictionaries and tables, all leaves of two or four blocks with any number of records anywhere in them, both record formats", "why_tests_cant": "pages with any number of records in any places and order", "anchors": ["recovery/ibdata/parse.go:parseFile", "recovery/ibdata/parse.go:parsePage", "recovery/ibdata/parse.go:ParseDataPage", "cmd/db-recovery/command.go:FromDataFile"]}
{"id": "C117", "title": "Texts of columns of every character set are recovered", "statement": "For a text column of any character set, the printed literal, read by a client with a given character set, is the text that the column held; and no column's text becomes part of the statement outside of quotes.", "quantifier": "all character sets of columns and clients (single-byte sets extending ASCII, UTF-8, UCS-2, sets with two-byte characters), all texts, dictionaries, tables, rows, page layouts", "why_tests_cant": "all texts in all pairs of character sets", "anchors": ["recovery/utils/utils.go:EscapeValue", "recovery/utils/utils.go:ParseData", "recovery/ibdata/format.go:makeReplaceIntoStatement", "cmd/db-recovery/command.go:FromDataFile"]}
{"id": "C118", "title": "The text of the statements printed from data files", "statement": "For every row of a data file the tool prints, byte for byte, replace into `db`.`table` values (v1,...,vn); with one value per column of the table, in order: NULL, unhex(NULL), a bit literal of one digit, unhex('...') with the hexadecimal bytes, or the quoted value in which exactly the bytes 0, 10, 13, 26, \", ' and \\ are written as escape sequences.", "quantifier": "all dictionaries, tables without a primary key or with one in front (as in C82), rows, page layouts (both record formats), file names and options", "why_tests_cant": "It composes dictionary reading, page walking, record decoding, formatting and quoting, for all values.", "anchors": ["recovery/ibdata/format.go:makeReplaceIntoStatement", "recovery/utils/utils.go:EscapeValue", "cmd/db-recovery/command.go:FromDataFile"]}
{"id": "C119", "title": "SET values can be put back", "statement": "The text printed for a value of a SET column, given to MySQL as a value of that column, denotes the same set of members.", "quantifier": "all lists of 1 to 64 distinct members, all values", "why_tests_cant": "all member lists and all of up to 2^64 values", "anchors": ["recovery/utils/utils.go:ParseData", "recovery/utils/utils.go:GetUintValue"]}
{"id": "C120", "title": "DATETIME, TIME and TIMESTAMP columns of tables made before MySQL 5.6", "statement": "The text printed for a value of a DATETIME, TIME or TIMESTAMP column in the storage format before MySQL 5.6 is read by MySQL as the same date and time.", "quantifier": "all dates, times and timestamps in the ranges of the types", "why_tests_cant": "all values of the three types", "anchors": ["recovery/utils/utils.go:ParseData", "recovery/utils/utils.go:GetIntValue", "recovery/utils/utils.go:GetUintValue"]}
{"id": "C121", "title": "Encrypted and page-compressed data files", "statement": "Of a table whose pages are encrypted or compressed on disk the tool prints either the rows or an error; pages that are neither are read as if the others were not there.", "quantifier": "all dictionaries, tables, rows, page layouts; all contents of the encrypted or compressed pages", "why_tests_cant": "all contents of the sealed pages and all mixtures of pages", "anchors": ["recovery/ibdata/parse.go:ParseDataPage", "cmd/db-recovery/command.go:FromDataFile"]}
{"id": "C122", "title": "One line for each statement", "statement": "Every line the commands print is one line: it has no NUL, line feed, carriage return or Ctrl-Z in it, whatever names and values are in the files, so a program that cuts the output at its line ends gets the statements.", "quantifier": "all files, options, dictionaries, rows, log contents", "why_tests_cant": "all contents of files, among them malformed ones", "anchors": ["recovery/utils/utils.go:EscapeValue", "recovery/ibdata/format.go:makeReplaceIntoStatement", "cmd/db-recovery/command.go:FromDataFile", "cmd/db-recovery/command.go:FromRedoFile"]}
{"id": "C123", "title": "Pages are recovered independently of each other", "statement": "Every page of a data file has rows of its own: given any selection of the pages of the file (with different page numbers), in any order, the tool prints the rows of the selected pages in that order, so a damaged file can be recovered from the pages that are left.", "quantifier": "all tables the tool can read, page layouts, rows; all selections and orders of the pages", "why_tests_cant": "all subsets and orders of pages of all files", "anchors": ["recovery/ibdata/parse.go:ParseDataPage", "cmd/db-recovery/command.go:FromDataFile"]}
{"id": "C124", "title": "Statements for tables with JSON columns are accepted", "statement": "MySQL accepts the printed statement of every row of a table with JSON columns: for each such column the statement holds NULL or a character string that is a JSON text.", "quantifier": "all dictionaries, tables with JSON columns, pages and rows; any notion of JSON text", "why_tests_cant": "all documents in all rows; acceptance is decided by MySQL, not by the tool", "anchors": ["recovery/utils/utils.go:ParseData", "recovery/ibdata/format.go:makeReplaceIntoStatement", "cmd/db-recovery/command.go:FromDataFile"]}
{"id": "C125", "title": "Commands run with the options given", "statement": "A command line with the words of a command and options before, between and behind them, written --name=value or --name value, runs that command with the last value given for each option; without a required option it does not run.", "quantifier": "all command lines made of the command's words and its options, all values", "why_tests_cant": "all places, spellings, repetitions and values of options", "anchors": ["cmd/db-recovery/main.go:main", "cmd/db-recovery/command.go:NewRootCommand", "cmd/db-recovery/command.go:NewFromDataFileCommand", "cmd/db-recovery/command.go:NewFromRedoFileCommand", "cmd/db-recovery/command.go:FromDataFile"]}
{"id": "C126", "title": "The exit status tells failure", "statement": "The program exits with status 0 only if it could read what it was asked to; if a file cannot be opened, or the command crashes, the status is another.", "quantifier": "all command lines that run a command, all file systems", "why_tests_cant": "all command lines and files", "anchors": ["cmd/db-recovery/main.go:main", "cmd/db-recovery/command.go:FromDataFile", "cmd/db-recovery/command.go:FromRedoFile"]}
{"id": "C127", "title": "Statements fit the table as MySQL knows it", "statement": "MySQL takes every printed REPLACE: it has one value for each column of MySQL's own definition of the table, and none for a generated column.", "quantifier": "all dictionaries, tables, pages and rows; all definitions with generated columns, and columns that InnoDB added for FULLTEXT indexes", "why_tests_cant": "all tables; what MySQL takes is decided by its own definition of the table, which the tool never sees", "anchors": ["recovery/ibdata/format.go:makeReplaceIntoStatement", "recovery/ibdata/parse.go:getAllColumns", "cmd/db-recovery/command.go:FromDataFile"]}
{"id": "C128", "title": "Rows of unfinished transactions are not printed", "statement": "The statements printed for a table are those of the rows whose transactions committed; rows written by a transaction that was still open when the server stopped are left out.", "quantifier": "all dictionaries, tables, pages and rows; all sets of committed transactions", "why_tests_cant": "all files, and all ways the transactions that wrote the rows may have ended", "anchors": ["recovery/ibdata/parse.go:ParseDataPage", "recovery/ibdata/format.go:makeReplaceIntoStatement", "cmd/db-recovery/command.go:FromDataFile"]}
{"id": "C129", "title": "Tables clustered on a UNIQUE key", "statement": "A table without PRIMARY KEY whose clustered index is a UNIQUE key of NOT NULL columns is printed like any other: one statement with the right values for each row.", "quantifier": "all dictionaries, tables, pages and rows of such tables", "why_tests_cant": "all such tables and rows", "anchors": ["recovery/ibdata/parse.go:movePrimaryKeyFirst", "recovery/ibdata/parse.go:addInternalColumns", "recovery/ibdata/parse.go:ibRecInitOffsetsNew", "cmd/db-recovery/command.go:FromDataFile"]}
{"id": "C130", "title": "Updates of tables clustered on a UNIQUE key", "statement": "An update of a table without PRIMARY KEY, clustered on a UNIQUE key of NOT NULL columns, is printed as a statement that restores the old row, and the log behind it is read on from the next record.", "quantifier": "all dictionaries, tables and log files", "why_tests_cant": "all log files and tables", "anchors": ["recovery/redo/mlog.go:mlogUndoInsert", "recovery/redo/mlog.go:getPrimaryKey", "recovery/redo/mlog.go:getColumnByPos", "recovery/redo/parse.go:makeSQL", "cmd/db-recovery/command.go:FromRedoFile"]}
{"id": "C131", "title": "Rows put back cost no other rows", "statement": "Running the statements printed for the deleted rows of a table removes no row of the table that has another primary key.", "quantifier": "all tables, deleted and live rows, unique keys and collations", "why_tests_cant": "all rows, sets of unique keys and collations", "anchors": ["recovery/ibdata/format.go:makeReplaceIntoStatement", "recovery/ibdata/parse.go:ParseDataPage", "cmd/db-recovery/command.go:FromDataFile"]}
{"id": "C132", "title": "No file can put SQL of its own into the output of the data commands", "statement": "Whatever the dictionary file and the table file hold, outside quoted text a line printed by the data commands is nothing but `replace into ``.`` values (…);` with a list of fixed shapes of values, apart from the message on DECIMAL values and the final error line.", "quantifier": "all files (any bytes), both data commands, all names without backquote", "why_tests_cant": "all files, well formed or not", "anchors": ["recovery/utils/utils.go:EscapeValue", "recovery/ibdata/format.go:makeReplaceIntoStatement", "recovery/ibdata/parse.go:ParseDataPage", "cmd/db-recovery/command.go:FromDataFile"]}
{"id": "C133", "title": "Statements for servers in SQL mode NO_BACKSLASH_ESCAPES", "statement": "A server in SQL mode NO_BACKSLASH_ESCAPES reads each printed statement as the row it was printed for, and as nothing else.", "quantifier": "all tables, pages and rows", "why_tests_cant": "all texts", "anchors": ["recovery/utils/utils.go:EscapeValue", "recovery/ibdata/format.go:makeReplaceIntoStatement", "cmd/db-recovery/command.go:FromDataFile"]}
{"id": "C134", "title": "No log can put SQL of its own into the output of the redo command", "statement": "Whatever the log files and the dictionary hold, outside quoted text a line printed by the redo command is nothing but one UPDATE statement of fixed shape (`update ``.`` set … where …;`), apart from its two messages.", "quantifier": "all log files (any bytes), all dictionaries, all requested names", "why_tests_cant": "all log files, well formed or not", "anchors": ["recovery/redo/mlog.go:mlogUndoInsert", "recovery/redo/parse.go:makeSQL", "recovery/redo/parse.go:ParseRedoLogs", "cmd/db-recovery/command.go:FromRedoFile"]}
{"id": "C135", "title": "Updates of tables with a DATETIME in the primary key are recovered", "statement": "For every log and every update in it of a requested table whose primary key holds a DATETIME or BIT column, the statement that restores the old values is printed and names the row by its key.", "quantifier": "all logs, all positions of the update in the log, all keys (any columns before and after), all moments", "why_tests_cant": "all logs and keys", "anchors": ["recovery/redo/mlog.go:mlogUndoInsert", "recovery/utils/utils.go:ParseData", "recovery/redo/parse.go:ParseRedoLogs"]}
{"id": "C136", "title": "REDUNDANT rows with a column stored outside the record are printed", "statement": "Of a column that a REDUNDANT record stores outside, the part held in the record is printed (as for COMPACT records, C51); every other column of the row is exact, and no other row is affected.", "quantifier": "all REDUNDANT pages, records and tables; any column stored outside, any columns before and behind it, any stored bytes", "why_tests_cant": "all pages and records", "anchors": ["recovery/ibdata/parse.go:ibRecInitOffsetsOld", "recovery/ibdata/parse.go:parsePage", "recovery/ibdata/parse.go:parseRecords"]}
{"id": "C137", "title": "GEOMETRY columns are recovered", "statement": "For every table with columns of type GEOMETRY, POINT, POLYGON and so on, the statements recovered hold each such column's stored value, and every other column of the row is exact.", "quantifier": "all system and data files, tables and records, all GEOMETRY values, all positions of the column", "why_tests_cant": "all files and records", "anchors": ["recovery/utils/utils.go:ParseData", "recovery/utils/utils.go:GetFixedLength", "recovery/ibdata/parse.go:getAllColumns", "recovery/ibdata/format.go:makeReplaceIntoStatement", "cmd/db-recovery/command.go:FromDataFile"]}
{"id": "C138", "title": "CHAR columns are loaded with their values", "statement": "For every row of a data file and every CHAR column of it, the value MySQL takes from the printed statement (blanks at the end of a string given for a CHAR count for nothing) is the value that the column held, for character sets with one or several bytes per character.", "quantifier": "all data files of either record format, all tables, live and deleted rows, all CHAR columns, lengths and values", "why_tests_cant": "all files, records and texts", "anchors": ["recovery/utils/utils.go:ParseData", "recovery/utils/utils.go:GetFixedLength", "recovery/ibdata/parse.go:getAllColumns", "recovery/ibdata/format.go:makeReplaceIntoStatement"]}
