(** Model of recovery/ibdata (parse.go, format.go, structure.go, const.go).

    Slices the Go code mutates in place (FieldValue and IsBinary of the column
    descriptors) are threaded as state.  Header fields the code only logs are
    read (so that a panic would show) where they are part of a decoded header,
    and otherwise dropped. *)
From Verif Require Import GoBase Utils.
Local Open Scope list_scope.

(** structure.go:28-39 *)
Record Column : Type := mkColumn {
  c_name : bytes;        (* FieldName *)
  c_type : Z;            (* FieldType *)
  c_mysql : Z;           (* MySQLType *)
  c_pos : Z;             (* FieldPos *)
  c_len : Z;             (* FieldLen *)
  c_value : gval;        (* FieldValue *)
  c_null : bool;         (* IsNUll *)
  c_binary : bool;       (* IsBinary *)
  c_unsigned : bool;     (* IsUnsigned *)
  c_table : Z            (* TableID *)
}.

(** structure.go:51-56 (ColumnValue is only used by the redo package) *)
Record Field : Type := mkField { fd_pos : Z; fd_name : bytes }.

(** structure.go:42-48 *)
Record Index : Type := mkIndex {
  ix_id : Z; ix_name : bytes; ix_nfields : Z; ix_type : Z; ix_fields : list Field }.

(** structure.go:18-25; Indexes nil and empty behave alike *)
Record Table : Type := mkTable {
  t_db : bytes; t_name : bytes; t_columns : list Column;
  t_indexes : gomap Index; t_nullcount : Z; t_space : Z }.

(** structure.go:70-79 *)
Record FilHeader : Type := mkFil {
  fil_space : Z; fil_offset : Z; fil_prev : Z; fil_next : Z; fil_lsn : Z;
  fil_type : Z; fil_flush_lsn : Z; fil_arch : Z }.

(** structure.go:85-100 (the two segment fields are never set) *)
Record PageHeader : Type := mkPH {
  ph_slots : Z; ph_heap_top : Z; ph_n_heap : Z; ph_free : Z; ph_garbage : Z;
  ph_last_insert : Z; ph_direction : Z; ph_n_direction : Z; ph_n_recs : Z;
  ph_max_trx_id : Z; ph_level : Z; ph_index_id : Z }.

(** structure.go:106-117 *)
Record SysHeader : Type := mkSys {
  sp_row_id : Z; sp_table_id : Z; sp_index_id : Z; sp_max_space : Z; sp_mix_low : Z;
  sp_tables : Z; sp_table_ids : Z; sp_columns : Z; sp_indexes : Z; sp_fields : Z }.

(** structure.go:120-133; [pg_index_id] is ph.PAGE_INDEX_ID as set by
    parseFilHeader, the rest of ph and sp is produced by the header parsers. *)
Record Page : Type := mkPage {
  pg_fil : FilHeader; pg_index_id : Z; pg_orig : bytes; pg_data : bytes }.

(** const.go:20, 25, 29-35 *)
Definition DefaultPageSize : nat := Z.to_nat 16384.
Definition FilPageIndex := 17855.
Definition SysTablesIdx := 1.
Definition SysColumnsIdx := 2.
Definition SysIndexesIdx := 3.
Definition SysFieldsIdx := 4.
Definition SystemPageIdx := 7.

(** parse.go:248-297; the error is always nil.  OriginalData (236) is set here. *)
Definition parseFilHeader (data : bytes) : res Page :=
  d <- slice_from data 66 ;; indexID <- MatchReadFrom8 d ;;
  spaceID <- MatchReadFrom4 data ;;
  d <- slice_from data 4 ;; pageOffset <- MatchReadFrom4 d ;;
  d <- slice_from data 8 ;; pagePrev <- MatchReadFrom4 d ;;
  d <- slice_from data 12 ;; pageNext <- MatchReadFrom4 d ;;
  d <- slice_from data 16 ;; pageLsn <- MatchReadFrom8 d ;;
  d <- slice_from data 24 ;; pageType <- MatchReadFrom2 d ;;
  d <- slice_from data 26 ;; flush <- MatchReadFrom8 d ;;
  d <- slice_from data 34 ;; arch <- MatchReadFrom4 d ;;
  d <- slice_from data 38 ;;
  Ok (mkPage (mkFil spaceID pageOffset pagePrev pageNext pageLsn pageType flush arch)
             indexID data d).

(** parse.go:202-246.  [None] is a failing os.Open.  The error inside the loop
    shadows the outer one, which is nil.  pageMap is the list of page numbers
    seen.  The loop makes one file.Read per event, plus one for end of file. *)
Fixpoint parseFile_loop (f : list ioev) (pageMap : list Z) : res (list Page) :=
  match f with
  | [] => Ok []
  | ev :: f' =>
    match fst (ReadNextBytes [ev] DefaultPageSize) with
    | None => Ok []
    | Some data =>
      page <- parseFilHeader data ;;
      if existsb (Z.eqb (fil_offset (pg_fil page))) pageMap
      then parseFile_loop f' pageMap
      else
        rest <- parseFile_loop f' (fil_offset (pg_fil page) :: pageMap) ;;
        Ok (page :: rest)
    end
  end.
Definition err_open : bytes := bs "open: no such file or directory".
Definition parseFile (file : option (list ioev)) : res (list Page * option bytes) :=
  match file with
  | None => Ok ([], Some err_open)
  | Some f => pages <- parseFile_loop f [] ;; Ok (pages, None)
  end.

(** parse.go:625-681; the error is always nil *)
Definition parseSysPageHeader (page : Page) : res SysHeader :=
  let d := pg_data page in
  row_id <- MatchReadFrom8 d ;;
  d1 <- slice_from d 8 ;; table_id <- MatchReadFrom8 d1 ;;
  d1 <- slice_from d 16 ;; index_id <- MatchReadFrom8 d1 ;;
  d1 <- slice_from d 24 ;; max_space <- MatchReadFrom4 d1 ;;
  d1 <- slice_from d 28 ;; mix_low <- MatchReadFrom4 d1 ;;
  d1 <- slice_from d 32 ;; tables <- MatchReadFrom4 d1 ;;
  d1 <- slice_from d 36 ;; table_ids <- MatchReadFrom4 d1 ;;
  d1 <- slice_from d 40 ;; columns <- MatchReadFrom4 d1 ;;
  d1 <- slice_from d 44 ;; indexes <- MatchReadFrom4 d1 ;;
  d1 <- slice_from d 48 ;; fields <- MatchReadFrom4 d1 ;;
  Ok (mkSys row_id table_id index_id max_space mix_low tables table_ids columns indexes fields).

(** parse.go:53 (the zero value of systemPage.sp when page 7 is absent) *)
Definition zeroSys : SysHeader := mkSys 0 0 0 0 0 0 0 0 0 0.

(** parse.go:721-780.  Keeps PAGE_INDEX_ID as parseFilHeader set it; the two
    bytes read at 771 are only logged, and page.data becomes d[30:]. *)
Definition parsePageHeader (page : Page) : res PageHeader :=
  let d := pg_data page in
  slots <- MatchReadFrom2 d ;;
  d1 <- slice_from d 2 ;; heap_top <- MatchReadFrom2 d1 ;;
  d1 <- slice_from d 4 ;; n_heap <- MatchReadFrom2 d1 ;;
  d1 <- slice_from d 6 ;; free <- MatchReadFrom2 d1 ;;
  d1 <- slice_from d 8 ;; garbage <- MatchReadFrom2 d1 ;;
  d1 <- slice_from d 10 ;; last_insert <- MatchReadFrom2 d1 ;;
  d1 <- slice_from d 12 ;; direction <- MatchReadFrom2 d1 ;;
  d1 <- slice_from d 14 ;; n_direction <- MatchReadFrom2 d1 ;;
  d1 <- slice_from d 16 ;; n_recs <- MatchReadFrom2 d1 ;;
  d1 <- slice_from d 18 ;; max_trx <- MatchReadFrom8 d1 ;;
  d1 <- slice_from d 26 ;; level <- MatchReadFrom2 d1 ;;
  d1 <- slice_from d 28 ;; _ <- MatchReadFrom2 d1 ;;
  _ <- slice_from d 30 ;;
  Ok (mkPH slots heap_top n_heap free garbage last_insert direction n_direction
           n_recs max_trx level (pg_index_id page)).

(** Fixed length of a column (the call GetFixedLength(FieldType, FieldLen)
    made at parse.go:945, 1031, 1037, 1159, 1191) *)
Definition col_fixed (c : Column) : Z := GetFixedLength (c_type c) (c_len c).

(** parse.go:1085-1097: the loop over one-byte end offsets *)
Fixpoint offsetsOld1 (n : nat) (i : Z) (d : bytes) (offset : Z) (offsets : list Z) : res (list Z) :=
  match n with
  | O => Ok offsets
  | S n' =>
    offs <- Rec1GetFieldEndInfo d offset i ;;
    let offs := if Z.land offs 128 =? 0 then offs
                else Z.lor (Z.ldiff offs 128) (2 ^ 31) in
    let offs := Z.land offs 65535 in
    offsets <- set_index offsets (3 + i) offs ;;
    offsetsOld1 n' (i + 1) d offset offsets
  end.

(** parse.go:1102-1120: the loop over two-byte end offsets *)
Fixpoint offsetsOld2 (n : nat) (i : Z) (d : bytes) (offset : Z) (offsets : list Z) : res (list Z) :=
  match n with
  | O => Ok offsets
  | S n' =>
    offs <- Rec2GetFieldEndInfo d offset i ;;
    let offs := if Z.land offs 32768 =? 0 then offs
                else Z.lor (Z.ldiff offs 32768) (2 ^ 31) in
    let offs := if Z.land offs 16384 =? 0 then offs
                else Z.lor (Z.ldiff offs 32768) (2 ^ 30) in
    let offs := Z.land offs 65535 in
    offsets <- set_index offsets (3 + i) offs ;;
    offsetsOld2 n' (i + 1) d offset offsets
  end.

(** parse.go:1071-1122.  [offset] also stands for len(d)-len(o), o being
    d[offset:] at the only call site (872). *)
Definition ibRecInitOffsetsOld (d : bytes) (offset : Z) (offsets : list Z) (fieldNum : nat)
  : res (list Z) :=
  offsets <- set_index offsets 2 0 ;;
  offsets <- set_index offsets 1 (Z.of_nat fieldNum) ;;
  num <- RecGet1byteOffsFlag d offset ;;
  if negb (num =? 0) then
    offsets <- set_index offsets 2 (6 + Z.of_nat fieldNum) ;;
    offsetsOld1 fieldNum 0 d offset offsets
  else
    offsets <- set_index offsets 2 (6 + 2 * Z.of_nat fieldNum) ;;
    offsetsOld2 fieldNum 0 d offset offsets.

(** parse.go:1139-1197: one column of the loop.  The slices nulls and lens are
    represented by their start positions in d: every cut the code makes,
    d[(len(d)-len(x)-1):], moves the start one byte down.  State: (nulls,
    lens, offs, nullMask); result: the entry stored and the new state. *)
Definition offsetsNew_col (d : bytes) (col : Column) (st : Z * Z * Z * Z)
  : res (Z * (Z * Z * Z * Z)) :=
  let '(nulls, lens, offs, nullMask) := st in
  nr <- (if c_null col then
           nm <- (if nullMask mod 256 =? 0
                  then _ <- slice_from d (nulls - 1) ;; Ok (nulls - 1, 1)
                  else Ok (nulls, nullMask)) ;;
           let '(nulls, nullMask) := nm in
           b <- index d nulls ;;
           if negb (Z.land b (nullMask mod 256) =? 0)
           then Ok (true, nulls, nullMask * 2)
           else Ok (false, nulls, nullMask * 2)
         else Ok (false, nulls, nullMask)) ;;
  let '(isnull, nulls, nullMask) := nr in
  if isnull : bool then
    Ok (Z.lor offs (2 ^ 31), (nulls, lens, Z.land offs 65535, nullMask))
  else if col_fixed col =? 0 then
    length <- index d lens ;;
    _ <- slice_from d (lens - 1) ;;
    let lens := lens - 1 in
    if ((c_len col >? 255) || (c_type col =? DATA_BLOB)) && negb (Z.land length 128 =? 0) then
      TempLength <- index d lens ;;
      _ <- slice_from d (lens - 1) ;;
      let lens := lens - 1 in
      let length := Z.lor (Z.shiftl length 8) TempLength in
      let offs := u64 (offs + Z.land length 16383) in
      let length := if negb (Z.land length 16384 =? 0) then Z.lor offs (2 ^ 30) else offs in
      Ok (length, (nulls, lens, Z.land offs 65535, nullMask))
    else
      let offs := u64 (offs + length) in
      Ok (offs, (nulls, lens, Z.land offs 65535, nullMask))
  else
    let offs := u64 (offs + col_fixed col) in
    Ok (offs, (nulls, lens, Z.land offs 65535, nullMask)).

Fixpoint offsetsNew_loop (cols : list Column) (i : Z) (d : bytes) (st : Z * Z * Z * Z)
    (offsets : list Z) : res (list Z) :=
  match cols with
  | [] => Ok offsets
  | col :: cols' =>
    '(length, st) <- offsetsNew_col d col st ;;
    offsets <- set_index offsets (3 + i) length ;;
    offsetsNew_loop cols' (i + 1) d st offsets
  end.

(** parse.go:1126-1199; always returns true.  NullCount is an int, never
    negative, so / is exact division rounding down. *)
Definition ibRecInitOffsetsNew (d : bytes) (offset : Z) (offsets : list Z) (table : Table)
  : res (list Z) :=
  offsets <- set_index offsets 2 0 ;;
  offsets <- set_index offsets 1 (len (t_columns table)) ;;
  _ <- slice_from d (offset - 6) ;;
  let nulls := offset - 6 in
  _ <- slice_from d (nulls - (t_nullcount table + 7) / 8) ;;
  let lens := nulls - (t_nullcount table + 7) / 8 in
  offsetsNew_loop (t_columns table) 0 d (nulls, lens, 0, 1) offsets.

(** parse.go:1029-1045 *)
Fixpoint checkFieldSize (offsets : list Z) (i : Z) (columns : list Column) : res bool :=
  match columns with
  | [] => Ok true
  | c :: cs =>
    if negb (col_fixed c =? 0) then
      dataLen <- RecOffsNthSize offsets i ;;
      if (dataLen =? 0) && c_null c then checkFieldSize offsets (i + 1) cs
      else if negb (c_len c =? 0) && negb (dataLen =? col_fixed c) then Ok false
      else checkFieldSize offsets (i + 1) cs
    else checkFieldSize offsets (i + 1) cs
  end.

(** parse.go:938, 951: storing into columns[i] *)
Definition set_value (c : Column) (v : gval) (isbin : bool) : Column :=
  mkColumn (c_name c) (c_type c) (c_mysql c) (c_pos c) (c_len c) v
           (c_null c) isbin (c_unsigned c) (c_table c).

(** parse.go:933-952: one column.  The new FieldValue and IsBinary of column i
    from its record; the error of ParseData is always nil. *)
Definition parseField (rt : runtime) (o : bytes) (offsets : list Z) (i : Z) (c : Column) : W Column :=
  '(data, fieldLen) <-w wlift (RecGetNthField o offsets i) ;;
  if len data <? fieldLen then
    if fieldLen =? 4294967295 then wret (set_value c (VStr (bs "NULL")) (c_binary c))
    else wret c
  else
    '(value, isbin) <-w ParseData rt (c_type c) (c_mysql c) data fieldLen
        (i64 (col_fixed c)) (c_unsigned c) (c_binary c) ;;
    wret (set_value c value isbin).

Fixpoint parseFields (rt : runtime) (o : bytes) (offsets : list Z) (i : Z) (columns : list Column)
  : W (list Column) :=
  match columns with
  | [] => wret []
  | c :: cs =>
    c' <-w parseField rt o offsets i c ;;
    cs' <-w parseFields rt o offsets (i + 1) cs ;;
    wret (c' :: cs')
  end.

(** parse.go:930-958.  The row returned is a copy of the updated columns, so
    one list stands for both. *)
Definition parseRecords (rt : runtime) (o : bytes) (offsets : list Z) (columns : list Column)
  : W (list Column) :=
  cs <-w parseFields rt o offsets 0 columns ;;
  _ <-w wlift (RecOffsDataSize offsets) ;;
  wret cs.

(** parse.go:864-897: decode the record at [offset]; None where the code
    breaks out of the loop. *)
Definition parsePage_record (rt : runtime) (tm : gomap Table) (data : bytes) (offset : Z)
    (columns : list Column) : W (option (list Column)) :=
  let offsets := zeros (List.length columns * 2) in
  origin <-w wlift (slice_from data offset) ;;
  compact <-w wlift (PageIsCompact data) ;;
  oo <-w wlift (if compact =? 0 then
                  os <- ibRecInitOffsetsOld data offset offsets (List.length columns) ;; Ok (Some os)
                else
                  c0 <- index columns 0 ;;
                  match mget tm (c_table c0) with
                  | None => Ok None
                  | Some table => os <- ibRecInitOffsetsNew data offset offsets table ;; Ok (Some os)
                  end) ;;
  match oo with
  | None => wret None
  | Some offsets =>
    ok <-w wlift (checkFieldSize offsets 0 columns) ;;
    if ok : bool then
      c <-w parseRecords rt origin offsets columns ;;
      _ <-w wlift (RecOffsSize offsets) ;;
      wret (Some c)
    else wret None
  end.

(** parse.go:900-917: the offset of the next record; None at the end of the
    list (b = 0) *)
Definition next_offset (data : bytes) (offset : Z) : res (option Z) :=
  d <- slice_from data (u64 (offset - 2)) ;;
  b <- MatchReadFrom2 d ;;
  if b =? 0 then Ok None
  else
    let b := if b >? 32768 then u64 (b - 65536) else b in
    compact <- PageIsCompact data ;;
    if negb (compact =? 0) then Ok (Some (u64 (offset + b))) else Ok (Some b).

(** parse.go:859-924: the loop.  Returns the rows and the state of the column
    descriptors. *)
Fixpoint parsePage_loop (fuel : nat) (rt : runtime) (tm : gomap Table) (data : bytes)
    (supremum offset : Z) (columns : list Column) : W (list (list Column) * list Column) :=
  match fuel with
  | O => wlift NoFuel
  | S f =>
    if (offset <? 16384 - 6) && negb (offset =? supremum) then
      r <-w parsePage_record rt tm data offset columns ;;
      match r with
      | None => wret ([], columns)
      | Some c =>
        n <-w wlift (next_offset data offset) ;;
        match n with
        | None => wret ([c], c)
        | Some offset' =>
          '(rows, columns') <-w parsePage_loop f rt tm data supremum offset' c ;;
          wret (c :: rows, columns')
        end
      end
    else
      _ <-w wlift (d <- slice_from data 62 ;; MatchReadFrom2 d) ;;
      wret ([], columns)
  end.

(** parse.go:793-926.  The parameter pos has no effect and is dropped. *)
Definition parsePage (fuel : nat) (rt : runtime) (tm : gomap Table) (data : bytes)
    (columns : list Column) (isRecovery : bool) (pageFree : Z)
  : W (list (list Column) * list Column) :=
  compact <-w wlift (PageIsCompact data) ;;
  let infimum := if compact =? 0 then 38 + 36 + 2 * 10 + 1 + 6 else 38 + 36 + 2 * 10 + 5 in
  let supremum := if compact =? 0 then 38 + 36 + 2 * 10 + 2 + 2 * 6 + 8
                  else 38 + 36 + 2 * 10 + 2 * 5 + 8 in
  b <-w wlift (d <- slice_from data (infimum - 2) ;; MatchReadFrom2 d) ;;
  let offset := if isRecovery then pageFree
                else if compact =? 0 then b else infimum + b in
  parsePage_loop fuel rt tm data supremum offset columns.

(** format.go:24-26 *)
Definition internal_name (n : bytes) : bool :=
  beq n (bs "DB_ROW_ID") || beq n (bs "DB_TRX_ID") || beq n (bs "DB_ROLL_PTR").

(** format.go:44 *)
Definition is_null_value (v : gval) : bool :=
  match v with
  | VNil => true
  | VStr s => beq s (bs "NULL")
  | _ => false
  end.

(** format.go:36-56: the text of one column *)
Definition column_text (rt : runtime) (column : Column) : bytes :=
  (if c_mysql column =? MYSQL_TYPE_BIT then bs "b" else [])
  ++ (if c_binary column then bs "unhex(" else [])
  ++ (if negb (is_null_value (c_value column))
      then bs "'" ++ EscapeValue (fmt_v rt (c_value column)) ++ bs "'"
      else bs "NULL")
  ++ (if c_binary column then bs ")" else []).

(** format.go:21-57: the loop over the columns *)
Fixpoint columns_text (rt : runtime) (firstCol : bool) (columns : list Column) : bytes :=
  match columns with
  | [] => []
  | c :: cs =>
    if internal_name (c_name c) then columns_text rt firstCol cs
    else (if firstCol then [] else bs ",") ++ column_text rt c ++ columns_text rt false cs
  end.

(** format.go:18-60: one statement *)
Definition replace_statement (rt : runtime) (table database : bytes) (columns : list Column) : bytes :=
  bs "replace into `" ++ database ++ bs "`.`" ++ table ++ bs "` values ("
  ++ columns_text rt true columns ++ bs ");".

(** format.go:11-68 *)
Definition makeReplaceIntoStatement (rt : runtime) (AllColumns : list (list Column))
    (table database : bytes) : W unit :=
  (map (replace_statement rt table database) AllColumns, Ok tt).

(** parse.go:163-185: is the page skipped or parsed *)
Definition page_selected (page : Page) (ph : PageHeader) (isRecovery : bool) : bool :=
  let skipped :=
    isRecovery &&
    (((ph_n_recs ph =? 0) && (ph_free ph =? 0))
     || ((ph_free ph >? 0) && (ph_garbage ph =? 0))
     || ((ph_free ph =? 0) && (ph_garbage ph =? 0))
     || (ph_free ph >? 16384)) in
  negb skipped
  && (fil_type (pg_fil page) =? FilPageIndex) && (ph_level ph =? 0)
  && (ph_max_trx_id ph =? 0) && negb (isRecovery && (ph_free ph =? 0)).

(** parse.go:157-196: the loop over the pages *)
Fixpoint dataPages_loop (fuel : nat) (rt : runtime) (tm : gomap Table) (pages : list Page)
    (dbName tableName : bytes) (isRecovery : bool) (fields : list Column) : W unit :=
  match pages with
  | [] => wret tt
  | page :: pages' =>
    ph <-w wlift (parsePageHeader page) ;;
    if page_selected page ph isRecovery then
      '(rows, fields) <-w parsePage fuel rt tm (pg_orig page) fields isRecovery (ph_free ph) ;;
      _ <-w (if Nat.eqb (List.length rows) 0 then wret tt
             else makeReplaceIntoStatement rt rows tableName dbName) ;;
      dataPages_loop fuel rt tm pages' dbName tableName isRecovery fields
    else dataPages_loop fuel rt tm pages' dbName tableName isRecovery fields
  end.

(** parse.go:1047-1055; the error is always nil, the last match wins *)
Definition getTableColumnsFromDict (tm : gomap Table) (dbName tableName : bytes) : list Column :=
  fold_left (fun columns kt =>
    if beq (t_db (snd kt)) dbName && beq (t_name (snd kt)) tableName
    then t_columns (snd kt) else columns) tm [].

(** parse.go:144-198.  Returns the error. *)
Definition ParseDataPage (fuel : nat) (rt : runtime) (tm : gomap Table) (file : option (list ioev))
    (dbName tableName : bytes) (isRecovery : bool) : W (option bytes) :=
  '(pages, err) <-w wlift (parseFile file) ;;
  match err with
  | Some e => wret (Some e)
  | None =>
    _ <-w dataPages_loop fuel rt tm pages dbName tableName isRecovery
          (getTableColumnsFromDict tm dbName tableName) ;;
    wret None
  end.

(** A column literal of parse.go:960-1027; fields left out are zero. *)
Definition sysCol (name : bytes) (ty pos ln : Z) (uns : bool) : Column :=
  mkColumn name ty 0 pos ln VNil false false uns 0.

(** parse.go:962-977 *)
Definition makeSysTablesColumns : list Column :=
  [ sysCol (bs "NAME") 4 0 0 false;
    sysCol (bs "DB_TRX_ID") 1 1 6 false;
    sysCol (bs "DB_ROLL_PTR") 1 2 7 false;
    sysCol (bs "ID") 4 3 8 false;
    sysCol (bs "N_COLS") 6 4 4 false;
    sysCol (bs "TYPE") 6 5 4 true;
    sysCol (bs "MIX_ID") 4 6 0 false;
    sysCol (bs "MIX_LEN") 6 7 4 true;
    sysCol (bs "CLUSTER_NAME") 4 8 0 false;
    sysCol (bs "SPACE") 6 9 4 true ].

(** parse.go:981-995 *)
Definition makeSysColumnsColumns : list Column :=
  [ sysCol (bs "TABLE_ID") 4 0 8 false;
    sysCol (bs "POS") 6 1 4 true;
    sysCol (bs "DB_TRX_ID") 1 2 6 false;
    sysCol (bs "DB_ROLL_PTR") 1 3 7 false;
    sysCol (bs "NAME") 4 4 0 false;
    sysCol (bs "MTYPE") 6 5 4 true;
    sysCol (bs "PRTYPE") 6 6 4 true;
    sysCol (bs "LEN") 6 7 4 true;
    sysCol (bs "PREC") 6 8 4 true ].

(** parse.go:999-1013 *)
Definition makeSysIndexesColumns : list Column :=
  [ sysCol (bs "TABLE_ID") 4 0 8 false;
    sysCol (bs "ID") 4 1 8 false;
    sysCol (bs "DB_TRX_ID") 1 2 6 false;
    sysCol (bs "DB_ROLL_PTR") 1 3 7 false;
    sysCol (bs "NAME") 4 4 0 false;
    sysCol (bs "N_FIELDS") 6 5 4 true;
    sysCol (bs "TYPE") 6 6 4 true;
    sysCol (bs "SPACE") 6 7 4 true;
    sysCol (bs "PAGE_NO") 6 8 4 true ].

(** parse.go:1017-1027 *)
Definition makeSysFieldsColumns : list Column :=
  [ sysCol (bs "INDEX_ID") 4 0 8 false;
    sysCol (bs "POS") 6 1 4 true;
    sysCol (bs "DB_TRX_ID") 1 2 6 false;
    sysCol (bs "DB_ROLL_PTR") 1 3 7 false;
    sysCol (bs "COL_NAME") 4 4 0 false ].

(** Go: the type assertions c[i].FieldValue.(uint64) and .(string), which
    panic on any other dynamic type. *)
Definition as_uint (row : list Column) (i : Z) : res Z :=
  c <- index row i ;; match c_value c with VUint n => Ok n | _ => Panic end.
Definition as_str (row : list Column) (i : Z) : res bytes :=
  c <- index row i ;; match c_value c with VStr s => Ok s | _ => Panic end.

(** parse.go:78-84, 94-100: a DataDict; only data is used afterwards.
    parse.D is a map from index id to the pages stored under it. *)
Definition DictPages : Type := gomap (list bytes).

(** parse.go:65-110: one page.  D.Range visits every key once and acts only
    on the one equal to the page's index id. *)
Definition dictPages_step (sp : SysHeader) (D : DictPages) (page : Page) : res DictPages :=
  let off := fil_offset (pg_fil page) in
  if (off =? sp_tables sp) || (off =? sp_columns sp) || (off =? sp_indexes sp) || (off =? sp_fields sp)
  then _ <- parsePageHeader page ;; Ok (mset D (pg_index_id page) [pg_orig page])
  else
    match mget D (pg_index_id page) with
    | None => Ok D
    | Some ds => _ <- parsePageHeader page ;; Ok (mset D (pg_index_id page) (ds ++ [pg_orig page]))
    end.
Fixpoint dictPages_loop (sp : SysHeader) (D : DictPages) (pages : list Page) : res DictPages :=
  match pages with
  | [] => Ok D
  | p :: ps => D' <- dictPages_step sp D p ;; dictPages_loop sp D' ps
  end.

(** parse.go:53-62 *)
Fixpoint findSysPage (pages : list Page) : res SysHeader :=
  match pages with
  | [] => Ok zeroSys
  | p :: ps => if fil_offset (pg_fil p) =? SystemPageIdx then parseSysPageHeader p
               else findSysPage ps
  end.

(** parse.go:408-413, 489-494, 540-544: parse the pages of one dictionary
    table one after another, sharing the column descriptors *)
Fixpoint dictRows (fuel : nat) (rt : runtime) (tm : gomap Table) (pages : list bytes)
    (columns : list Column) : W (list (list Column)) :=
  match pages with
  | [] => wret []
  | d :: ds =>
    '(rows, columns) <-w parsePage fuel rt tm d columns false 0 ;;
    rest <-w dictRows fuel rt tm ds columns ;;
    wret (rows ++ rest)
  end.

(** parse.go:603-620: one SYS_TABLES row *)
Definition addTable (tm : gomap Table) (row : list Column) : res (gomap Table) :=
  name <- as_str row 0 ;;
  dt <- (if contains_byte 47 name then
           let n := split_on 47 name in
           d <- index n 0 ;; t <- index n 1 ;; Ok (d, t)
         else Ok ([], name)) ;;
  id <- as_uint row 3 ;;
  space <- as_uint row 9 ;;
  Ok (mset tm id (mkTable (fst dt) (snd dt) [] [] 0 space)).
Fixpoint addTables (tm : gomap Table) (rows : list (list Column)) : res (gomap Table) :=
  match rows with
  | [] => Ok tm
  | r :: rs => tm' <- addTable tm r ;; addTables tm' rs
  end.

(** parse.go:598-621: getAllTables fills TableMap page by page, and parsePage
    of the next page runs against the new map. *)
Fixpoint getAllTables_loop (fuel : nat) (rt : runtime) (tm : gomap Table) (pages : list bytes)
    (columns : list Column) : W (gomap Table) :=
  match pages with
  | [] => wret tm
  | d :: ds =>
    '(rows, columns) <-w parsePage fuel rt tm d columns false 0 ;;
    tm' <-w wlift (addTables tm rows) ;;
    getAllTables_loop fuel rt tm' ds columns
  end.
Definition err_tables : bytes := bs "sys table's page have not found".
Definition err_columns : bytes := bs "sys column's page have not found".
Definition err_indexes : bytes := bs "sys indexes' page have not found".
Definition err_fields : bytes := bs "sys field's page have not found".

(** parse.go:586-623.  Result: the map or the error. *)
Definition getAllTables (fuel : nat) (rt : runtime) (tm : gomap Table) (D : DictPages)
  : W (gomap Table * option bytes) :=
  match mget D SysTablesIdx with
  | None => wret (tm, Some err_tables)
  | Some pages => tm' <-w getAllTables_loop fuel rt tm pages makeSysTablesColumns ;; wret (tm', None)
  end.

(** parse.go:415-469: one SYS_COLUMNS row *)
Definition addColumn (tm : gomap Table) (c : list Column) : res (gomap Table) :=
  id <- as_uint c 0 ;;
  match mget tm id with
  | None => Ok tm
  | Some t =>
    prtype <- as_uint c 6 ;;
    let isNull := Z.land prtype 256 =? 0 in
    let isUnsigned := negb (Z.land prtype 512 =? 0) in
    let mysqlType := Z.land prtype 255 in
    mtype <- as_uint c 5 ;;
    let isBinary := (mtype =? DATA_BLOB) && negb (Z.land prtype 1024 =? 0) in
    flen <- (if negb (mtype =? DATA_BINARY) then as_uint c 7 else Ok 0) ;;
    name <- as_str c 4 ;;
    pos <- as_uint c 1 ;;
    let col := mkColumn name mtype mysqlType pos flen VNil isNull isBinary isUnsigned id in
    Ok (mset tm id (mkTable (t_db t) (t_name t) (t_columns t ++ [col]) (t_indexes t)
                            (if isNull then t_nullcount t + 1 else t_nullcount t) (t_space t)))
  end.
Fixpoint addAllColumns (tm : gomap Table) (rows : list (list Column)) : res (gomap Table) :=
  match rows with
  | [] => Ok tm
  | r :: rs => tm' <- addColumn tm r ;; addAllColumns tm' rs
  end.

(** parse.go:394-471 *)
Definition getAllColumns (fuel : nat) (rt : runtime) (tm : gomap Table) (D : DictPages)
  : W (gomap Table * option bytes) :=
  match mget D SysColumnsIdx with
  | None => wret (tm, Some err_columns)
  | Some pages =>
    rows <-w dictRows fuel rt tm pages makeSysColumnsColumns ;;
    tm' <-w wlift (addAllColumns tm rows) ;; wret (tm', None)
  end.

(** parse.go:496-522: one SYS_INDEXES row; the error if its table is unknown *)
Definition addIndex (tm : gomap Table) (row : list Column) : res (gomap Table * option bytes) :=
  id <- as_uint row 0 ;;
  match mget tm id with
  | Some t =>
    ixid <- as_uint row 1 ;;
    name <- as_str row 4 ;;
    ty <- as_uint row 6 ;;
    nf <- as_uint row 5 ;;
    let idx := mkIndex ixid name nf ty [] in
    Ok (mset tm id (mkTable (t_db t) (t_name t) (t_columns t) (mset (t_indexes t) ixid idx)
                            (t_nullcount t) (t_space t)), None)
  | None => Ok (tm, Some (bs "Table ID have not found " ++ fmt_d id))
  end.
Fixpoint addIndexes (tm : gomap Table) (err : option bytes) (rows : list (list Column))
  : res (gomap Table * option bytes) :=
  match rows with
  | [] => Ok (tm, err)
  | r :: rs =>
    '(tm', e) <- addIndex tm r ;;
    addIndexes tm' (match e with Some m => Some m | None => err end) rs
  end.

(** parse.go:474-524 *)
Definition getAllIndexes (fuel : nat) (rt : runtime) (tm : gomap Table) (D : DictPages)
  : W (gomap Table * option bytes) :=
  match mget D SysIndexesIdx with
  | None => wret (tm, Some err_indexes)
  | Some pages =>
    rows <-w dictRows fuel rt tm pages makeSysIndexesColumns ;;
    wlift (addIndexes tm None rows)
  end.

(** parse.go:548-566: indexFieldsMap *)
Definition addField (m : gomap (list Field)) (row : list Column) : res (gomap (list Field)) :=
  id <- as_uint row 0 ;;
  pos <- as_uint row 1 ;;
  name <- as_str row 4 ;;
  let v := match mget m id with Some v => v | None => [] end in
  Ok (mset m id (v ++ [mkField pos name])).
Fixpoint addFields (m : gomap (list Field)) (rows : list (list Column)) : res (gomap (list Field)) :=
  match rows with
  | [] => Ok m
  | r :: rs => m' <- addField m r ;; addFields m' rs
  end.

(** parse.go:569-580 *)
Definition set_fields (m : gomap (list Field)) (kix : Z * Index) : Z * Index :=
  let '(k, ix) := kix in
  match mget m k with
  | Some v => (k, mkIndex (ix_id ix) (ix_name ix) (ix_nfields ix) (ix_type ix) v)
  | None => (k, ix)
  end.
Definition attachFields (m : gomap (list Field)) (tm : gomap Table) : gomap Table :=
  map (fun kt => (fst kt, let t := snd kt in
    mkTable (t_db t) (t_name t) (t_columns t) (map (set_fields m) (t_indexes t))
            (t_nullcount t) (t_space t))) tm.

(** parse.go:527-583 *)
Definition getAllFields (fuel : nat) (rt : runtime) (tm : gomap Table) (D : DictPages)
  : W (gomap Table * option bytes) :=
  match mget D SysFieldsIdx with
  | None => wret (tm, Some err_fields)
  | Some pages =>
    rows <-w dictRows fuel rt tm pages makeSysFieldsColumns ;;
    m <-w wlift (addFields [] rows) ;;
    wret (attachFields m tm, None)
  end.

(** parse.go:301-311: assigns to a copy of the table, so the map is unchanged *)
Definition sortColumns (tm : gomap Table) : gomap Table := tm.

(** parse.go:329-335: the loop over the key fields at column index i *)
Fixpoint move_inner (fields : list Field) (j : nat) (i : nat) (columns : list Column)
  : res (list Column) :=
  match fields with
  | [] => Ok columns
  | f :: fs =>
    ci <- index columns (Z.of_nat i) ;;
    columns <- (if beq (fd_name f) (c_name ci) then
                  if (j <? List.length columns)%nat
                  then Ok (ci :: firstn j columns ++ skipn (S j) columns)
                  else Panic
                else Ok columns) ;;
    move_inner fs (S j) i columns
  end.
(** parse.go:328: the loop over the columns; their number never changes, so n
    counts the remaining iterations *)
Fixpoint move_outer (n : nat) (i : nat) (fields : list Field) (columns : list Column)
  : res (list Column) :=
  match n with
  | O => Ok columns
  | S n' => columns <- move_inner fields 0 i columns ;; move_outer n' (S i) fields columns
  end.
(** parse.go:327-338 *)
Definition moveColumns2First (fields : list Field) (columns : list Column) : res (list Column) :=
  move_outer (List.length columns) 0 fields columns.

(** parse.go:317-321 *)
Fixpoint movePK_table (ixs : gomap Index) (columns : list Column) : res (list Column) :=
  match ixs with
  | [] => Ok columns
  | (_, ix) :: ixs' =>
    columns <- (if beq (ix_name ix) (bs "PRIMARY")
                then moveColumns2First (ix_fields ix) columns else Ok columns) ;;
    movePK_table ixs' columns
  end.
Definition with_columns (t : Table) (cs : list Column) : Table :=
  mkTable (t_db t) (t_name t) cs (t_indexes t) (t_nullcount t) (t_space t).
(** parse.go:314-324 *)
Fixpoint movePrimaryKeyFirst (tm : gomap Table) : res (gomap Table) :=
  match tm with
  | [] => Ok []
  | (id, t) :: tm' =>
    cs <- movePK_table (t_indexes t) (t_columns t) ;;
    rest <- movePrimaryKeyFirst tm' ;;
    Ok ((id, with_columns t cs) :: rest)
  end.

(** parse.go:372-375 *)
Definition addColumns (columns : list Column) (idx : Z) (column : Column) : res (list Column) :=
  rear <- slice_from columns idx ;; front <- slice_to columns idx ;;
  Ok (front ++ column :: rear).

(** parse.go:377-391 *)
Definition addInternalColumn (fieldName : bytes) (tableID fieldPos : Z) : Column :=
  if beq fieldName (bs "DB_ROW_ID") then
    mkColumn (bs "DB_ROW_ID") DATA_MISSING 0 0 6 VNil false false false tableID
  else if beq fieldName (bs "DB_TRX_ID") then
    mkColumn (bs "DB_TRX_ID") DATA_MISSING 0 fieldPos 6 VNil false false false tableID
  else if beq fieldName (bs "DB_ROLL_PTR") then
    mkColumn (bs "DB_ROLL_PTR") DATA_MISSING 0 fieldPos 7 VNil false false false tableID
  else mkColumn [] 0 0 0 0 VNil false false false 0.

(** parse.go:346-367 *)
Fixpoint addInternal_table (tableID : Z) (ixs : gomap Index) (columns : list Column)
  : res (list Column) :=
  match ixs with
  | [] => Ok columns
  | (_, ix) :: ixs' =>
    columns <-
      (if beq (ix_name ix) (bs "PRIMARY") then
         let trx := addInternalColumn (bs "DB_TRX_ID") tableID (ix_nfields ix) in
         let roll := addInternalColumn (bs "DB_ROLL_PTR") tableID (u64 (ix_nfields ix + 1)) in
         columns <- addColumns columns (i64 (ix_nfields ix)) trx ;;
         addColumns columns (i64 (ix_nfields ix + 1)) roll
       else if beq (ix_name ix) (bs "GEN_CLUST_INDEX") then
         let rowid := addInternalColumn (bs "DB_ROW_ID") tableID 0 in
         let trx := addInternalColumn (bs "DB_TRX_ID") tableID 1 in
         let roll := addInternalColumn (bs "DB_ROLL_PTR") tableID 2 in
         columns <- addColumns columns 0 rowid ;;
         columns <- addColumns columns 1 trx ;;
         addColumns columns 2 roll
       else Ok columns) ;;
    addInternal_table tableID ixs' columns
  end.
(** parse.go:344-369 *)
Fixpoint addInternalColumns (tm : gomap Table) : res (gomap Table) :=
  match tm with
  | [] => Ok []
  | (id, t) :: tm' =>
    cs <- addInternal_table id (t_indexes t) (t_columns t) ;;
    rest <- addInternalColumns tm' ;;
    Ok ((id, with_columns t cs) :: rest)
  end.

(** parse.go:128-135 *)
Definition finishDict (tm : gomap Table) : res (gomap Table) :=
  let tm := sortColumns tm in
  tm <- movePrimaryKeyFirst tm ;;
  addInternalColumns tm.

(** parse.go:45-138, started on the empty maps of NewParse (37-42).  Result:
    the table map and the error. *)
Definition ParseDictPage (fuel : nat) (rt : runtime) (file : option (list ioev))
  : W (gomap Table * option bytes) :=
  '(pages, err) <-w wlift (parseFile file) ;;
  match err with
  | Some e => wret ([], Some e)
  | None =>
    sp <-w wlift (findSysPage pages) ;;
    D <-w wlift (dictPages_loop sp [] pages) ;;
    '(tm, err) <-w getAllTables fuel rt [] D ;;
    match err with Some e => wret (tm, Some e) | None =>
    '(tm, err) <-w getAllColumns fuel rt tm D ;;
    match err with Some e => wret (tm, Some e) | None =>
    '(tm, err) <-w getAllIndexes fuel rt tm D ;;
    match err with Some e => wret (tm, Some e) | None =>
    '(tm, err) <-w getAllFields fuel rt tm D ;;
    match err with Some e => wret (tm, Some e) | None =>
    tm <-w wlift (finishDict tm) ;;
    wret (tm, None)
    end end end end
  end.
