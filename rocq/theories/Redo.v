(** Model of recovery/redo (parse.go, mlog.go, const.go).

    [data] is the reassembled log; [spare] is cap(data)-len(data), the unused
    (zeroed) capacity left by append, which only the slice at mlog.go:150 can
    see.  The cursor *pos is the state of the P monad.  A handler's Go error is
    its [option bytes] result. *)
From Verif Require Import GoBase Utils Ibdata.
Local Open Scope list_scope.

(** const.go:21, 26, 31 *)
Definition OS_FILE_LOG_BLOCK_SIZE : nat := Z.to_nat 512.
Definition LOG_BLOCK_HDR_SIZE := 12.
Definition LOG_BLOCK_TRL_SIZE := 4.

(** const.go:41-222 (record types the parser distinguishes) *)
Definition MLOG_SINGLE_REC_FLAG := 128.
Definition MLOG_1BYTE := 1.
Definition MLOG_2BYTES := 2.
Definition MLOG_4BYTES := 4.
Definition MLOG_8BYTES := 8.
Definition MLOG_REC_INSERT := 9.
Definition MLOG_REC_CLUST_DELETE_MARK := 10.
Definition MLOG_REC_SEC_DELETE_MARK := 11.
Definition MLOG_REC_UPDATE_IN_PLACE := 13.
Definition MLOG_REC_DELETE := 14.
Definition MLOG_LIST_END_DELETE := 15.
Definition MLOG_LIST_START_DELETE := 16.
Definition MLOG_LIST_END_COPY_CREATED := 17.
Definition MLOG_PAGE_REORGANIZE := 18.
Definition MLOG_PAGE_CREATE := 19.
Definition MLOG_UNDO_INSERT := 20.
Definition MLOG_UNDO_ERASE_END := 21.
Definition MLOG_UNDO_INIT := 22.
Definition MLOG_UNDO_HDR_DISCARD := 23.
Definition MLOG_UNDO_HDR_REUSE := 24.
Definition MLOG_UNDO_HDR_CREATE := 25.
Definition MLOG_REC_MIN_MARK := 26.
Definition MLOG_IBUF_BITMAP_INIT := 27.
Definition MLOG_INIT_FILE_PAGE := 29.
Definition MLOG_WRITE_STRING := 30.
Definition MLOG_MULTI_REC_END := 31.
Definition MLOG_DUMMY_RECORD := 32.
Definition MLOG_FILE_CREATE := 33.
Definition MLOG_FILE_RENAME := 34.
Definition MLOG_FILE_DELETE := 35.
Definition MLOG_COMP_REC_MIN_MARK := 36.
Definition MLOG_COMP_PAGE_CREATE := 37.
Definition MLOG_COMP_REC_INSERT := 38.
Definition MLOG_COMP_REC_CLUST_DELETE_MARK := 39.
Definition MLOG_COMP_REC_SEC_DELETE_MARK := 40.
Definition MLOG_COMP_REC_UPDATE_IN_PLACE := 41.
Definition MLOG_COMP_REC_DELETE := 42.
Definition MLOG_COMP_LIST_END_DELETE := 43.
Definition MLOG_COMP_LIST_START_DELETE := 44.
Definition MLOG_COMP_LIST_END_COPY_CREATED := 45.
Definition MLOG_COMP_PAGE_REORGANIZE := 46.
Definition MLOG_FILE_CREATE2 := 47.
Definition MLOG_ZIP_WRITE_NODE_PTR := 48.
Definition MLOG_ZIP_WRITE_BLOB_PTR := 49.
Definition MLOG_ZIP_WRITE_HEADER := 50.
Definition MLOG_ZIP_PAGE_COMPRESS := 51.
Definition MLOG_ZIP_PAGE_COMPRESS_NO_DATA := 52.
Definition MLOG_ZIP_PAGE_REORGANIZE := 53.
Definition MLOG_FILE_RENAME2 := 54.
Definition MLOG_FILE_NAME := 55.
Definition MLOG_CHECKPOINT := 56.
Definition MLOG_PAGE_CREATE_RTREE := 57.
Definition MLOG_COMP_PAGE_CREATE_RTREE := 58.
Definition MLOG_INIT_FILE_PAGE2 := 59.
Definition MLOG_TRUNCATE := 60.
Definition MLOG_INDEX_LOAD := 61.

(** const.go:244-261 *)
Definition TRX_UNDO_INSERT_REC := 11.
Definition TRX_UNDO_UPD_EXIST_REC := 12.
Definition TRX_UNDO_CMPL_INFO_MULT := 16.
Definition TRX_UNDO_UPD_EXTERN := 128.

(** Go: a deferred recover(): on a panic run the handler from the cursor as
    the panic left it. *)
Definition precover {A} (m : P A) (h : P A) : P A := fun s =>
  match m s with
  | (o, s', Panic) => let '(o', s'', r) := h s' in (o ++ o', s'', r)
  | x => x
  end.

(** mlog.go:30 and passim: a reader applied to data[*pos:], and
    utils.MatchParseCompressed(data, *pos) (mlog.go:36 and passim) *)
Definition readat {A} (rd : bytes -> res A) (data : bytes) : P A :=
  pos <-p getpos ;; plift (d <- slice_from data pos ;; rd d).
Definition compressed_at (data : bytes) : P (Z * Z * option bytes) :=
  pos <-p getpos ;; plift (MatchParseCompressed data pos).

(** mlog.go:27-55 *)
Definition mlogNBytes (data : bytes) (myType : Z) : P (option bytes) :=
  _ <-p readat MatchReadFrom2 data ;;
  _ <-p advance 2 ;;
  if myType =? MLOG_8BYTES then
    '(value, _, err) <-p compressed_at data ;;
    match err with
    | Some e => pret (Some e)
    | None =>
      _ <-p advance (MatchGetCompressedSize value) ;;
      _ <-p advance 4 ;;
      pret None
    end
  else
    '(_, num, err) <-p compressed_at data ;;
    _ <-p advance num ;;
    pret err.

(** mlog.go:58-68 *)
Definition mlogRecSecDeleteMark (data : bytes) : P unit :=
  _ <-p readat MatchReadFrom1 data ;;
  _ <-p advance 1 ;;
  _ <-p readat MatchReadFrom2 data ;;
  advance 2.

(** structure.go:51-56 with its ColumnValue: a key column and its value *)
Definition KeyValue : Type := (bytes * gval)%type.

(** mlog.go:273-287; the error is always nil.  The last matching index in the
    iteration order wins. *)
Definition getPrimaryKey (table : Table) : list Field :=
  fold_left (fun fields kix =>
    let name := trim_space (ix_name (snd kix)) in
    if beq name (bs "PRIMARY") || beq name (bs "GEN_CLUST_INDEX") then
      if beq name (bs "GEN_CLUST_INDEX") then [mkField 0 (bs "DB_ROW_ID")]
      else ix_fields (snd kix)
    else fields) (t_indexes table) [].

(** mlog.go:295: ibdata.Columns{} *)
Definition zeroColumn : Column := mkColumn [] 0 0 0 0 VNil false false false 0.

(** mlog.go:289-296 *)
Definition getColumnsByName (table : Table) (fieldName : bytes) : Column :=
  match find (fun c => beq (c_name c) fieldName) (t_columns table) with
  | Some c => c
  | None => zeroColumn
  end.

(** mlog.go:298-306; None is the error "field not found" *)
Definition err_field : bytes := bs "field not found".
Definition getColumnByPos (table : Table) (pos : Z) : option Column :=
  if pos <? len (t_columns table) then nth_error (t_columns table) (Z.to_nat pos) else None.

(** mlog.go:308-318 *)
Definition getTableByTableID (tm : gomap Table) (tableID : Z) : option Table := mget tm tableID.
Definition err_table (tableID : Z) : bytes := bs "table not found, table id is " ++ fmt_d tableID.

(** mlog.go:150: data[*pos:*pos+FiledLen], bounded by the capacity *)
Definition slice_cap (data : bytes) (spare : nat) (a b : Z) : res bytes :=
  slice (data ++ zeros spare) a b.

(** utils.go:574-656 called with a slice whose capacity exceeds its length:
    ParseFloat and ParseDouble (utils.go:890-901) take data[:4] and data[:8],
    which Go bounds by the capacity, so they can read [extra], the bytes that
    follow the slice in its array.  No other decoder does. *)
Definition ParseDataCap (rt : runtime) (DataType MySQLType : Z) (data extra : bytes)
    (FieldLen FixLength : Z) (IsUnsigned IsBinary : bool) : W (gval * bool) :=
  let d := if (DataType =? DATA_FLOAT) || (DataType =? DATA_DOUBLE) then data ++ extra else data in
  ParseData rt DataType MySQLType d FieldLen FixLength IsUnsigned IsBinary.

(** mlog.go:139-161: the loop over the key columns.  ColumnValue is set for
    every key column before anything reads it, so the values are returned. *)
Fixpoint undoKeys (rt : runtime) (data : bytes) (spare : nat) (table : Table) (fields : list Field)
  : P (list KeyValue * option bytes) :=
  match fields with
  | [] => pret ([], None)
  | f :: fs =>
    let column := getColumnsByName table (fd_name f) in
    '(FiledLen, num, err) <-p compressed_at data ;;
    match err with
    | Some e => pret ([], Some e)
    | None =>
      _ <-p advance num ;;
      pos <-p getpos ;;
      d <-p plift (slice_cap data spare pos (u64 (pos + FiledLen))) ;;
      let extra := skipn (Z.to_nat (u64 (pos + FiledLen))) (data ++ zeros spare) in
      '(value, _) <-p pw (ParseDataCap rt (c_type column) (c_mysql column) d extra FiledLen
          (i64 (GetFixedLength (c_type column) (c_len column))) (c_unsigned column) (c_binary column)) ;;
      _ <-p advance FiledLen ;;
      '(kvs, err) <-p undoKeys rt data spare table fs ;;
      pret ((fd_name f, value) :: kvs, err)
    end
  end.

(** mlog.go:178-212: one changed column; the error, or its descriptor with
    the old value *)
Definition undoColumn (rt : runtime) (data : bytes) (spare : nat) (table : Table) : P (Column + bytes) :=
  '(Pos, num, err) <-p compressed_at data ;;
  match err with
  | Some e => pret (inr e)
  | None =>
    _ <-p advance num ;;
    match getColumnByPos table Pos with
    | None => pret (inr err_field)
    | Some c =>
      '(fLen, num, _) <-p compressed_at data ;;
      _ <-p advance num ;;
      pos <-p getpos ;;
      if u64 (pos + fLen) >? len data then
        pret (inl (set_value c VNil (c_binary c)))
      else
        d <-p plift (slice_from data pos) ;;
        '(value, isbin) <-p pw (ParseDataCap rt (c_type c) (c_mysql c) d (zeros spare) fLen
            (i64 (GetFixedLength (c_type c) (c_len c))) (c_unsigned c) (c_binary c)) ;;
        _ <-p advance fLen ;;
        pret (inl (set_value c value isbin))
    end
  end.

(** mlog.go:176-213: the loop; columnNum may be any 32-bit number, so the
    iterations are bounded by fuel (the data runs out first). *)
Fixpoint undoColumns (fuel : nat) (rt : runtime) (data : bytes) (spare : nat) (table : Table) (i columnNum : Z)
  : P (list Column * option bytes) :=
  match fuel with
  | O => plift NoFuel
  | S f =>
    if i <? columnNum then
      r <-p undoColumn rt data spare table ;;
      match r with
      | inr e => pret ([], Some e)
      | inl c =>
        '(cs, err) <-p undoColumns f rt data spare table (i + 1) columnNum ;;
        pret (c :: cs, err)
      end
    else pret ([], None)
  end.

(** parse.go:528-532: `col`='value' or `col`=NULL *)
Definition set_value_text (rt : runtime) (c : Column) : bytes :=
  match c_value c with
  | VNil => bs "`" ++ c_name c ++ bs "`=NULL"
  | v => bs "`" ++ c_name c ++ bs "`='" ++ fmt_v rt v ++ bs "'"
  end.
(** parse.go:543 *)
Definition where_text (rt : runtime) (kv : KeyValue) : bytes :=
  bs "`" ++ fst kv ++ bs "`='" ++ fmt_v rt (snd kv) ++ bs "'".
(** parse.go:526-538, 542-549: parts joined with " and " *)
Fixpoint join_and (parts : list bytes) : bytes :=
  match parts with
  | [] => []
  | [p] => p
  | p :: ps => p ++ bs " and " ++ join_and ps
  end.
(** parse.go:551-552 *)
Definition update_statement (rt : runtime) (table : Table) (keys : list KeyValue) (columns : list Column)
  : bytes :=
  bs "update `" ++ t_db table ++ bs "`.`" ++ t_name table ++ bs "` set "
  ++ join_and (map (set_value_text rt) columns) ++ bs " where "
  ++ join_and (map (where_text rt) keys) ++ bs ";".
(** parse.go:520-556 *)
Definition makeSQL (rt : runtime) (table : Table) (keys : list KeyValue) (columns : list Column) : W unit :=
  say (update_statement rt table keys columns).

(** mlog.go:218-228: is the statement printed *)
Definition redo_filter (DBName TableName : bytes) (table : Table) : bool :=
  if beq (t_db table) DBName then
    if beq (t_name table) TableName then true
    else beq TableName []
  else if beq DBName [] && beq TableName [] then true
  else negb (beq TableName []) && beq TableName (t_name table).

(** mlog.go:88-270: the body protected by the deferred recover() *)
Definition mlogUndoInsert_body (rt : runtime) (tm : gomap Table) (DBName TableName : bytes)
    (data : bytes) (spare : nat) (startPos dataLen : Z) : P (option bytes) :=
  let skip (e : option bytes) : P (option bytes) :=
    _ <-p setpos (u64 (startPos + dataLen)) ;; pret e in
  typeCmpl <-p readat MatchReadFrom1 data ;;
  _ <-p advance 1 ;;
  let typeCmpl := Z.ldiff typeCmpl TRX_UNDO_UPD_EXTERN in
  let undoType := Z.land typeCmpl (TRX_UNDO_CMPL_INFO_MULT - 1) in
  '(undoNo, err) <-p readat MatchUllReadMuchCompressed data ;;
  match err with Some e => skip (Some e) | None =>
  _ <-p advance (MachUllGetMuchCompressedSize undoNo) ;;
  '(tableID, err) <-p readat MatchUllReadMuchCompressed data ;;
  match err with Some e => skip (Some e) | None =>
  _ <-p advance (MachUllGetMuchCompressedSize tableID) ;;
  _ <-p (if negb (undoType =? TRX_UNDO_INSERT_REC) then
           _ <-p readat (fun d => index d 0) data ;;
           _ <-p advance 1 ;;
           _ <-p MatchUllReadComPressed data ;;
           _ <-p MatchUllReadComPressed data ;;
           pret tt
         else pret tt) ;;
  match getTableByTableID tm tableID with
  | None => skip (Some (err_table tableID))
  | Some table =>
  '(keys, err) <-p undoKeys rt data spare table (getPrimaryKey table) ;;
  match err with Some e => pret (Some e) | None =>
  err <-p (if undoType =? TRX_UNDO_UPD_EXIST_REC then
             '(columnNum, num, err) <-p compressed_at data ;;
             match err with
             | Some e => pret (Some e)
             | None =>
               _ <-p advance num ;;
               '(columns, err) <-p undoColumns (S (List.length data)) rt data spare table 0 columnNum ;;
               match err with
               | Some e => pret (Some e)
               | None =>
                 _ <-p (if redo_filter DBName TableName table
                        then pw (makeSQL rt table keys columns) else pret tt) ;;
                 pret None
               end
             end
           else pret None) ;;
  match err with
  | Some e => pret (Some e)
  | None =>
    pos <-p getpos ;;
    _ <-p (if negb (u64 (pos - startPos) =? dataLen)
           then setpos (u64 (startPos + dataLen)) else pret tt) ;;
    pret None
  end
  end
  end
  end
  end.

(** mlog.go:73-271 *)
Definition mlogUndoInsert (rt : runtime) (tm : gomap Table) (DBName TableName : bytes)
    (data : bytes) (spare : nat) : P (option bytes) :=
  dataLen <-p readat MatchReadFrom2 data ;;
  _ <-p advance 2 ;;
  startPos <-p getpos ;;
  precover (mlogUndoInsert_body rt tm DBName TableName data spare startPos dataLen)
           (_ <-p setpos (u64 (startPos + dataLen)) ;; pret None).

(** mlog.go:321-331 *)
Definition mlogUndoInit (data : bytes) : P (option bytes) :=
  '(_, num, err) <-p compressed_at data ;;
  match err with
  | Some e => pret (Some e)
  | None => _ <-p advance num ;; pret None
  end.

(** mlog.go:334-338 *)
Definition mlogUndoHdrReuse (data : bytes) : P unit :=
  _ <-p MatchUllReadComPressed data ;; pret tt.

(** mlog.go:341-358 *)
Definition mlogUndoHdrCreate (data : bytes) : P (option bytes) :=
  '(value, _, _) <-p compressed_at data ;;
  _ <-p advance (MatchGetCompressedSize value) ;;
  _ <-p advance 4 ;;
  pret None.

(** mlog.go:361-372 *)
Definition mlogWriteString (data : bytes) : P unit :=
  _ <-p readat MatchReadFrom2 data ;;
  _ <-p advance 2 ;;
  l <-p readat MatchReadFrom2 data ;;
  _ <-p advance 2 ;;
  advance l.

(** mlog.go:375-387 *)
Definition mlogFileOp (data : bytes) (myType : Z) : P unit :=
  _ <-p (if myType =? MLOG_FILE_CREATE2 then
           _ <-p readat MatchReadFrom4 data ;; advance 4
         else pret tt) ;;
  nameLen <-p readat MatchReadFrom2 data ;;
  _ <-p advance 2 ;;
  advance nameLen.

(** mlog.go:398-402, 407-413 and passim: *pos = position, or the error, for a
    call of utils.ParseIndex or utils.ParseInsertRecord *)
Definition index_at (comp : bool) (data : bytes) : P (option bytes) :=
  pos <-p getpos ;;
  '(position, err) <-p plift (ParseIndex comp data pos) ;;
  match err with
  | Some e => pret (Some e)
  | None => _ <-p setpos position ;; pret None
  end.
Definition insert_at (IsShort : bool) (data : bytes) : P (option bytes) :=
  pos <-p getpos ;;
  '(position, err) <-p pw (ParseInsertRecord IsShort data pos) ;;
  match err with
  | Some e => pret (Some e)
  | None => _ <-p setpos position ;; pret None
  end.
(** Go: if err != nil { return err } *)
Definition andthen (m : P (option bytes)) (k : P (option bytes)) : P (option bytes) :=
  err <-p m ;; match err with Some e => pret (Some e) | None => k end.

(** mlog.go:395-415 *)
Definition mlogRecInsert (data : bytes) (myType : Z) : P (option bytes) :=
  andthen (index_at (myType =? MLOG_COMP_REC_INSERT) data) (insert_at false data).

(** mlog.go:418-459 *)
Definition mlogRecClustDeleteMark (data : bytes) (myType : Z) : P (option bytes) :=
  andthen (index_at (myType =? MLOG_COMP_REC_CLUST_DELETE_MARK) data) (
  _ <-p readat MatchReadFrom1 data ;;
  _ <-p advance 1 ;;
  _ <-p readat MatchReadFrom1 data ;;
  _ <-p advance 1 ;;
  '(_, num, err) <-p compressed_at data ;;
  match err with
  | Some e => pret (Some e)
  | None =>
    _ <-p advance num ;;
    _ <-p readat MatchReadFrom7 data ;;
    _ <-p advance 7 ;;
    _ <-p MatchUllReadComPressed data ;;
    _ <-p readat MatchReadFrom2 data ;;
    _ <-p advance 2 ;;
    pret None
  end).

(** mlog.go:462-470 *)
Definition mlogCompRecSecDeleteMark (data : bytes) : P (option bytes) := index_at true data.

(** mlog.go:527-543: the loop over the updated fields; bounded by fuel (the
    data runs out first) *)
Fixpoint updateFields (fuel : nat) (data : bytes) (i FieldsNum : Z) : P (option bytes) :=
  match fuel with
  | O => plift NoFuel
  | S f =>
    if i <? FieldsNum then
      '(_, num, err) <-p compressed_at data ;;
      match err with
      | Some e => pret (Some e)
      | None =>
        _ <-p advance num ;;
        '(fieldLen, num, err) <-p compressed_at data ;;
        match err with
        | Some e => pret (Some e)
        | None =>
          _ <-p advance num ;;
          _ <-p advance fieldLen ;;
          updateFields f data (i + 1) FieldsNum
        end
      end
    else pret None
  end.

Definition err_too_short : bytes := bs "data is too short".

(** mlog.go:473-547 *)
Definition mlogRecUpdateInPlace (data : bytes) (MyType : Z) : P (option bytes) :=
  precover (
  andthen (index_at (MyType =? MLOG_COMP_REC_UPDATE_IN_PLACE) data) (
  _ <-p readat MatchReadFrom1 data ;;
  _ <-p advance 1 ;;
  '(_, num, err) <-p compressed_at data ;;
  match err with
  | Some e => pret (Some e)
  | None =>
    _ <-p advance num ;;
    pos <-p getpos ;;
    if len data <? u64 (pos + 7) then pret (Some err_too_short)
    else
      _ <-p readat MatchReadFrom7 data ;;
      _ <-p advance 7 ;;
      _ <-p MatchUllReadComPressed data ;;
      _ <-p readat MatchReadFrom2 data ;;
      _ <-p advance 2 ;;
      _ <-p readat MatchReadFrom1 data ;;
      _ <-p advance 1 ;;
      '(FieldsNum, num, err) <-p compressed_at data ;;
      match err with
      | Some e => pret (Some e)
      | None =>
        _ <-p advance num ;;
        updateFields (S (List.length data)) data 0 FieldsNum
      end
  end)) (pret None).

(** mlog.go:550-566 *)
Definition mlogRecDelete (data : bytes) (MyType : Z) : P (option bytes) :=
  andthen (index_at (MyType =? MLOG_COMP_REC_DELETE) data) (
  _ <-p readat MatchReadFrom2 data ;;
  _ <-p advance 2 ;;
  pret None).

(** mlog.go:569-587 *)
Definition mlogListDelete (data : bytes) (myType : Z) : P (option bytes) :=
  andthen (index_at ((myType =? MLOG_COMP_LIST_START_DELETE)
                     || (myType =? MLOG_COMP_LIST_END_DELETE)) data) (
  _ <-p readat MatchReadFrom2 data ;;
  _ <-p advance 2 ;;
  pret None).

(** mlog.go:614-631: the loop; every round moves the cursor forward *)
Fixpoint copyRecords (fuel : nat) (data : bytes) (recEnd : Z) : P (option bytes) :=
  match fuel with
  | O => plift NoFuel
  | S f =>
    pos <-p getpos ;;
    if pos <? recEnd then andthen (insert_at true data) (copyRecords f data recEnd)
    else pret None
  end.
Definition err_copy_short : bytes := bs "data too short".

(** mlog.go:590-634 *)
Definition mlogListEndCopyCreated (data : bytes) (myType : Z) : P (option bytes) :=
  andthen (index_at (myType =? MLOG_COMP_LIST_END_COPY_CREATED) data) (
  logDataLen <-p readat MatchReadFrom4 data ;;
  _ <-p advance 4 ;;
  pos <-p getpos ;;
  let recEnd := u64 (pos + logDataLen) in
  if recEnd >? len data then pret (Some err_copy_short)
  else copyRecords (S (List.length data)) data recEnd).

(** mlog.go:637-651 *)
Definition mlogPageReorganize (data : bytes) (myType : Z) : P (option bytes) :=
  andthen (index_at (negb (myType =? MLOG_PAGE_REORGANIZE)) data) (
  if myType =? MLOG_ZIP_PAGE_REORGANIZE then
    _ <-p readat MatchReadFrom1 data ;;
    _ <-p advance 1 ;;
    pret None
  else pret None).

(** mlog.go:654-668 *)
Definition mlogZipWriteNodePtr (data : bytes) : P unit :=
  _ <-p readat MatchReadFrom2 data ;;
  _ <-p advance 2 ;;
  _ <-p readat MatchReadFrom2 data ;;
  _ <-p advance 2 ;;
  advance 4.

(** mlog.go:676-689 *)
Definition mlogZipWriteHeader (data : bytes) : P unit :=
  _ <-p readat (fun d => index d 0) data ;;
  _ <-p advance 1 ;;
  dataLen <-p readat (fun d => index d 0) data ;;
  _ <-p advance 1 ;;
  advance dataLen.

(** mlog.go:692-702 *)
Definition mlogZipPageCompress (data : bytes) : P unit :=
  size <-p readat MatchReadFrom2 data ;;
  _ <-p advance 2 ;;
  trailerSize <-p readat MatchReadFrom2 data ;;
  _ <-p advance 2 ;;
  advance (8 + size + trailerSize).

(** mlog.go:705-720 *)
Definition mlogZipPageCompressNoData (data : bytes) : P (option bytes) :=
  andthen (index_at true data) (
  _ <-p readat MatchReadFrom1 data ;;
  _ <-p advance 1 ;;
  pret None).

(** parse.go:464-518 *)
Definition knownTypes : list Z :=
  [ MLOG_1BYTE; MLOG_2BYTES; MLOG_4BYTES; MLOG_8BYTES; MLOG_REC_SEC_DELETE_MARK;
    MLOG_UNDO_INSERT; MLOG_UNDO_ERASE_END; MLOG_UNDO_INIT; MLOG_UNDO_HDR_DISCARD;
    MLOG_UNDO_HDR_REUSE; MLOG_UNDO_HDR_CREATE; MLOG_IBUF_BITMAP_INIT;
    MLOG_INIT_FILE_PAGE; MLOG_INIT_FILE_PAGE2; MLOG_WRITE_STRING; MLOG_MULTI_REC_END;
    MLOG_DUMMY_RECORD; MLOG_FILE_RENAME; MLOG_FILE_CREATE; MLOG_FILE_DELETE;
    MLOG_FILE_CREATE2; MLOG_FILE_RENAME2; MLOG_FILE_NAME; MLOG_REC_MIN_MARK;
    MLOG_COMP_REC_MIN_MARK; MLOG_PAGE_CREATE; MLOG_COMP_PAGE_CREATE; MLOG_REC_INSERT;
    MLOG_COMP_REC_INSERT; MLOG_REC_CLUST_DELETE_MARK; MLOG_COMP_REC_CLUST_DELETE_MARK;
    MLOG_COMP_REC_SEC_DELETE_MARK; MLOG_REC_UPDATE_IN_PLACE; MLOG_COMP_REC_UPDATE_IN_PLACE;
    MLOG_REC_DELETE; MLOG_COMP_REC_DELETE; MLOG_LIST_END_DELETE; MLOG_COMP_LIST_END_DELETE;
    MLOG_LIST_START_DELETE; MLOG_COMP_LIST_START_DELETE; MLOG_LIST_END_COPY_CREATED;
    MLOG_COMP_LIST_END_COPY_CREATED; MLOG_PAGE_REORGANIZE; MLOG_COMP_PAGE_REORGANIZE;
    MLOG_ZIP_PAGE_REORGANIZE; MLOG_ZIP_WRITE_NODE_PTR; MLOG_ZIP_WRITE_BLOB_PTR;
    MLOG_ZIP_WRITE_HEADER; MLOG_ZIP_PAGE_COMPRESS; MLOG_ZIP_PAGE_COMPRESS_NO_DATA;
    MLOG_CHECKPOINT; MLOG_COMP_PAGE_CREATE_RTREE; MLOG_PAGE_CREATE_RTREE; MLOG_TRUNCATE;
    MLOG_INDEX_LOAD ].
Definition validateLogHeader (logType : Z) : bool := existsb (Z.eqb logType) knownTypes.

(** Go: the switch cases that drop the handler's error ("break" leaves the
    switch only) *)
Definition dropped {A} (m : P A) : P (option bytes) := _ <-p m ;; pret None.

(** parse.go:302-450: the switch.  The result is the error that makes the
    loop return. *)
Definition redo_switch (rt : runtime) (tm : gomap Table) (DBName TableName : bytes)
    (data : bytes) (spare : nat) (t : Z) : P (option bytes) :=
  let is (l : list Z) : bool := existsb (Z.eqb t) l in
  if is [MLOG_1BYTE; MLOG_2BYTES; MLOG_4BYTES; MLOG_8BYTES] then dropped (mlogNBytes data t)
  else if is [MLOG_REC_SEC_DELETE_MARK] then dropped (mlogRecSecDeleteMark data)
  else if is [MLOG_UNDO_INSERT] then dropped (mlogUndoInsert rt tm DBName TableName data spare)
  else if is [MLOG_UNDO_ERASE_END] then pret None
  else if is [MLOG_UNDO_INIT] then dropped (mlogUndoInit data)
  else if is [MLOG_UNDO_HDR_DISCARD] then pret None
  else if is [MLOG_UNDO_HDR_REUSE] then dropped (mlogUndoHdrReuse data)
  else if is [MLOG_UNDO_HDR_CREATE] then dropped (mlogUndoHdrCreate data)
  else if is [MLOG_IBUF_BITMAP_INIT] then pret None
  else if is [MLOG_INIT_FILE_PAGE; MLOG_INIT_FILE_PAGE2] then pret None
  else if is [MLOG_WRITE_STRING] then dropped (mlogWriteString data)
  else if is [MLOG_MULTI_REC_END] then pret None
  else if is [MLOG_DUMMY_RECORD] then pret None
  else if is [MLOG_FILE_RENAME; MLOG_FILE_CREATE; MLOG_FILE_DELETE; MLOG_FILE_CREATE2;
              MLOG_FILE_RENAME2; MLOG_FILE_NAME] then dropped (mlogFileOp data t)
  else if is [MLOG_REC_MIN_MARK; MLOG_COMP_REC_MIN_MARK] then dropped (advance 2)
  else if is [MLOG_PAGE_CREATE; MLOG_COMP_PAGE_CREATE] then pret None
  else if is [MLOG_REC_INSERT; MLOG_COMP_REC_INSERT] then mlogRecInsert data t
  else if is [MLOG_REC_CLUST_DELETE_MARK; MLOG_COMP_REC_CLUST_DELETE_MARK]
       then dropped (mlogRecClustDeleteMark data t)
  else if is [MLOG_COMP_REC_SEC_DELETE_MARK] then dropped (mlogCompRecSecDeleteMark data)
  else if is [MLOG_REC_UPDATE_IN_PLACE; MLOG_COMP_REC_UPDATE_IN_PLACE]
       then dropped (mlogRecUpdateInPlace data t)
  else if is [MLOG_REC_DELETE; MLOG_COMP_REC_DELETE] then dropped (mlogRecDelete data t)
  else if is [MLOG_LIST_END_DELETE; MLOG_COMP_LIST_END_DELETE; MLOG_LIST_START_DELETE;
              MLOG_COMP_LIST_START_DELETE] then dropped (mlogListDelete data t)
  else if is [MLOG_LIST_END_COPY_CREATED; MLOG_COMP_LIST_END_COPY_CREATED]
       then dropped (mlogListEndCopyCreated data t)
  else if is [MLOG_PAGE_REORGANIZE; MLOG_COMP_PAGE_REORGANIZE; MLOG_ZIP_PAGE_REORGANIZE]
       then dropped (mlogPageReorganize data t)
  else if is [MLOG_ZIP_WRITE_NODE_PTR] then dropped (mlogZipWriteNodePtr data)
  else if is [MLOG_ZIP_WRITE_BLOB_PTR] then dropped (advance 24)
  else if is [MLOG_ZIP_WRITE_HEADER] then dropped (mlogZipWriteHeader data)
  else if is [MLOG_ZIP_PAGE_COMPRESS] then dropped (mlogZipPageCompress data)
  else if is [MLOG_ZIP_PAGE_COMPRESS_NO_DATA] then dropped (mlogZipPageCompressNoData data)
  else if is [MLOG_CHECKPOINT] then dropped (advance 8)
  else if is [MLOG_COMP_PAGE_CREATE_RTREE; MLOG_PAGE_CREATE_RTREE] then pret None
  else if is [MLOG_TRUNCATE] then dropped (advance 8)
  else if is [MLOG_INDEX_LOAD] then dropped (advance 8)
  else pret None.

(** parse.go:256-450: one round of the loop on data with at least five bytes
    left.  The result is the error that makes the loop return.  The lookup of
    the table by space id (292) only feeds the log. *)
Definition redo_step (rt : runtime) (tm : gomap Table) (DBName TableName : bytes)
    (data : bytes) (spare : nat) : P (option bytes) :=
  logType <-p readat MatchReadFrom1 data ;;
  _ <-p advance 1 ;;
  startPos <-p getpos ;;
  if logType =? MLOG_MULTI_REC_END then pret None
  else
    let logType := Z.ldiff logType MLOG_SINGLE_REC_FLAG in
    if negb (logType =? MLOG_CHECKPOINT) then
      '(_, num, err) <-p compressed_at data ;;
      _ <-p advance num ;;
      match err with Some e => pret (Some e) | None =>
      '(_, num, err) <-p compressed_at data ;;
      _ <-p advance num ;;
      match err with Some e => pret (Some e) | None =>
      if negb (validateLogHeader logType) then
        _ <-p setpos startPos ;; pret None
      else redo_switch rt tm DBName TableName data spare logType
      end end
    else redo_switch rt tm DBName TableName data spare logType.

(** parse.go:245-453 *)
Fixpoint redo_loop (fuel : nat) (rt : runtime) (tm : gomap Table) (DBName TableName : bytes)
    (data : bytes) (spare : nat) : P (option bytes) :=
  match fuel with
  | O => plift NoFuel
  | S f =>
    pos <-p getpos ;;
    if (i64 (i64 (len data) - i64 pos) <? 5) || (u64 (len data - pos) <? 5) then pret None
    else
      err <-p redo_step rt tm DBName TableName data spare ;;
      match err with
      | Some e => pret (Some e)
      | None => redo_loop f rt tm DBName TableName data spare
      end
  end.
Definition parseRedoBlockData (rt : runtime) (tm : gomap Table) (DBName TableName : bytes)
    (data : bytes) (spare : nat) : W (option bytes) :=
  let '(o, _, r) := redo_loop (S (List.length data)) rt tm DBName TableName data spare 0 in (o, r).

(** Go: bytes.IndexByte(data, 0x00), -1 if absent *)
Fixpoint index_zero (data : bytes) (i : Z) : Z :=
  match data with
  | [] => -1
  | b :: t => if b =? 0 then i else index_zero t (i + 1)
  end.

(** Go: the error of a failing file.Read *)
Definition err_read : bytes := bs "EOF".

(** parse.go:151-176.  Result: the error; and the rest of the file. *)
Definition readRedoLogFileHeader (f : list ioev) : res (option bytes * list ioev) :=
  match ReadNextBytes f OS_FILE_LOG_BLOCK_SIZE with
  | (None, f') => Ok (Some err_read, f')
  | (Some data, f') =>
    _ <- MatchReadFrom4 data ;;
    d <- slice_from data 4 ;; _ <- MatchReadFrom4 d ;;
    d <- slice_from data 8 ;; _ <- MatchReadFrom8 d ;;
    d <- slice_from data 16 ;;
    _ <- slice data 16 (index_zero d 0 + 16) ;;
    _ <- slice_from data 508 ;;
    Ok (None, f')
  end.

(** parse.go:186-205 with utils.go:474-487; the struct is exactly 512 bytes,
    so binary.Read does not fail. *)
Definition readRedoLogFileCheckpoint (f : list ioev) : option bytes * list ioev :=
  match ReadNextBytes f OS_FILE_LOG_BLOCK_SIZE with
  | (None, f1) => (Some err_read, f1)
  | (Some _, f1) =>
    let '(_, f2) := ReadNextBytes f1 OS_FILE_LOG_BLOCK_SIZE in
    match ReadNextBytes f2 OS_FILE_LOG_BLOCK_SIZE with
    | (None, f3) => (Some err_read, f3)
    | (Some _, f3) => (None, f3)
    end
  end.

(** parse.go:213-239; only BlockDataLen is used afterwards, the other reads
    stay inside a 512-byte block *)
Definition readRedoBlockHeader (data : bytes) : res Z :=
  _ <- MatchReadFrom4 data ;;
  d <- slice_from data 4 ;; dataLen <- MatchReadFrom2 d ;;
  d <- slice_from data 6 ;; _ <- MatchReadFrom2 d ;;
  d <- slice_from data 8 ;; _ <- MatchReadFrom4 d ;;
  Ok dataLen.

(** parse.go:90-111: the blocks of one file, one file.Read per event *)
Fixpoint redoBlocks (f : list ioev) : res bytes :=
  match f with
  | [] => Ok []
  | ev :: f' =>
    match fst (ReadNextBytes [ev] OS_FILE_LOG_BLOCK_SIZE) with
    | None => Ok []
    | Some block =>
      n <- readRedoBlockHeader block ;;
      if n =? 0 then Ok []
      else
        let n := if n >=? 512 then n - LOG_BLOCK_TRL_SIZE else n in
        d <- slice block LOG_BLOCK_HDR_SIZE n ;;
        rest <- redoBlocks f' ;;
        Ok (d ++ rest)
    end
  end.

(** parse.go:72-113: the log files one after another; the bytes collected, or
    the error *)
Fixpoint redoFiles (files : list (option (list ioev))) : res (bytes + bytes) :=
  match files with
  | [] => Ok (inl [])
  | None :: _ => Ok (inr err_open)
  | Some f :: files' =>
    '(err, f) <- readRedoLogFileHeader f ;;
    match err with
    | Some e => Ok (inr e)
    | None =>
      let '(err, f) := readRedoLogFileCheckpoint f in
      match err with
      | Some e => Ok (inr e)
      | None =>
        d <- redoBlocks f ;;
        r <- redoFiles files' ;;
        match r with
        | inl rest => Ok (inl (d ++ rest))
        | inr e => Ok (inr e)
        end
      end
    end
  end.

(** parse.go:70-121 *)
Definition ParseRedoLogs (rt : runtime) (tm : gomap Table) (DBName TableName : bytes)
    (files : list (option (list ioev))) (spare : nat) : W (option bytes) :=
  r <-w wlift (redoFiles files) ;;
  match r with
  | inr e => wret (Some e)
  | inl data => parseRedoBlockData rt tm DBName TableName data spare
  end.
