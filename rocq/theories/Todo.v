(** Model of recovery/ibdata/todo.go: helpers kept in the repository that the
    two commands do not call.  GetTableFieldsFromStruct (todo.go:22-24) has an
    empty body. *)
From Verif Require Import GoBase Utils Ibdata.
Local Open Scope list_scope.

(** todo.go:11-18 *)
Fixpoint getColumnType (ColumnName : bytes) (columns : list Column) : Z :=
  match columns with
  | [] => 0
  | f :: rest => if beq (c_name f) ColumnName then c_type f else getColumnType ColumnName rest
  end.

(** The zero value of structure.go:18-25 *)
Definition zeroTable : Table := mkTable [] [] [] [] 0 0.

(** parse.go:1057-1065; the error is always nil *)
Definition getTableFromDict (tm : gomap Table) (dbName tableName : bytes) : Table :=
  fold_left (fun table kt =>
    if beq (t_db (snd kt)) dbName && beq (t_name (snd kt)) tableName
    then snd kt else table) tm zeroTable.

(** todo.go:46-48 *)
Definition MakeCreateTableSql (table : Table) : bytes := [].

(** todo.go:27-43 (statement, error) *)
Definition RecoveryTableStruct (tm : gomap Table) (file : option (list ioev)) (DBName TableName : bytes)
  : res (bytes * option bytes) :=
  '(_, err) <- parseFile file ;;
  match err with
  | Some e => Ok ([], Some e)
  | None => Ok (MakeCreateTableSql (getTableFromDict tm DBName TableName), None)
  end.

(** fmt.Println("the X is ", n): Println puts a space between its operands, so
    two spaces separate the text from the number. *)
Definition say_is (name : string) (n : Z) : W unit :=
  say (bs "the " ++ bs name ++ bs " is " ++ bs " " ++ fmt_d n).

(** todo.go:51-193, on page.data; the page comes back unchanged.  The lines
    logged at 146-158 go to stderr.  [tmp_pos] is a uint64. *)
Definition ParseUndoPageHeader (d : bytes) : W unit :=
  page_type <-w wlift (MatchReadFrom2 d) ;;
  _ <-w say_is "TRX_UNDO_PAGE_TYPE" page_type ;;
  d1 <-w wlift (slice_from d 2) ;; page_start <-w wlift (MatchReadFrom2 d1) ;;
  _ <-w say_is "TRX_UNDO_PAGE_START" page_start ;;
  d1 <-w wlift (slice_from d 4) ;; page_free <-w wlift (MatchReadFrom2 d1) ;;
  _ <-w say_is "TRX_UNDO_PAGE_FREE" page_free ;;
  d1 <-w wlift (slice_from d 18) ;; state <-w wlift (MatchReadFrom2 d1) ;;
  _ <-w say_is "TRX_UNDO_STATE" state ;;
  d1 <-w wlift (slice_from d 20) ;; last_log <-w wlift (MatchReadFrom2 d1) ;;
  _ <-w say_is "TRX_UNDO_LAST_LOG" last_log ;;
  d1 <-w wlift (slice_from d 48) ;; trx_id <-w wlift (MatchReadFrom8 d1) ;;
  _ <-w say_is "TRX_UNDO_TRX_ID" trx_id ;;
  d1 <-w wlift (slice_from d 56) ;; trx_no <-w wlift (MatchReadFrom8 d1) ;;
  _ <-w say_is "TRX_UNDO_TRX_NO" trx_no ;;
  d1 <-w wlift (slice_from d 64) ;; del_marks <-w wlift (MatchReadFrom2 d1) ;;
  _ <-w say_is "TRX_UNDO_DEL_MARKS" del_marks ;;
  d1 <-w wlift (slice_from d 66) ;; log_start <-w wlift (MatchReadFrom2 d1) ;;
  _ <-w say_is "TRX_UNDO_LOG_START" log_start ;;
  d1 <-w wlift (slice_from d 68) ;; xid <-w wlift (MatchReadFrom1 d1) ;;
  _ <-w say_is "TRX_UNDO_XID_EXISTS" xid ;;
  d1 <-w wlift (slice_from d 69) ;; dict_trans <-w wlift (MatchReadFrom1 d1) ;;
  _ <-w say_is "TRX_UNDO_DICT_TRANS" dict_trans ;;
  d1 <-w wlift (slice_from d 70) ;; table_id <-w wlift (MatchReadFrom8 d1) ;;
  _ <-w say_is "TRX_UNDO_TABLE_ID" table_id ;;
  d1 <-w wlift (slice_from d 78) ;; next_log <-w wlift (MatchReadFrom2 d1) ;;
  _ <-w say_is "TRX_UNDO_NEXT_LOG" next_log ;;
  d1 <-w wlift (slice_from d 80) ;; prev_log <-w wlift (MatchReadFrom2 d1) ;;
  _ <-w say_is "TRX_UNDO_PREV_LOG" prev_log ;;
  let tmp_pos := u64 (log_start - 38) in
  d1 <-w wlift (slice_from d tmp_pos) ;; DataLen <-w wlift (MatchReadFrom2 d1) ;;
  let tmp_pos := u64 (tmp_pos + 2) in
  let StartPos := tmp_pos in
  _ <-w say (fmt_d DataLen ++ bs " " ++ fmt_d StartPos) ;;
  d1 <-w wlift (slice_from d tmp_pos) ;; _ <-w wlift (MatchReadFrom1 d1) ;;
  let tmp_pos := u64 (tmp_pos + 1) in
  d1 <-w wlift (slice_from d tmp_pos) ;;
  '(UndoNo, _) <-w wlift (MatchUllReadMuchCompressed d1) ;;
  let tmp_pos := u64 (tmp_pos + MachUllGetMuchCompressedSize UndoNo) in
  d1 <-w wlift (slice_from d tmp_pos) ;;
  '(TableId, _) <-w wlift (MatchUllReadMuchCompressed d1) ;;
  say (bs "table id is " ++ bs " " ++ fmt_d TableId).
