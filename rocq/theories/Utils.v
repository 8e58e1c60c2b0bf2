(** Model of recovery/utils/utils.go and recovery/utils/const.go.

    Conventions: uint64 values are Z in [0,2^64) with explicit wrap [u64] where
    the code's arithmetic can wrap; Go errors are [option bytes] (the message);
    log output (package logs) is not modelled, only its arguments' panics. *)
From Verif Require Import GoBase.
Local Open Scope list_scope.

(** const.go:18-68 *)
Definition DATA_MISSING := 0.
Definition DATA_VARCHAR := 1.
Definition DATA_CHAR := 2.
Definition DATA_FIXBINARY := 3.
Definition DATA_BINARY := 4.
Definition DATA_BLOB := 5.
Definition DATA_INT := 6.
Definition DATA_FLOAT := 9.
Definition DATA_DOUBLE := 10.
Definition DATA_DECIMAL := 11.
Definition DATA_VARMYSQL := 12.
Definition DATA_MYSQL := 13.

(** const.go:71-102 (the types the code tests for) *)
Definition MYSQL_TYPE_LONG := 3.
Definition MYSQL_TYPE_TIMESTAMP := 7.
Definition MYSQL_TYPE_DATE := 10.
Definition MYSQL_TYPE_TIME := 11.
Definition MYSQL_TYPE_DATETIME := 12.
Definition MYSQL_TYPE_YEAR := 13.
Definition MYSQL_TYPE_VARCHAR := 15.
Definition MYSQL_TYPE_BIT := 16.
Definition MYSQL_TYPE_NEWDECIMAL := 246.
Definition MYSQL_TYPE_TINY_BLOB := 249.
Definition MYSQL_TYPE_MEDIUM_BLOB := 250.
Definition MYSQL_TYPE_LONG_BLOB := 251.
Definition MYSQL_TYPE_BLOB := 252.
Definition MYSQL_TYPE_STRING := 254.

(** const.go:107-109 *)
Definition TinyIntRange := 128 * 2.
Definition SmallIntRange := 32768 * 2.
Definition IntRange := 2147483648 * 2.

(** utils.go:220-223 *)
Definition MatchReadFrom1 (b : bytes) : res Z := index b 0.

(** utils.go:225-228 *)
Definition MatchReadFrom2 (b : bytes) : res Z :=
  b0 <- index b 0 ;; b1 <- index b 1 ;;
  Ok (Z.lor (Z.shiftl b0 8) b1).

(** utils.go:230-235 *)
Definition MatchReadFrom3 (b : bytes) : res Z :=
  b0 <- index b 0 ;; b1 <- index b 1 ;; b2 <- index b 2 ;;
  Ok (Z.lor (Z.lor (Z.shiftl b0 16) (Z.shiftl b1 8)) b2).

(** utils.go:237-243 *)
Definition MatchReadFrom4 (b : bytes) : res Z :=
  b0 <- index b 0 ;; b1 <- index b 1 ;; b2 <- index b 2 ;; b3 <- index b 3 ;;
  Ok (Z.lor (Z.lor (Z.lor (Z.shiftl b0 24) (Z.shiftl b1 16)) (Z.shiftl b2 8)) b3).

(** utils.go:250-253 *)
Definition UtUllCreate (high low : Z) : Z := Z.lor (u64 (Z.shiftl high 32)) low.

(** utils.go:245-248 *)
Definition MatchReadFrom7 (b : bytes) : res Z :=
  h <- MatchReadFrom3 b ;; b' <- slice_from b 3 ;; l <- MatchReadFrom4 b' ;;
  Ok (UtUllCreate h l).

(** utils.go:255-260 *)
Definition MatchReadFrom8 (b : bytes) : res Z :=
  h <- MatchReadFrom4 b ;; b' <- slice_from b 4 ;; l <- MatchReadFrom4 b' ;;
  Ok (Z.lor (u64 (Z.shiftl h 32)) l).

(** utils.go:262-265 *)
Definition pageHeaderGetField (b : bytes) (field : Z) : res Z :=
  b' <- slice_from b (u64 (38 + field)) ;; MatchReadFrom2 b'.

(** utils.go:267-271 *)
Definition PageIsCompact (b : bytes) : res Z :=
  v <- pageHeaderGetField b 4 ;; Ok (Z.land v 32768).

(** utils.go:166-170 *)
Definition RecGetBitField1 (rec : bytes) (offset offs mask shift : Z) : res Z :=
  r <- slice_from rec (u64 (offset - offs)) ;; v <- MatchReadFrom1 r ;;
  Ok (Z.shiftr (Z.land v mask) shift).

(** utils.go:33-39 *)
Definition RecGetStatus (rec : bytes) (offset : Z) : res Z :=
  RecGetBitField1 rec offset 3 7 0.

(** utils.go:41-44 *)
Definition UtAlignOffset (rec : bytes) (AlignNo : Z) : res Z :=
  v <- index rec 0 ;; Ok (Z.land v (u64 (AlignNo - 1))).

(** utils.go:159-164 *)
Definition RecGet1byteOffsFlag (rec : bytes) (offset : Z) : res Z :=
  RecGetBitField1 rec offset 3 1 0.

(** utils.go:147-151 *)
Definition Rec1GetFieldEndInfo (d : bytes) (offset n : Z) : res Z :=
  r <- slice_from d (u64 (offset - (6 + n + 1))) ;; MatchReadFrom1 r.

(** utils.go:153-157 *)
Definition Rec2GetFieldEndInfo (d : bytes) (offset n : Z) : res Z :=
  r <- slice_from d (u64 (offset - (6 + 2 * n + 2))) ;; MatchReadFrom2 r.

(** utils.go:116-124.  [offsets] is the array behind the pointer. *)
Definition RecOffsNthSize (offsets : list Z) (n : Z) : res Z :=
  base <- slice_from offsets 2 ;;
  if n =? 0 then
    v <- index base (1 + n) ;; Ok (Z.land v (2 ^ 30 - 1))
  else
    v <- index base (1 + n) ;; w <- index base n ;;
    Ok (Z.land (u64 (v - w)) (2 ^ 30 - 1)).

(** utils.go:142-145 *)
Definition RecOffNFields (offsets : list Z) : res Z := index offsets 1.

(** utils.go:137-140 *)
Definition RecOffsDataSize (offsets : list Z) : res Z :=
  base <- slice_from offsets 2 ;; n <- RecOffNFields offsets ;; index base n.

(** utils.go:131-135 *)
Definition RecOffsExtraSize (offsets : list Z) : res Z :=
  base <- slice_from offsets 2 ;; v <- index base 0 ;;
  Ok (Z.ldiff v (Z.lor (2 ^ 31) (2 ^ 30))).

(** utils.go:126-129 *)
Definition RecOffsSize (offsets : list Z) : res Z :=
  a <- RecOffsDataSize offsets ;; b <- RecOffsExtraSize offsets ;; Ok (u64 (a + b)).

(** utils.go:180-206.  Returns (offs, length); the code stores the length
    through a pointer. *)
Definition RecGetNthFieldOffs (offsets : list Z) (n : Z) : res (Z * Z) :=
  base <- slice_from offsets 2 ;;
  offs <- (if n =? 0 then Ok 0
           else v <- index base n ;; Ok (Z.land v (2 ^ 30 - 1))) ;;
  length <- index base (n + 1) ;;
  if Z.land length (2 ^ 31) =? 0
  then Ok (offs, u64 (Z.land length (2 ^ 30 - 1) - offs))
  else Ok (offs, 4294967295).

(** utils.go:172-178.  Returns the field slice and its length. *)
Definition RecGetNthField (rec : bytes) (offsets : list Z) (n : Z) : res (bytes * Z) :=
  '(offs, length) <- RecGetNthFieldOffs offsets n ;;
  d <- slice_from rec offs ;; Ok (d, length).

(** utils.go:208-218 and the os.File it reads.  A file being read is the list
    of outcomes of the coming file.Read calls: a chunk of 1..number bytes, or
    an I/O error; the empty list is end of file.  A chunk shorter than the
    buffer leaves the rest of the buffer zero. *)
Inductive ioev : Type := IoBytes (b : bytes) | IoErr.
Definition ReadNextBytes (f : list ioev) (number : nat) : option bytes * list ioev :=
  match f with
  | [] => (None, [])
  | IoErr :: f' => (None, f')
  | IoBytes b :: f' => (Some (firstn number (b ++ zeros number)), f')
  end.

(** utils.go:302 (message of the error) *)
Definition err_short_compressed : bytes := bs "data too short, method is MatchParseCompressed".

(** utils.go:273-308.  (value, bytes consumed, error); strconv.ParseInt on the
    constants cannot fail. *)
Definition MatchParseCompressed (data : bytes) (pos : Z) : res (Z * Z * option bytes) :=
  d <- slice_from data pos ;;
  flag <- MatchReadFrom1 d ;;
  if flag <? 128 then Ok (flag, 1, None)
  else if flag <? 192 then
    v <- MatchReadFrom2 d ;; Ok (Z.land v 32767, 2, None)
  else if flag <? 224 then
    v <- MatchReadFrom3 d ;; Ok (Z.land v 4194303, 3, None)
  else if flag <? 240 then
    v <- MatchReadFrom4 d ;; Ok (Z.land v 536870911, 4, None)
  else if len data <? u64 (pos + 5) then Ok (0, 5, Some err_short_compressed)
  else
    d1 <- slice_from data (u64 (pos + 1)) ;;
    v <- MatchReadFrom4 d1 ;; Ok (v, 5, None).

(** utils.go:310-335; the error is always nil. *)
Definition MatchGetCompressedSize (n : Z) : Z :=
  if n <? 128 then 1
  else if n <? 16384 then 2
  else if n <? 2097152 then 3
  else if n <? 268435456 then 4
  else 5.

(** utils.go:337-345 *)
Definition ParseBinaryUint8 (data : bytes) : res Z := index data 0.
Definition to_signed (w : Z) (x : Z) : Z := if x <? 2 ^ (w - 1) then x else x - 2 ^ w.
Definition ParseBinaryInt8 (data : bytes) : res Z :=
  v <- index data 0 ;; Ok (to_signed 8 v).

(** encoding/binary LittleEndian.Uint16/32/64: bounds check on the last byte
    first, then the bytes. *)
Definition le16 (b : bytes) : res Z :=
  b1 <- index b 1 ;; b0 <- index b 0 ;; Ok (Z.lor b0 (Z.shiftl b1 8)).
Definition le32 (b : bytes) : res Z :=
  b3 <- index b 3 ;; b0 <- index b 0 ;; b1 <- index b 1 ;; b2 <- index b 2 ;;
  Ok (Z.lor (Z.lor (Z.lor b0 (Z.shiftl b1 8)) (Z.shiftl b2 16)) (Z.shiftl b3 24)).
Definition le64 (b : bytes) : res Z :=
  b7 <- index b 7 ;; b0 <- index b 0 ;; b1 <- index b 1 ;; b2 <- index b 2 ;;
  b3 <- index b 3 ;; b4 <- index b 4 ;; b5 <- index b 5 ;; b6 <- index b 6 ;;
  Ok (Z.lor (Z.lor (Z.lor (Z.lor (Z.lor (Z.lor (Z.lor b0 (Z.shiftl b1 8))
      (Z.shiftl b2 16)) (Z.shiftl b3 24)) (Z.shiftl b4 32)) (Z.shiftl b5 40))
      (Z.shiftl b6 48)) (Z.shiftl b7 56)).

(** utils.go:347-389 *)
Definition ParseBinaryUint16 (data : bytes) : res Z := le16 data.
Definition ParseBinaryInt16 (data : bytes) : res Z := v <- le16 data ;; Ok (to_signed 16 v).
Definition ParseBinaryUint24 (data : bytes) : res Z :=
  b0 <- index data 0 ;; b1 <- index data 1 ;; b2 <- index data 2 ;;
  Ok (Z.lor (Z.lor b0 (Z.shiftl b1 8)) (Z.shiftl b2 16)).
Definition ParseBinaryInt24 (data : bytes) : res Z :=
  u <- ParseBinaryUint24 data ;;
  let u' := if Z.land u 8388608 =? 0 then u else Z.lor u 4278190080 in
  Ok (to_signed 32 u').
Definition ParseBinaryUint32 (data : bytes) : res Z := le32 data.
Definition ParseBinaryInt32 (data : bytes) : res Z := v <- le32 data ;; Ok (to_signed 32 v).
Definition ParseBinaryUint64 (data : bytes) : res Z := le64 data.
Definition ParseBinaryInt64 (data : bytes) : res Z := v <- le64 data ;; Ok (to_signed 64 v).

(** utils.go:391-399: math.Float32frombits/Float64frombits keep the bit
    pattern, so floats are represented by it. *)
Definition ParseBinaryFloat32 (data : bytes) : res Z := le32 data.
Definition ParseBinaryFloat64 (data : bytes) : res Z := le64 data.

(** utils.go:401-418.  Works on the caller's cursor. *)
Definition MatchUllReadComPressed (b : bytes) : P Z :=
  pos <-p getpos ;;
  '(n, num, err) <-p plift (MatchParseCompressed b pos) ;;
  _ <-p advance num ;;
  _ <-p (match err with Some e => pw (say e) | None => pret tt end) ;;
  let size := MatchGetCompressedSize n in
  pos1 <-p getpos ;;
  b1 <-p plift (slice_from b pos1) ;;
  b2 <-p plift (slice_from b1 size) ;;
  low <-p plift (MatchReadFrom4 b2) ;;
  _ <-p advance 4 ;;
  pret (Z.lor (u64 (Z.shiftl n 32)) low).

(** utils.go:420-451.  (value, error).  In the 0xFF branch the code declares a
    new n with :=, so the outer n, which is what is returned, stays 0. *)
Definition MatchUllReadMuchCompressed (b : bytes) : res (Z * option bytes) :=
  b0 <- index b 0 ;;
  szr <- (if negb (b0 =? 255) then Ok (0, None)
          else
            '(n, _, err) <- MatchParseCompressed b 1 ;;
            match err with
            | Some e => Ok (0, Some e)
            | None => Ok (1 + MatchGetCompressedSize n, None)
            end) ;;
  match szr with
  | (_, Some e) => Ok (0, Some e)
  | (size, None) =>
    '(value, _, err) <- MatchParseCompressed b size ;;
    match err with
    | Some e => Ok (0, Some e)
    | None => Ok (Z.lor 0 value, None)
    end
  end.

(** utils.go:453-471 *)
Definition MachUllGetMuchCompressedSize (num : Z) : Z :=
  let n := MatchGetCompressedSize num in
  if Z.shiftr num 32 =? 0 then n
  else MatchGetCompressedSize (Z.shiftr num 32)
       + MatchGetCompressedSize (Z.land num 4294967295).

(** utils.go:493, 505 *)
Definition err_index_short : bytes := bs "data is to short".

(** utils.go:511-517: the loop over the column lengths; each read only has to
    be in bounds.  [fuel] bounds the number of iterations by the data length
    (each iteration needs two more bytes). *)
Fixpoint ParseIndex_loop (fuel : nat) (data : bytes) (i n pos : Z) : res Z :=
  match fuel with
  | O => NoFuel
  | S f =>
    if i <? n then
      d <- slice_from data pos ;; _ <- MatchReadFrom2 d ;;
      ParseIndex_loop f data (i + 1) n (u64 (pos + 2))
    else Ok pos
  end.

(** utils.go:489-521.  (position, error) *)
Definition ParseIndex (comp : bool) (data : bytes) (pos : Z) : res (Z * option bytes) :=
  if comp then
    if len data <? u64 (pos + 4) then Ok (0, Some err_index_short)
    else
      d <- slice_from data pos ;; n <- MatchReadFrom2 d ;;
      let pos := u64 (pos + 2) in
      d <- slice_from data pos ;; _ <- MatchReadFrom2 d ;;
      let pos := u64 (pos + 2) in
      if len data <? u64 (pos + n * 2) then Ok (0, Some err_index_short)
      else
        p <- ParseIndex_loop (S (List.length data)) data 0 n pos ;; Ok (p, None)
  else Ok (pos, None).

(** utils.go:539 *)
Definition err_insert_short : bytes := bs "data is too short".

(** utils.go:523-572.  (position, error); prints on errors inside. *)
Definition ParseInsertRecord (IsShort : bool) (data : bytes) (pos : Z) : W (Z * option bytes) :=
  pos <-w wlift (if IsShort then Ok pos
                 else d <- slice_from data pos ;; _ <- MatchReadFrom2 d ;; Ok (u64 (pos + 2))) ;;
  '(EndSegLen, num, err) <-w wlift (MatchParseCompressed data pos) ;;
  match err with
  | Some e => wret (0, Some e)
  | None =>
    let pos := u64 (pos + num) in
    if len data <? pos then wret (0, Some err_insert_short)
    else
      pos <-w (if Z.land EndSegLen 1 =? 0 then wret pos
               else
                 d <-w wlift (slice_from data pos) ;;
                 _ <-w wlift (MatchReadFrom1 d) ;;
                 let pos := u64 (pos + 1) in
                 '(_, num, err) <-w wlift (MatchParseCompressed data pos) ;;
                 _ <-w (match err with Some e => say e | None => wret tt end) ;;
                 let pos := u64 (pos + num) in
                 '(_, num, err) <-w wlift (MatchParseCompressed data pos) ;;
                 _ <-w (match err with Some e => say e | None => wret tt end) ;;
                 wret (u64 (pos + num))) ;;
      wret (u64 (pos + Z.shiftr EndSegLen 1), None)
  end.

(** utils.go:46-91.  int and int64 results are VInt, the positive 3-byte case
    is a uint64.  ^x on uint64 is 2^64-1-x.  Go's % truncates, but every
    operand here is non-negative. *)
Definition not64 (x : Z) : Z := 2 ^ 64 - 1 - x.
Definition GetIntValue (FixLength : Z) (value : bytes) : res gval :=
  if FixLength =? 1 then
    v <- MatchReadFrom1 value ;;
    let v1 := Z.lor (Z.land v 127) (Z.land (not64 v) 128) in
    let t := i64 v1 mod TinyIntRange in
    Ok (VInt (if t >? TinyIntRange / 2 - 1 then t - TinyIntRange else t))
  else if FixLength =? 2 then
    v <- MatchReadFrom2 value ;;
    let v2 := Z.lor (Z.land v 32767) (Z.land (not64 v) 32768) in
    let t := i64 v2 mod SmallIntRange in
    Ok (VInt (if t >? SmallIntRange / 2 - 1 then t - SmallIntRange else t))
  else if FixLength =? 3 then
    v3 <- MatchReadFrom3 value ;;
    if Z.shiftr v3 23 =? 1 then Ok (VUint (Z.land v3 8388607))
    else Ok (VInt (Z.lxor (i64 v3) (- 2 ^ 23)))
  else if FixLength =? 4 then
    v <- MatchReadFrom4 value ;;
    let v4 := Z.lor (Z.land v 2147483647) (Z.land (not64 v) 2147483648) in
    let t := i64 v4 mod IntRange in
    Ok (VInt (if t >? IntRange / 2 - 1 then t - IntRange else t))
  else if FixLength =? 8 then
    v <- MatchReadFrom8 value ;;
    let v8 := Z.lor (Z.land v 9223372036854775807) (Z.land (not64 v) 9223372036854775808) in
    Ok (VInt (i64 v8))
  else Ok (VInt 0).

(** utils.go:93-114 *)
Definition GetUintValue (FixLength : Z) (value : bytes) : res Z :=
  if FixLength =? 1 then MatchReadFrom1 value
  else if FixLength =? 2 then MatchReadFrom2 value
  else if FixLength =? 3 then v <- MatchReadFrom3 value ;; Ok (Z.land v 4194303)
  else if FixLength =? 4 then MatchReadFrom4 value
  else if FixLength =? 5 then v <- MatchReadFrom8 value ;; Ok (Z.shiftr v 24)
  else if FixLength =? 6 then v <- MatchReadFrom8 value ;; Ok (Z.shiftr v 16)
  else if FixLength =? 7 then v <- MatchReadFrom8 value ;; Ok (Z.shiftr v 8)
  else if FixLength =? 8 then MatchReadFrom8 value
  else Ok 0.

(** utils.go:658-698.  Not called by the tool. *)
Definition GetFixedLengthByMySQLType (MySQLType FieldLen : Z) : Z :=
  if MySQLType =? MYSQL_TYPE_LONG then 0
  else if MySQLType =? MYSQL_TYPE_DATETIME then 0
  else if MySQLType =? MYSQL_TYPE_VARCHAR then 0
  else if (MySQLType =? MYSQL_TYPE_TINY_BLOB) || (MySQLType =? MYSQL_TYPE_MEDIUM_BLOB)
          || (MySQLType =? MYSQL_TYPE_LONG_BLOB) || (MySQLType =? MYSQL_TYPE_BLOB) then 0
  else FieldLen.

(** utils.go:700-732 *)
Definition GetFixedLength (DataType FieldLen : Z) : Z :=
  if DataType =? DATA_BLOB then 0
  else if DataType =? DATA_VARMYSQL then 0
  else if DataType =? DATA_MYSQL then 0
  else if DataType =? DATA_BINARY then FieldLen
  else FieldLen.

(** utils.go:741-785 *)
Definition GetTimeFormat (data : bytes) : res Z :=
  d <- MatchReadFrom8 data ;;
  let r := Z.ldiff d (2 ^ 63) in
  let sec := r mod 100 in let r := r / 100 in
  let min := r mod 100 in let r := r / 100 in
  let hour := r mod 100 in let r := r / 100 in
  let day := r mod 100 in let r := r / 100 in
  let month := r mod 100 in
  let year := d mod 10000 in
  if (year >? 1990) && (year <? 2100) && (month >=? 1) && (month <=? 12)
     && (day >=? 1) && (day <=? 31) && (hour >=? 0) && (hour <=? 23)
     && (min >=? 0) && (min <=? 59) && (sec >=? 0) && (sec <=? 59)
  then Ok 1
  else
    let sign := Z.shiftr d 63 in
    if sign =? 0 then Ok 0
    else
      let yd := Z.shiftr (Z.land d 9223301668110598144) 46 in
      let year := yd / 13 in
      let month := yd - year * 13 in
      let day := Z.shiftr (Z.land d 68169720922112) 41 in
      let hour := Z.shiftr (Z.land d 2130303778816) 36 in
      let min := Z.shiftr (Z.land d 67645734912) 30 in
      let sec := Z.shiftr (Z.land d 1056964608) 24 in
      if (year >? 1990) && (year <? 2100) && (month >=? 1) && (month <=? 12)
         && (day >=? 1) && (day <=? 31) && (hour >=? 0) && (hour <=? 23)
         && (min >=? 0) && (min <=? 59) && (sec >=? 0) && (sec <=? 59)
      then Ok 2 else Ok 0.

(** utils.go:805, 819: "%02d-%02d-%02d %02d:%02d:%02d" *)
Definition fmt_datetime (year month day hour min sec : Z) : bytes :=
  fmt_02d year ++ bs "-" ++ fmt_02d month ++ bs "-" ++ fmt_02d day ++ bs " "
  ++ fmt_02d hour ++ bs ":" ++ fmt_02d min ++ bs ":" ++ fmt_02d sec.

(** utils.go:787-826 *)
Definition ParseDateTime (data : bytes) : res bytes :=
  format <- GetTimeFormat data ;;
  if (format =? 1) || (format =? 0) then
    ldate <- MatchReadFrom8 data ;;
    let ldate := Z.ldiff ldate (2 ^ 63) in
    let sec := ldate mod 100 in let ldate := ldate / 100 in
    let min := ldate mod 100 in let ldate := ldate / 100 in
    let hour := ldate mod 100 in let ldate := ldate / 100 in
    let day := ldate mod 100 in let ldate := ldate / 100 in
    let month := ldate mod 100 in let ldate := ldate / 100 in
    let year := ldate mod 10000 in
    Ok (fmt_datetime year month day hour min sec)
  else if format =? 2 then
    ldate <- MatchReadFrom8 data ;;
    let yd := Z.shiftr (Z.land ldate 9223301668110598144) 46 in
    let year := yd / 13 in
    let month := yd - year * 13 in
    let day := Z.shiftr (Z.land ldate 68169720922112) 41 in
    let hour := Z.shiftr (Z.land ldate 2130303778816) 36 in
    let min := Z.shiftr (Z.land ldate 67645734912) 30 in
    let sec := Z.shiftr (Z.land ldate 1056964608) 24 in
    Ok (fmt_datetime year month day hour min sec)
  else Ok [].

(** utils.go:828-841 *)
Definition ParseDate (data : bytes) : res bytes :=
  ldate <- MatchReadFrom3 data ;;
  let ldate := Z.ldiff ldate (2 ^ 23) in
  let day := ldate mod 32 in let ldate := ldate / 32 in
  let month := ldate mod 16 in let ldate := ldate / 16 in
  let year := ldate in
  Ok (fmt_02d year ++ bs "-" ++ fmt_02d month ++ bs "-" ++ fmt_02d day).

(** utils.go:843-879; MySQLVersion is the constant "5.6" (const.go:106), so
    the default branch (870-877) is dead and not modelled. *)
Definition ParseTime (data : bytes) : res bytes :=
  v <- MatchReadFrom3 data ;;
  let ltime := i64 v - 8388608 in
  let IsNegative := ltime <? 0 in
  let ltime := if IsNegative then - ltime else ltime in
  let hour := Z.shiftr (Z.land ltime 4190208) 12 in
  let min := Z.shiftr (Z.land ltime 4032) 6 in
  let sec := Z.land ltime 63 in
  let FormatTime := fmt_02d hour ++ bs ":" ++ fmt_02d min ++ bs ":" ++ fmt_02d sec in
  Ok (if IsNegative then bs "-" ++ FormatTime else FormatTime).

(** Go's time package: civil date of a day number since 1970-01-01 in the
    proleptic Gregorian calendar (400-year eras starting on March 1st).
    Simplified: an equivalent closed form instead of time.absDate's cycles. *)
Definition civil_of_days (days : Z) : Z * Z * Z :=
  let z := days + 719468 in
  let era := z / 146097 in
  let doe := z mod 146097 in
  let yoe := (doe - doe / 1460 + doe / 36524 - doe / 146096) / 365 in
  let doy := doe - (365 * yoe + yoe / 4 - yoe / 100) in
  let mp := (5 * doy + 2) / 153 in
  let d := doy - (153 * mp + 2) / 5 + 1 in
  let m := if mp <? 10 then mp + 3 else mp - 9 in
  let y := yoe + era * 400 + (if m <=? 2 then 1 else 0) in
  (y, m, d).

(** Go's time package: a year printed with at least four digits. *)
Definition fmt_year4 (y : Z) : bytes :=
  let d := dec y in repeat 48 (4 - List.length d) ++ d.

(** Go's time package: Format("2006-01-02 03:04:05").  "03" is the hour of a
    12-hour clock. *)
Definition time_format (secs : Z) : bytes :=
  let '(y, m, d) := civil_of_days (secs / 86400) in
  let sod := secs mod 86400 in
  let hour := sod / 3600 in
  let hr := hour mod 12 in
  let hr12 := if hr =? 0 then 12 else hr in
  fmt_year4 y ++ bs "-" ++ fmt_02d m ++ bs "-" ++ fmt_02d d ++ bs " "
  ++ fmt_02d hr12 ++ bs ":" ++ fmt_02d (sod mod 3600 / 60) ++ bs ":" ++ fmt_02d (sod mod 60).

(** utils.go:881-887 *)
Definition ParseTimeStamp (rt : runtime) (data : bytes) : res bytes :=
  t <- MatchReadFrom4 data ;;
  Ok (time_format (i64 t + rt_zone rt (i64 t))).

(** utils.go:889-894 *)
Definition ParseFloat (data : bytes) : res Z := d <- slice_to data 4 ;; le32 d.

(** utils.go:896-901 *)
Definition ParseDouble (data : bytes) : res Z := d <- slice_to data 8 ;; le64 d.

(** encoding/hex: the digits "0123456789abcdef" *)
Definition hex_digit (n : Z) : Z := if n <? 10 then 48 + n else 87 + n.

(** utils.go:903-909 with encoding/hex.Encode *)
Definition ParseBlob (data : bytes) : bytes :=
  flat_map (fun v => [hex_digit (Z.shiftr v 4); hex_digit (Z.land v 15)]) data.

(** utils.go:574-656.  Returns the value (the error is always nil) and the new
    contents of *IsBinary; may print.  [data] has cap = len at every call
    site that can reach data[:FieldLen] with FieldLen > len; where ParseFloat
    and ParseDouble can see a larger capacity, see ParseDataCap in Redo.v. *)
Definition ParseData (rt : runtime) (DataType MySQLType : Z) (data : bytes)
    (FieldLen FixLength : Z) (IsUnsigned IsBinary : bool) : W (gval * bool) :=
  let str (o : list bytes) : W (gval * bool) :=
    (o, (d <- slice_to data FieldLen ;; Ok (VStr d, IsBinary))) in
  let keep (r : res gval) : W (gval * bool) := ([], (v <- r ;; Ok (v, IsBinary))) in
  let keepstr (r : res bytes) : W (gval * bool) := ([], (v <- r ;; Ok (VStr v, IsBinary))) in
  let keepuint (r : res Z) : W (gval * bool) := ([], (v <- r ;; Ok (VUint v, IsBinary))) in
  let uint : W (gval * bool) :=
    keepuint (d <- slice_to data FieldLen ;; GetUintValue FixLength d) in
  let blob : W (gval * bool) :=
    ([], (d <- slice_to data FieldLen ;; Ok (VStr (ParseBlob d), true))) in
  if DataType =? DATA_VARCHAR then str []
  else if DataType =? DATA_CHAR then str []
  else if DataType =? DATA_FIXBINARY then
    if MySQLType =? MYSQL_TYPE_TIME then keepstr (ParseTime data)
    else if MySQLType =? MYSQL_TYPE_TIMESTAMP then keepstr (ParseTimeStamp rt data)
    else if MySQLType =? MYSQL_TYPE_DATETIME then keepstr (ParseDateTime data)
    else if MySQLType =? MYSQL_TYPE_BIT then uint
    else if MySQLType =? MYSQL_TYPE_NEWDECIMAL then str [bs "test MYSQL_TYPE_NEWDECIMAL"]
    else if MySQLType =? MYSQL_TYPE_STRING then blob
    else str []
  else if DataType =? DATA_BINARY then
    if MySQLType =? MYSQL_TYPE_VARCHAR then blob
    else if negb (FixLength =? 0) then uint
    else str []
  else if DataType =? DATA_INT then
    if MySQLType =? MYSQL_TYPE_DATE then keepstr (ParseDate data)
    else if MySQLType =? MYSQL_TYPE_YEAR then
      keepuint (v <- MatchReadFrom1 data ;; Ok (v + 1900))
    else if IsUnsigned then uint
    else keep (d <- slice_to data FieldLen ;; GetIntValue FixLength d)
  else if DataType =? DATA_FLOAT then keep (v <- ParseFloat data ;; Ok (VF32 v))
  else if DataType =? DATA_DOUBLE then keep (v <- ParseDouble data ;; Ok (VF64 v))
  else if DataType =? DATA_DECIMAL then wret (VNil, IsBinary)
  else if DataType =? DATA_VARMYSQL then str []
  else if DataType =? DATA_MYSQL then
    keepstr (d <- slice_to data FieldLen ;; Ok (trim_space d))
  else if DataType =? DATA_BLOB then
    if IsBinary then blob else str []
  else wret (VNil, IsBinary).

(** utils.go:917-935: the escape of a rune, if it has one *)
Definition esc_of (c : Z) : option bytes :=
  if c =? 0 then Some [92; 48]
  else if c =? 10 then Some [92; 110]
  else if c =? 13 then Some [92; 114]
  else if c =? 92 then Some [92; 92]
  else if c =? 39 then Some [92; 39]
  else if c =? 34 then Some [92; 34]
  else if c =? 26 then Some [92; 90]
  else None.

(** utils.go:936: colValue[last:i] inside the loop (in bounds there) *)
Definition substr (s : bytes) (a b : Z) : bytes :=
  firstn (Z.to_nat (b - a)) (skipn (Z.to_nat a) s).

(** utils.go:917-939: body of the range loop; state (buffer, last) *)
Definition escape_step (colValue : bytes) (st : bytes * Z) (ic : Z * Z) : bytes * Z :=
  let '(buf, last) := st in
  let '(i, c) := ic in
  match esc_of c with
  | None => st
  | Some esc => (buf ++ substr colValue last i ++ esc, i + 1)
  end.

(** utils.go:911-947 *)
Definition EscapeValue (colValue : bytes) : bytes :=
  let '(buf, last) := fold_left (escape_step colValue) (range_string colValue) ([], 0) in
  let out := buf ++ substr colValue last (len colValue) in
  if beq out (bs "0001-01-01T00:00:00Z") then [] else out.

(** utils.go:978-985; uint64(b) << (8*i), 0 once the shift is 64 or more *)
Fixpoint FixedLengthInt_loop (i : Z) (buf : bytes) (num : Z) : Z :=
  match buf with
  | [] => num
  | b :: t => FixedLengthInt_loop (i + 1) t (Z.lor num (u64 (Z.shiftl b (i * 8))))
  end.
Definition FixedLengthInt (buf : bytes) : Z := FixedLengthInt_loop 0 buf 0.
