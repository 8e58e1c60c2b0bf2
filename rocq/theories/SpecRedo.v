(** The redo log of InnoDB 5.6/5.7: an independent specification (log0recv.cc,
    mtr0log.cc, page0cur.cc, btr0cur.cc, trx0rec.cc and friends), using none of
    the model's functions. *)
From Coq Require Import ZArith List Bool String.
From Verif Require Import SpecInno SpecSql SpecRecord.
Import ListNotations.
Open Scope Z_scope.
Local Open Scope list_scope.
Close Scope string_scope.

(** * Blocks and files *)
(** A block is 512 bytes: a header of 12 bytes, whose bytes 4 and 5 hold the
    number of bytes used (header included, 512 if the block is full), the
    payload, and a trailer of 4 bytes. *)
Definition block_len (b : list Z) : Z := be_val (firstn 2 (skipn 4 b)).
Definition block_payload (b : list Z) : list Z :=
  let n := if block_len b =? 512 then 508 else block_len b in
  firstn (Z.to_nat (n - 12)) (skipn 12 b).
Definition log_block (b : list Z) : Prop :=
  zlen b = 512 /\ Forall (fun x => 0 <= x < 256) b /\ (block_len b = 0 \/ 12 <= block_len b <= 508 \/ block_len b = 512).
(** The payloads up to the first block without data *)
Fixpoint payloads (bs : list (list Z)) : list Z :=
  match bs with
  | [] => []
  | b :: r => if block_len b =? 0 then [] else block_payload b ++ payloads r
  end.
(** A file: header block (with a zero-terminated creator name at 16), first
    checkpoint, an unused block, second checkpoint, then the log blocks. *)
Record log_file : Type := mkLogFile { lf_header : list Z; lf_cp1 : list Z; lf_unused : list Z; lf_cp2 : list Z; lf_blocks : list (list Z) }.
Definition file_ok (f : log_file) : Prop :=
  zlen (lf_header f) = 512 /\ In 0 (skipn 16 (lf_header f)) /\ Forall (fun x => 0 <= x < 256) (lf_header f)
  /\ zlen (lf_cp1 f) = 512 /\ zlen (lf_unused f) = 512 /\ zlen (lf_cp2 f) = 512
  /\ Forall log_block (lf_blocks f).

(** * Records *)
(** The description of an index in records about COMPACT pages *)
Record index_desc : Type := mkDesc { de_uniq : Z; de_lens : list Z }.
Definition enc_desc (d : index_desc) : list Z := be 2 (zlen (de_lens d)) ++ be 2 (de_uniq d) ++ flat_map (be 2) (de_lens d).
Definition desc_ok (d : index_desc) : Prop := zlen (de_lens d) < 2 ^ 16 /\ 0 <= de_uniq d < 2 ^ 16.
Definition enc_opt (d : option index_desc) : list Z := match d with None => [] | Some d => enc_desc d end.
Definition opt_ok (d : option index_desc) : Prop := match d with None => True | Some d => desc_ok d end.

(** An inserted record: its bytes that differ from the cursor record, and
    optionally info bits, origin offset and mismatch index *)
Record insertion : Type := mkIns { in_extra : option (Z * Z * Z); in_bytes : list Z }.
Definition enc_insertion (i : insertion) : list Z :=
  match in_extra i with
  | None => enc_compressed (2 * zlen (in_bytes i)) ++ in_bytes i
  | Some (info, origin, mismatch) =>
      enc_compressed (2 * zlen (in_bytes i) + 1) ++ be 1 info ++ enc_compressed origin ++ enc_compressed mismatch ++ in_bytes i
  end.
Definition insertion_ok (i : insertion) : Prop :=
  zlen (in_bytes i) < 2 ^ 31 - 1 /\
  match in_extra i with None => True | Some (info, origin, mismatch) => 0 <= info < 256 /\ 0 <= origin < 2 ^ 32 /\ 0 <= mismatch < 2 ^ 32 end.

(** DB_TRX_ID's position, the roll pointer and the transaction id *)
Record sysvals : Type := mkSys { sv_pos : Z; sv_roll : Z; sv_trx : Z }.
Definition enc_sys (s : sysvals) : list Z := enc_compressed (sv_pos s) ++ be 7 (sv_roll s) ++ enc_u64_compressed (sv_trx s).
Definition sys_ok (s : sysvals) : Prop := 0 <= sv_pos s < 2 ^ 32 /\ 0 <= sv_roll s < 2 ^ 56 /\ 0 <= sv_trx s < 2 ^ 64.

(** A field of an update vector: its number and its new value, None for NULL
    (whose length is written as 2^32-1) *)
Definition enc_field (f : Z * option (list Z)) : list Z :=
  enc_compressed (fst f) ++ match snd f with None => enc_compressed (2 ^ 32 - 1) | Some v => enc_compressed (zlen v) ++ v end.
Definition field_ok (f : Z * option (list Z)) : Prop :=
  0 <= fst f < 2 ^ 32 /\ match snd f with None => True | Some v => zlen v < 2 ^ 32 - 1 end.

Inductive body : Type :=
| BNum (size off val : Z)                                  (* MLOG_1BYTE, 2BYTES, 4BYTES *)
| BNum8 (off val : Z)                                      (* MLOG_8BYTES *)
| BNone (type : Z)                                         (* records without a body *)
| BSecDelete (val off : Z)                                 (* MLOG_REC_SEC_DELETE_MARK *)
| BUndo (bytes : list Z)                                   (* MLOG_UNDO_INSERT *)
| BUndoInit (kind : Z)                                     (* MLOG_UNDO_INIT *)
| BUndoReuse (trx : Z) | BUndoCreate (trx : Z)             (* MLOG_UNDO_HDR_REUSE, _CREATE *)
| BString (off : Z) (s : list Z)                           (* MLOG_WRITE_STRING *)
| BFile (type : Z) (name : list Z)                         (* MLOG_FILE_CREATE, _DELETE, _NAME *)
| BFileCreate2 (flags : Z) (name : list Z)                 (* MLOG_FILE_CREATE2 *)
| BFileRename (type : Z) (name new : list Z)               (* MLOG_FILE_RENAME, _RENAME2 *)
| BMinMark (comp : bool) (off : Z)                         (* MLOG_(COMP_)REC_MIN_MARK *)
| BInsert (d : option index_desc) (off : Z) (i : insertion)  (* MLOG_(COMP_)REC_INSERT *)
| BClustDelete (d : option index_desc) (flags val : Z) (s : sysvals) (off : Z)  (* MLOG_(COMP_)REC_CLUST_DELETE_MARK *)
| BCompSecDelete (d : index_desc) (val off : Z)            (* MLOG_COMP_REC_SEC_DELETE_MARK *)
| BUpdate (d : option index_desc) (flags : Z) (s : sysvals) (off info : Z) (fields : list (Z * option (list Z)))  (* MLOG_(COMP_)REC_UPDATE_IN_PLACE *)
| BDelete (d : option index_desc) (off : Z)                (* MLOG_(COMP_)REC_DELETE *)
| BListDelete (d : option index_desc) (start : bool) (off : Z)  (* MLOG_(COMP_)LIST_END/START_DELETE *)
| BCopy (d : option index_desc) (is : list insertion)      (* MLOG_(COMP_)LIST_END_COPY_CREATED *)
| BReorganize (d : option index_desc)                      (* MLOG_(COMP_)PAGE_REORGANIZE *)
| BZipReorganize (d : index_desc) (level : Z)              (* MLOG_ZIP_PAGE_REORGANIZE *)
| BZipNodePtr (off zoff ptr : Z)                           (* MLOG_ZIP_WRITE_NODE_PTR *)
| BZipBlobPtr (off zoff : Z) (ptr : list Z)                (* MLOG_ZIP_WRITE_BLOB_PTR *)
| BZipHeader (off : Z) (s : list Z)                        (* MLOG_ZIP_WRITE_HEADER *)
| BZipCompress (prev next : Z) (s trailer : list Z)        (* MLOG_ZIP_PAGE_COMPRESS *)
| BZipNoData (d : index_desc) (level : Z)                  (* MLOG_ZIP_PAGE_COMPRESS_NO_DATA *)
| BTruncate (lsn : Z)                                      (* MLOG_TRUNCATE *)
| BIndexLoad (id : Z).                                     (* MLOG_INDEX_LOAD *)

Definition comp (d : option index_desc) (plain compact : Z) : Z := match d with None => plain | Some _ => compact end.
(** mtr0types.h *)
Definition type_of (b : body) : Z :=
  match b with
  | BNum size _ _ => size
  | BNum8 _ _ => 8
  | BNone t => t
  | BSecDelete _ _ => 11
  | BUndo _ => 20
  | BUndoInit _ => 22
  | BUndoReuse _ => 24
  | BUndoCreate _ => 25
  | BString _ _ => 30
  | BFile t _ => t
  | BFileCreate2 _ _ => 47
  | BFileRename t _ _ => t
  | BMinMark c _ => if c then 36 else 26
  | BInsert d _ _ => comp d 9 38
  | BClustDelete d _ _ _ _ => comp d 10 39
  | BCompSecDelete _ _ _ => 40
  | BUpdate d _ _ _ _ _ => comp d 13 41
  | BDelete d _ => comp d 14 42
  | BListDelete d s _ => if s then comp d 16 44 else comp d 15 43
  | BCopy d _ => comp d 17 45
  | BReorganize d => comp d 18 46
  | BZipReorganize _ _ => 53
  | BZipNodePtr _ _ _ => 48
  | BZipBlobPtr _ _ _ => 49
  | BZipHeader _ _ => 50
  | BZipCompress _ _ _ _ => 51
  | BZipNoData _ _ => 52
  | BTruncate _ => 60
  | BIndexLoad _ => 61
  end.
Definition enc_body (b : body) : list Z :=
  match b with
  | BNum _ off val => be 2 off ++ enc_compressed val
  | BNum8 off val => be 2 off ++ enc_u64_compressed val
  | BNone _ => []
  | BSecDelete val off => be 1 val ++ be 2 off
  | BUndo bytes => be 2 (zlen bytes) ++ bytes
  | BUndoInit kind => enc_compressed kind
  | BUndoReuse trx | BUndoCreate trx => enc_u64_compressed trx
  | BString off s => be 2 off ++ be 2 (zlen s) ++ s
  | BFile _ name => be 2 (zlen name) ++ name
  | BFileCreate2 flags name => be 4 flags ++ be 2 (zlen name) ++ name
  | BFileRename _ name new => be 2 (zlen name) ++ name ++ be 2 (zlen new) ++ new
  | BMinMark _ off => be 2 off
  | BInsert d off i => enc_opt d ++ be 2 off ++ enc_insertion i
  | BClustDelete d flags val s off => enc_opt d ++ be 1 flags ++ be 1 val ++ enc_sys s ++ be 2 off
  | BCompSecDelete d val off => enc_desc d ++ be 1 val ++ be 2 off
  | BUpdate d flags s off info fields =>
      enc_opt d ++ be 1 flags ++ enc_sys s ++ be 2 off ++ be 1 info ++ enc_compressed (zlen fields) ++ flat_map enc_field fields
  | BDelete d off => enc_opt d ++ be 2 off
  | BListDelete d _ off => enc_opt d ++ be 2 off
  | BCopy d is => enc_opt d ++ be 4 (zlen (flat_map enc_insertion is)) ++ flat_map enc_insertion is
  | BReorganize d => enc_opt d
  | BZipReorganize d level => enc_desc d ++ be 1 level
  | BZipNodePtr off zoff ptr => be 2 off ++ be 2 zoff ++ be 4 ptr
  | BZipBlobPtr off zoff ptr => be 2 off ++ be 2 zoff ++ ptr
  | BZipHeader off s => be 1 off ++ be 1 (zlen s) ++ s
  | BZipCompress prev next s trailer => be 2 (zlen s) ++ be 2 (zlen trailer) ++ be 4 prev ++ be 4 next ++ s ++ trailer
  | BZipNoData d level => enc_desc d ++ be 1 level
  | BTruncate lsn => be 8 lsn
  | BIndexLoad id => be 8 id
  end.
Definition short (n : Z) : Prop := 0 <= n < 2 ^ 16.
Definition octet (n : Z) : Prop := 0 <= n < 2 ^ 8.
Definition word (n : Z) : Prop := 0 <= n < 2 ^ 32.
(** UNDO_ERASE_END, UNDO_HDR_DISCARD, IBUF_BITMAP_INIT, INIT_FILE_PAGE and
    INIT_FILE_PAGE2, the page-creation records *)
Definition no_body : list Z := [21; 23; 27; 29; 59; 19; 37; 57; 58].
Definition body_ok (b : body) : Prop :=
  match b with
  | BNum size off val => In size [1; 2; 4] /\ short off /\ word val
  | BNum8 off val => short off /\ 0 <= val < 2 ^ 64
  | BNone t => In t no_body
  | BSecDelete val off => octet val /\ short off
  | BUndo bytes => zlen bytes < 2 ^ 16
  | BUndoInit kind => word kind
  | BUndoReuse trx | BUndoCreate trx => 0 <= trx < 2 ^ 64
  | BString off s => short off /\ zlen s < 2 ^ 16
  | BFile t name => In t [33; 35; 55] /\ zlen name < 2 ^ 16
  | BFileCreate2 flags name => word flags /\ zlen name < 2 ^ 16
  | BFileRename t name new => In t [34; 54] /\ zlen name < 2 ^ 16 /\ zlen new < 2 ^ 16
  | BMinMark _ off => short off
  | BInsert d off i => opt_ok d /\ short off /\ insertion_ok i
  | BClustDelete d flags val s off => opt_ok d /\ octet flags /\ octet val /\ sys_ok s /\ short off
  | BCompSecDelete d val off => desc_ok d /\ octet val /\ short off
  | BUpdate d flags s off info fields => opt_ok d /\ octet flags /\ sys_ok s /\ short off /\ octet info
      /\ zlen fields < 2 ^ 32 /\ Forall field_ok fields
  | BDelete d off => opt_ok d /\ short off
  | BListDelete d _ off => opt_ok d /\ short off
  | BCopy d is => opt_ok d /\ zlen (flat_map enc_insertion is) < 2 ^ 32 /\ Forall insertion_ok is
  | BReorganize d => opt_ok d
  | BZipReorganize d level => desc_ok d /\ octet level
  | BZipNodePtr off zoff ptr => short off /\ short zoff /\ word ptr
  | BZipBlobPtr off zoff ptr => short off /\ short zoff /\ zlen ptr = 20
  | BZipHeader off s => octet off /\ zlen s < 2 ^ 8
  | BZipCompress prev next s trailer => word prev /\ word next /\ zlen s < 2 ^ 16 /\ zlen trailer < 2 ^ 16
  | BZipNoData d level => desc_ok d /\ octet level
  | BTruncate lsn => 0 <= lsn < 2 ^ 64
  | BIndexLoad id => 0 <= id < 2 ^ 64
  end.

(** A log entry: a record with its page, the end of a mini-transaction, or a
    checkpoint; the first byte's top bit says whether the record is alone in
    its mini-transaction. *)
Inductive entry : Type :=
| ERecord (single : bool) (space page : Z) (b : body)
| EEnd
| ECheckpoint (lsn : Z)
| EDummy.
Definition enc_entry (e : entry) : list Z :=
  match e with
  | ERecord single space page b => (type_of b + if single then 128 else 0) :: enc_compressed space ++ enc_compressed page ++ enc_body b
  | EEnd => [31]
  | ECheckpoint lsn => 56 :: be 8 lsn
  | EDummy => [32]
  end.
Definition entry_ok (e : entry) : Prop :=
  match e with
  | ERecord _ space page b => word space /\ word page /\ body_ok b
  | ECheckpoint lsn => 0 <= lsn < 2 ^ 64
  | _ => True
  end.

(** The records every version of the recovery tool is meant to step over, apart
    from three kinds looked at separately: file renames, delete marks in
    COMPACT secondary indexes, and in-place updates to NULL.  Undo records are
    in UNDO below. *)
Definition ordinary (b : body) : Prop :=
  match b with
  | BUndo _ | BFileRename _ _ _ | BCompSecDelete _ _ _ => False
  | BUpdate _ _ _ _ _ fields => Forall (fun f => snd f <> None) fields
  | _ => True
  end.
(** How many bytes the log must go on after the record: as many as the high
    word of its transaction id is long must follow that id. *)
Definition high_size (n : Z) : Z := zlen (enc_compressed (n / 2 ^ 32)).
Definition room (b : body) : Z :=
  match b with
  | BUndoReuse trx => high_size trx
  | BClustDelete _ _ _ s _ => Z.max 0 (high_size (sv_trx s) - 2)
  | BUpdate _ _ s _ _ fields =>
      Z.max 0 (high_size (sv_trx s) - (3 + zlen (enc_compressed (zlen fields)) + zlen (flat_map enc_field fields)))
  | _ => 0
  end.

(** * Undo records *)
(** trx_undo_page_report_insert and _modify: type (with the compiler info in
    bits 4-6 and the external-storage flag in bit 7), undo number, table id;
    unless it is an insert: info bits, transaction id and roll pointer of the
    old version; the primary key; for updates the old values of the changed
    columns, by position in the clustered index; further bytes. *)
Definition UNDO_INSERT := 11.
Definition UNDO_UPDATE := 12.
Definition UNDO_UPDATE_DELETED := 13.
Definition UNDO_DELETE := 14.
Record undo : Type := mkUndo {
  un_type : Z; un_cmpl : Z; un_extern : bool; un_no : Z; un_table : Z; un_info : Z; un_trx : Z; un_roll : Z;
  un_keys : list (list Z); un_changes : list (Z * option (list Z)); un_more : list Z }.
Definition enc_key (k : list Z) : list Z := enc_compressed (zlen k) ++ k.
Definition enc_undo_head (u : undo) : list Z :=
  be 1 (un_type u + 16 * un_cmpl u + if un_extern u then 128 else 0) ++ enc_much_compressed (un_no u) ++ enc_much_compressed (un_table u)
  ++ (if un_type u =? UNDO_INSERT then [] else be 1 (un_info u) ++ enc_u64_compressed (un_trx u) ++ enc_u64_compressed (un_roll u)).
Definition enc_undo (u : undo) : list Z :=
  enc_undo_head u ++ flat_map enc_key (un_keys u)
  ++ (if (un_type u =? UNDO_UPDATE) || (un_type u =? UNDO_UPDATE_DELETED)
      then enc_compressed (zlen (un_changes u)) ++ flat_map enc_field (un_changes u) else [])
  ++ un_more u.
Definition undo_ok (u : undo) : Prop :=
  In (un_type u) [UNDO_INSERT; UNDO_UPDATE; UNDO_UPDATE_DELETED; UNDO_DELETE] /\ 0 <= un_cmpl u < 8
  /\ 0 <= un_no u < 2 ^ 32 /\ 0 <= un_table u < 2 ^ 32 /\ 0 <= un_info u < 256
  /\ 0 <= un_trx u < 2 ^ 64 /\ 0 <= un_roll u < 2 ^ 64
  /\ Forall (fun k => zlen k < 2 ^ 32) (un_keys u)
  /\ zlen (un_changes u) < 2 ^ 32 /\ Forall field_ok (un_changes u)
  /\ zlen (enc_undo u) < 2 ^ 16.
(** Followed by [after] bytes, the record leaves as many past the roll pointer
    as the high word of that is long. *)
Definition undo_room (u : undo) (after : Z) : Prop :=
  un_type u = UNDO_INSERT \/ high_size (un_roll u) <= zlen (enc_undo u) - zlen (enc_undo_head u) + after.

(** * The statement that undoes an update *)
Fixpoint joined (sep : list Z) (l : list (list Z)) : list Z :=
  match l with
  | [] => []
  | [x] => x
  | x :: r => x ++ sep ++ joined sep r
  end.
Definition equals (name : list Z) (value : option (list Z)) : list Z :=
  txt "`" ++ name ++ txt "`=" ++ match value with None => txt "NULL" | Some t => txt "'" ++ t ++ txt "'" end.
Definition undo_statement (db tb : list Z) (old : list (list Z * option (list Z))) (key : list (list Z * list Z)) : list Z :=
  txt "update `" ++ db ++ txt "`.`" ++ tb ++ txt "` set "
  ++ joined (txt " and ") (map (fun o => equals (fst o) (snd o)) old)
  ++ txt " where " ++ joined (txt " and ") (map (fun k => equals (fst k) (Some (snd k))) key) ++ txt ";".

(** * The circle of blocks and their checksums *)
(** The first four bytes of a block hold its number (below the flush bit),
    which grows by one from block to block in the order they are written; the
    files are used again from their start once they are full.  The blocks in
    the order they were written: *)
Definition block_number (b : list Z) : Z := be_val (firstn 4 b) mod 2 ^ 31.
Inductive in_order : list (list Z) -> Prop :=
| io_nil : in_order []
| io_cons b bs : Forall (fun b' => block_number b < block_number b') bs -> in_order bs -> in_order (b :: bs).
Definition file_blocks (fs : list log_file) : list (list Z) := flat_map lf_blocks fs.
(** The last four bytes hold a checksum of the others (which one, depends on
    the version). *)
Definition sound_block (checksum : list Z -> Z) (b : list Z) : Prop := be_val (skipn 508 b) = checksum (firstn 508 b).
(** The payloads up to the first block that is empty or damaged *)
Fixpoint sound_payloads (sound : list Z -> bool) (bs : list (list Z)) : list Z :=
  match bs with
  | [] => []
  | b :: r => if (block_len b =? 0) || negb (sound b) then [] else block_payload b ++ sound_payloads sound r
  end.
