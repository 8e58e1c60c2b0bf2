(** How InnoDB stores a record in a page: an independent specification, from
    the MySQL 5.6/5.7 sources (rem0rec.cc, dict0mem.h, page0page.h), using
    none of the model's functions. *)
From Coq Require Import ZArith List Bool.
From Verif Require Import SpecInno.
Import ListNotations.
Open Scope Z_scope.

(** What the storage engine knows of a column: may it be NULL; its length if
    it has a fixed one; may its length need two bytes (maximum above 255, or
    a BLOB). *)
Record layout : Type := mkLayout { l_nullable : bool; l_fixed : option Z; l_big : bool }.

(** The stored form of one column: SQL NULL, a value stored in the record, or
    a value stored outside of which the record holds [b] (a prefix and the
    20-byte reference). *)
Inductive stored : Type :=
| FNull
| FBytes (b : list Z)
| FExtern (b : list Z).
Definition content (f : stored) : list Z :=
  match f with FNull => [] | FBytes b => b | FExtern b => b end.
Definition is_null (f : stored) : bool := match f with FNull => true | _ => false end.
Definition zlen {A} (l : list A) : Z := Z.of_nat (length l).

(** Which stored forms a column can take in a COMPACT record. *)
Definition fits (l : layout) (f : stored) : Prop :=
  match f, l_fixed l with
  | FNull, _ => l_nullable l = true
  | FBytes b, Some n => zlen b = n
  | FBytes b, None => if l_big l then zlen b < 2 ^ 14 else zlen b < 256
  | FExtern b, Some _ => False
  | FExtern b, None => l_big l = true /\ zlen b < 2 ^ 14
  end.

(** The NULL flags of the nullable columns, in column order, and the number
    whose i-th bit is the i-th flag. *)
Fixpoint null_flags (ls : list layout) (fs : list stored) : list bool :=
  match ls, fs with
  | l :: ls', f :: fs' => (if l_nullable l then [is_null f] else []) ++ null_flags ls' fs'
  | _, _ => []
  end.
Fixpoint flags_number (l : list bool) : Z :=
  match l with [] => 0 | b :: t => (if b then 1 else 0) + 2 * flags_number t end.
Definition nullable_count (ls : list layout) : Z := zlen (filter l_nullable ls).

(** The length bytes of one column, in the order they are met going down from
    the NULL bitmap. *)
Definition length_bytes (l : layout) (f : stored) : list Z :=
  match f, l_fixed l with
  | FBytes b, None =>
    if l_big l && (128 <=? zlen b) then [128 + zlen b / 256; zlen b mod 256] else [zlen b]
  | FExtern b, None => [128 + 64 + zlen b / 256; zlen b mod 256]
  | _, _ => []
  end.
Fixpoint lengths (ls : list layout) (fs : list stored) : list Z :=
  match ls, fs with
  | l :: ls', f :: fs' => length_bytes l f ++ lengths ls' fs'
  | _, _ => []
  end.
Definition body (fs : list stored) : list Z := flat_map content fs.

(** A COMPACT record whose origin is at [off]: below the origin five bytes of
    header, below them the NULL bitmap and the lengths; above it the columns.
    At least one byte precedes it (the page header does). *)
Definition compact_at (page : list Z) (off : Z) (ls : list layout) (fs : list stored) : Prop :=
  exists pre header post,
    page = pre ++ rev (lengths ls fs)
               ++ be (Z.to_nat ((nullable_count ls + 7) / 8)) (flags_number (null_flags ls fs))
               ++ header ++ body fs ++ post
    /\ zlen pre >= 1 /\ zlen header = 5
    /\ off = zlen pre + zlen (lengths ls fs) + (nullable_count ls + 7) / 8 + 5
    /\ Forall2 fits ls fs.

(** REDUNDANT records: each column is NULL, with [pad] filling the space of a
    fixed-length column, or a value stored in the record. *)
Inductive rstored : Type :=
| RNull (pad : list Z)
| RBytes (b : list Z).
Definition rcontent (f : rstored) : list Z := match f with RNull p => p | RBytes b => b end.
Definition rbody (fs : list rstored) : list Z := flat_map rcontent fs.
(** The end offsets of the columns, counted from [from], each with its NULL
    flag (the top bit of one byte, or of two). *)
Fixpoint ends (nullbit : Z) (from : Z) (fs : list rstored) : list Z :=
  match fs with
  | [] => []
  | f :: fs' =>
    let e := from + zlen (rcontent f) in
    (match f with RNull _ => e + nullbit | RBytes _ => e end) :: ends nullbit e fs'
  end.
(** A REDUNDANT record at [off]: six bytes of header below the origin (bit 0
    of the fourth says that offsets take one byte), below them the end
    offsets, going down. *)
Definition redundant_at (page : list Z) (off : Z) (wide : bool) (fs : list rstored) : Prop :=
  exists pre header post,
    let offsets := if wide then flat_map (be 2) (rev (ends (2 ^ 15) 0 fs)) else rev (ends (2 ^ 7) 0 fs) in
    page = pre ++ offsets ++ header ++ rbody fs ++ post
    /\ zlen header = 6 /\ nth 3 header 0 mod 2 = (if wide then 0 else 1)
    /\ off = zlen pre + zlen offsets + 6
    /\ zlen (rbody fs) < (if wide then 2 ^ 14 else 2 ^ 7).

(** A page image, and its record format (page0page.h: the top bit of the
    number of heap records). *)
Definition page_image (page : list Z) : Prop :=
  zlen page = 16384 /\ Forall (fun b => 0 <= b < 256) page.
Definition compact_page (page : list Z) : Prop := page_image page /\ 128 <= nth 42 page 0.
Definition redundant_page (page : list Z) : Prop := page_image page /\ nth 42 page 0 < 128.

(** Which contents a column can take in a REDUNDANT record. *)
Definition rfits (l : layout) (f : rstored) : Prop :=
  match l_fixed l with Some n => zlen (rcontent f) = n | None => True end.

(** InnoDB's own rule (dtype_get_fixed_size_low, DATA_BIG_COL): columns of
    main type CHAR 2, FIXBINARY 3, INT 6, SYS 8, FLOAT 9 and DOUBLE 10 have a
    fixed length; VARCHAR 1, BINARY 4, BLOB 5, DECIMAL 11 and VARMYSQL 12 have
    not; MYSQL 13 has one exactly if all characters of its character set have
    the same size. *)
Definition inno_layout (mtype len : Z) (nullable one_size : bool) : layout :=
  mkLayout nullable
    (if existsb (Z.eqb mtype) [2; 3; 6; 8; 9; 10] || ((mtype =? 13) && one_size) then Some len else None)
    ((255 <? len) || (mtype =? 5)).

(** The number of bytes a record takes, with everything below its origin
    (rec_offs_size). *)
Definition compact_size (ls : list layout) (fs : list stored) : Z :=
  zlen (lengths ls fs) + (nullable_count ls + 7) / 8 + 5 + zlen (body fs).
Definition redundant_size (wide : bool) (fs : list rstored) : Z :=
  (if wide then 2 else 1) * zlen fs + 6 + zlen (rbody fs).
