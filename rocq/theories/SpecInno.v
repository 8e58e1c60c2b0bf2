(** How InnoDB and MySQL store integers and column values: an independent
    specification (from the MySQL 5.6/5.7 documentation and sources), written
    with arithmetic only and using none of the model's functions. *)
From Coq Require Import ZArith List Bool.
Import ListNotations.
Open Scope Z_scope.

(** The k-byte big-endian image of a number, and the number of an image. *)
Fixpoint be (k : nat) (n : Z) : list Z :=
  match k with
  | O => []
  | S k' => be k' (n / 256) ++ [n mod 256]
  end.
Definition be_val (l : list Z) : Z := fold_left (fun a b => a * 256 + b) l 0.

(** The k-byte little-endian image of a number. *)
Fixpoint le (k : nat) (n : Z) : list Z :=
  match k with
  | O => []
  | S k' => n mod 256 :: le k' (n / 256)
  end.
Fixpoint le_val (l : list Z) : Z :=
  match l with
  | [] => 0
  | b :: t => b + 256 * le_val t
  end.

(** mach_write_compressed (mach0data.ic): 1 to 5 bytes *)
Definition enc_compressed (n : Z) : list Z :=
  if n <? 0x80 then be 1 n
  else if n <? 0x4000 then be 2 (0x8000 + n)
  else if n <? 0x200000 then be 3 (0xC00000 + n)
  else if n <? 0x10000000 then be 4 (0xE0000000 + n)
  else 0xF0 :: be 4 n.

(** mach_u64_write_compressed: the high word compressed, the low word plain *)
Definition enc_u64_compressed (n : Z) : list Z :=
  enc_compressed (n / 2 ^ 32) ++ be 4 (n mod 2 ^ 32).

(** mach_u64_write_much_compressed *)
Definition enc_much_compressed (n : Z) : list Z :=
  if n <? 2 ^ 32 then enc_compressed n
  else 0xFF :: enc_compressed (n / 2 ^ 32) ++ enc_compressed (n mod 2 ^ 32).

(** Integer columns: unsigned ones big-endian, signed ones big-endian with the
    sign bit inverted. *)
Definition store_uint (k : nat) (v : Z) : list Z := be k v.
Definition store_int (k : nat) (v : Z) : list Z := be k (v + 2 ^ (8 * Z.of_nat k - 1)).

(** DATE: year*16*32 + month*32 + day as a signed 3-byte integer *)
Definition store_date (y m d : Z) : list Z := store_int 3 (y * 512 + m * 32 + d).

(** TIME(0) since 5.6: packed hours, minutes, seconds, signed, offset 0x800000 *)
Definition store_time (negative : bool) (h m s : Z) : list Z :=
  let packed := h * 4096 + m * 64 + s in
  be 3 (0x800000 + (if negative then - packed else packed)).

(** DATETIME(0) since 5.6: 1 bit sign (set), 17 bits year*13+month, 5 day,
    5 hour, 6 minute, 6 second *)
Definition store_datetime (y mo d h mi s : Z) : list Z :=
  be 5 (2 ^ 39 + (y * 13 + mo) * 2 ^ 22 + d * 2 ^ 17 + h * 2 ^ 12 + mi * 2 ^ 6 + s).

(** DATETIME before 5.6: the number YYYYMMDDhhmmss in 8 bytes, sign bit
    inverted *)
Definition old_datetime (y mo d h mi s : Z) : Z :=
  ((((y * 100 + mo) * 100 + d) * 100 + h) * 100 + mi) * 100 + s.

(** TIMESTAMP(0): the UNIX time *)
Definition store_timestamp (t : Z) : list Z := be 4 t.

(** YEAR: 0 for year 0, else year - 1900 *)
Definition year_of_byte (b : Z) : Z := if b =? 0 then 0 else 1900 + b.

(** FLOAT and DOUBLE: the IEEE bit pattern, little-endian *)
Definition store_float (bits : Z) : list Z := le 4 bits.
Definition store_double (bits : Z) : list Z := le 8 bits.

(** InnoDB's main types (data0type.h) and MySQL's column types
    (mysql_com.h), by their numbers. *)
Definition innodb_varchar := 1.
Definition innodb_char := 2.
Definition innodb_fixbinary := 3.
Definition innodb_binary := 4.
Definition innodb_blob := 5.
Definition innodb_int := 6.
Definition innodb_float := 9.
Definition innodb_double := 10.
Definition innodb_decimal := 11.
Definition innodb_varmysql := 12.
Definition innodb_mysql := 13.
Definition field_timestamp := 7.
Definition field_date := 10.
Definition field_time := 11.
Definition field_datetime := 12.
Definition field_year := 13.
Definition field_varchar := 15.
Definition field_bit := 16.
Definition field_newdecimal := 246.
Definition field_string := 254.
