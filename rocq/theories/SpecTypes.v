(** Column types with more to them than SpecInno.v has: DECIMAL, times with a
    fraction, ENUM.  An independent specification (from the MySQL 5.6/5.7
    sources), using none of the model's functions. *)
From Coq Require Import ZArith List Bool.
From Verif Require Import SpecInno SpecText.
Import ListNotations.
Open Scope Z_scope.

(** DECIMAL(p,s) (decimal2bin in strings/decimal.c): p - s digits before the
    point and s after it, in groups of nine counted from the point. *)
Definition digits (l : list Z) : Prop := Forall (fun d => 0 <= d <= 9) l.
Definition digits_val (l : list Z) : Z := fold_left (fun a d => a * 10 + d) l 0.
Definition int_groups (ds : list Z) (gs : list (list Z)) : Prop :=
  ds = concat gs /\ Forall (fun g => (1 <= length g <= 9)%nat) gs
  /\ Forall (fun g => length g = 9%nat) (tl gs).
Definition frac_groups (ds : list Z) (gs : list (list Z)) : Prop :=
  ds = concat gs /\ Forall (fun g => (1 <= length g <= 9)%nat) gs
  /\ Forall (fun g => length g = 9%nat) (removelast gs).

(** Bytes a group of so many digits takes (dig2bytes). *)
Definition group_bytes (n : nat) : nat := nth n [0; 1; 1; 2; 2; 3; 3; 4; 4; 4]%nat 4%nat.
Definition store_group (g : list Z) : list Z := be (group_bytes (length g)) (digits_val g).

(** Negative values are inverted, then the very first bit is flipped. *)
Definition store_decimal (negative : bool) (gs : list (list Z)) : list Z :=
  let inv x := if negative then 255 - x else x in
  match flat_map store_group gs with
  | [] => []
  | b :: t => (inv b + 128) mod 256 :: map inv t
  end.

(** What MySQL shows for it. *)
Definition decimal_text (negative : bool) (di df t : list Z) : Prop :=
  exists ti, dec_text 1 (digits_val di) ti
    /\ t = (if negative then [45] else []) ++ ti
           ++ match df with [] => [] | _ => 46 :: map (fun d => d + 48) df end.

(** Times with a fraction of 1 to 6 digits (my_time.c): the digits f, taken as
    an even number of digits, in half as many bytes after the seconds. *)
Definition frac_size (digits : Z) : nat := Z.to_nat ((digits + 1) / 2).
Definition frac_num (digits f : Z) : Z := if digits mod 2 =? 1 then f * 10 else f.
Definition store_frac (digits f : Z) : list Z := be (frac_size digits) (frac_num digits f).
Definition store_datetime_frac (y mo d h mi s digits f : Z) : list Z :=
  store_datetime y mo d h mi s ++ store_frac digits f.
Definition store_timestamp_frac (t digits f : Z) : list Z :=
  store_timestamp t ++ store_frac digits f.
(** TIME: one signed number, seconds and fraction together *)
Definition store_time_frac (negative : bool) (h m s digits f : Z) : list Z :=
  let k := frac_size digits in
  let n := (h * 4096 + m * 64 + s) * 256 ^ Z.of_nat k + frac_num digits f in
  be (3 + k) (0x800000 * 256 ^ Z.of_nat k + (if negative then - n else n)).

(** ENUM: the number of the member, from 1, in one byte, or in two if there
    are more than 255 members. *)
Definition enum_size (members : list (list Z)) : nat := if Z.of_nat (length members) <=? 255 then 1%nat else 2%nat.
Definition store_enum (members : list (list Z)) (i : Z) : list Z := be (enum_size members) i.

(** The member a text denotes in an INSERT (Field_enum::store): the first of
    that name, or if there is none, the one of that number.  Names are compared
    byte by byte, as with a binary collation. *)
Fixpoint member (n : Z) (members : list (list Z)) (t : list Z) : option Z :=
  match members with
  | [] => None
  | m :: r => if list_eq_dec Z.eq_dec m t then Some n else member (n + 1) r t
  end.
Definition enum_denotes (members : list (list Z)) (t : list Z) (i : Z) : Prop :=
  match member 1 members t with
  | Some j => i = j
  | None => dec_text 1 i t /\ 1 <= i <= Z.of_nat (length members)
  end.
