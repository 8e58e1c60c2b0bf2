(** SET columns, and the dates and times of tables made before MySQL 5.6: how
    they are stored, and what a quoted number means for them in a statement.
    An independent specification (from the MySQL 5.5 to 5.7 sources), using
    none of the model's functions. *)
From Coq Require Import ZArith List Bool.
From Verif Require Import SpecInno SpecText SpecTypes.
Import ListNotations.
Open Scope Z_scope.

(** SET: one bit per member, the first one lowest, in as many bytes as that
    takes, or in eight if it takes more than four (get_set_pack_length). *)
Definition set_size (members : list (list Z)) : nat :=
  let n := Nat.div (length members + 7) 8 in if Nat.leb n 4 then n else 8%nat.
Definition store_set (members : list (list Z)) (mask : Z) : list Z := be (set_size members) mask.

(** What a text denotes in an INSERT (Field_set::store): the members it names,
    separated by commas, or, if it names none, the value of that number.  Names
    are compared byte by byte, as with a binary collation. *)
Fixpoint split_commas (t : list Z) : list (list Z) :=
  match t with
  | [] => [[]]
  | c :: r => match split_commas r with
              | p :: ps => if c =? 44 then [] :: p :: ps else (c :: p) :: ps
              | [] => []
              end
  end.
Fixpoint set_named (members : list (list Z)) (parts : list (list Z)) : option Z :=
  match parts with
  | [] => Some 0
  | p :: r => match member 0 members p, set_named members r with
              | Some j, Some m => Some (Z.lor (2 ^ j) m)
              | _, _ => None
              end
  end.
Definition set_denotes (members : list (list Z)) (t : list Z) (mask : Z) : Prop :=
  (t = [] /\ mask = 0)
  \/ (t <> [] /\ set_named members (split_commas t) = Some mask)
  \/ (t <> [] /\ Forall (fun p => ~ In p members) (split_commas t)
      /\ (length t < 22)%nat /\ dec_text 1 mask t /\ mask < 2 ^ Z.of_nat (length members)).

(** DATETIME, TIMESTAMP and TIME before 5.6 (Field_datetime, Field_timestamp,
    Field_time): integer columns, of the number YYYYMMDDhhmmss, of the seconds
    since 1970, and of the number hhmmss. *)
Definition store_old_datetime (y mo d h mi s : Z) : list Z :=
  store_int 8 (((((y * 100 + mo) * 100 + d) * 100 + h) * 100 + mi) * 100 + s).
Definition store_old_timestamp (t : Z) : list Z := store_uint 4 t.
Definition store_old_time (negative : bool) (h m s : Z) : list Z :=
  let n := (h * 100 + m) * 100 + s in store_int 3 (if negative then - n else n).

(** What a text of 1 to 14 digits denotes as a DATETIME or TIMESTAMP
    (str_to_datetime): years of four digits if there are 4, 8 or 14 digits and
    of two otherwise, then two digits each; what is missing is zero.  (Whether
    month or day may be zero and whether the month is long enough depends on
    the server's mode and is left out.) *)
Definition year_width (n : nat) : nat := if Nat.eqb n 4 || Nat.eqb n 8 || Nat.eqb n 14 then 4%nat else 2%nat.
Fixpoint fields (widths : list nat) (t : list Z) : list Z :=
  match widths, t with
  | w :: r, _ :: _ => dec_val (firstn w t) :: fields r (skipn w t)
  | _, _ => []
  end.
Definition full_year (width : nat) (y : Z) : Z :=
  if Nat.eqb width 4 then y else if y <? 70 then 2000 + y else 1900 + y.
Definition read_datetime (t : list Z) : option (list Z) :=
  let w := year_width (length t) in
  match fields [w; 2; 2; 2; 2; 2]%nat t with
  | y :: mo :: d :: rest =>
    let h := nth 0 rest 0 in let mi := nth 1 rest 0 in let s := nth 2 rest 0 in
    if (mo <=? 12) && (d <=? 31) && (h <=? 23) && (mi <=? 59) && (s <=? 59)
    then Some [full_year w y; mo; d; h; mi; s] else None
  | _ => None
  end.

(** What a text of digits denotes as a TIME (str_to_time), in seconds. *)
Definition read_time (t : list Z) (seconds : Z) : Prop :=
  exists negative ds, t = (if negative : bool then [45] else []) ++ ds /\ Forall digit ds /\ (1 <= length ds < 11)%nat
    /\ let n := dec_val ds in n / 100 mod 100 <= 59 /\ n mod 100 <= 59
    /\ seconds = (if negative then -1 else 1) * (n / 10000 * 3600 + n / 100 mod 100 * 60 + n mod 100).
