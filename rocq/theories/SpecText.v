(** Texts and calendars: an independent specification, using none of the
    model's functions. *)
From Coq Require Import ZArith List Bool.
Import ListNotations.
Open Scope Z_scope.

(** The number a string of decimal digits denotes. *)
Definition digit (c : Z) : Prop := 48 <= c <= 57.
Definition dec_val (t : list Z) : Z := fold_left (fun a c => a * 10 + (c - 48)) t 0.

(** [dec_text w n t]: t is n in decimal, zero-padded to at least w digits and
    not longer than needed.  This determines t. *)
Definition dec_text (w : nat) (n : Z) (t : list Z) : Prop :=
  Forall digit t /\ dec_val t = n /\ (1 <= length t)%nat /\ (w <= length t)%nat
  /\ (length t = Nat.max w 1 \/ hd 48 t <> 48).

(** A signed number in decimal. *)
Definition int_text (n : Z) (t : list Z) : Prop :=
  (0 <= n /\ dec_text 1 n t) \/ (n < 0 /\ exists t', t = 45 :: t' /\ dec_text 1 (- n) t').

(** The Gregorian calendar, by counting. *)
Definition leap (y : Z) : bool :=
  (y mod 4 =? 0) && (negb (y mod 100 =? 0) || (y mod 400 =? 0)).
Definition month_days (y m : Z) : Z :=
  if m =? 2 then (if leap y then 29 else 28)
  else if (m =? 4) || (m =? 6) || (m =? 9) || (m =? 11) then 30 else 31.
(** days from 1 January of year 1 to 1 January of year y *)
Definition days_before_year (y : Z) : Z :=
  365 * (y - 1) + (y - 1) / 4 - (y - 1) / 100 + (y - 1) / 400.
(** days from 1 January to the first of month m *)
Fixpoint days_before_month (y : Z) (m : nat) : Z :=
  match m with
  | O => 0
  | S O => 0
  | S m' => days_before_month y m' + month_days y (Z.of_nat m')
  end.
(** days since 1 January 1970 *)
Definition day_number (y m d : Z) : Z :=
  days_before_year y + days_before_month y (Z.to_nat m) + (d - 1) - days_before_year 1970.
Definition valid_date (y m d : Z) : Prop := 1 <= m <= 12 /\ 1 <= d <= month_days y m.

(** UTF-8 *)
Definition scalar (c : Z) : Prop := 0 <= c < 0xD800 \/ 0xE000 <= c <= 0x10FFFF.
Definition utf8 (c : Z) : list Z :=
  if c <? 0x80 then [c]
  else if c <? 0x800 then [0xC0 + c / 64; 0x80 + c mod 64]
  else if c <? 0x10000 then [0xE0 + c / 4096; 0x80 + c / 64 mod 64; 0x80 + c mod 64]
  else [0xF0 + c / 262144; 0x80 + c / 4096 mod 64; 0x80 + c / 64 mod 64; 0x80 + c mod 64].

(** Unicode White_Space *)
Definition white (c : Z) : Prop :=
  In c [9; 10; 11; 12; 13; 32; 133; 160; 5760; 8192; 8193; 8194; 8195; 8196; 8197; 8198;
        8199; 8200; 8201; 8202; 8232; 8233; 8239; 8287; 12288].

(** A text that does not start or end with white space. *)
Definition starts_white (s : list Z) : Prop := exists c t, white c /\ s = utf8 c ++ t.
Definition ends_white (s : list Z) : Prop := exists c t, white c /\ s = t ++ utf8 c.
Definition tight (s : list Z) : Prop := ~ starts_white s /\ ~ ends_white s.

(** MySQL's unhex(): None on anything but an even number of hex digits. *)
Definition hex_val (c : Z) : option Z :=
  if (48 <=? c) && (c <=? 57) then Some (c - 48)
  else if (97 <=? c) && (c <=? 102) then Some (c - 87)
  else if (65 <=? c) && (c <=? 70) then Some (c - 55)
  else None.
Fixpoint unhex (t : list Z) : option (list Z) :=
  match t with
  | [] => Some []
  | a :: b :: r =>
    match hex_val a, hex_val b, unhex r with
    | Some x, Some y, Some l => Some (x * 16 + y :: l)
    | _, _, _ => None
    end
  | _ => None
  end.
