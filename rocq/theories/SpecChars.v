(** Character sets: what the texts in the printed statements mean to the
    program that reads them (MySQL reference manual, connection character
    sets: a statement is in character_set_client; sql_lex.cc, get_text).  None
    of the model's functions is used. *)
From Coq Require Import ZArith List Bool String.
From Verif Require Import SpecInno SpecText SpecSql.
Import ListNotations.
Local Open Scope string_scope.
Local Open Scope list_scope.
Local Open Scope Z_scope.

(** * The text of a statement *)
(** One byte of a string: as it is, or as an escape sequence. *)
Definition spell (c : Z) : list Z :=
  if c =? 0 then txt "\0" else if c =? 10 then txt "\n" else if c =? 13 then txt "\r" else if c =? 26 then txt "\Z"
  else if (c =? 34) || (c =? 39) || (c =? 92) then [92; c] else [c].
Definition quoted (s : list Z) : list Z := txt "'" ++ flat_map spell s ++ txt "'".
Inductive written : sqlval -> list Z -> Prop :=
| w_null : written SNull (txt "NULL")
| w_no_bytes : written SNull (txt "unhex(NULL)")
| w_str s : written (SStr s) (quoted s)
| w_bit n : n = 0 \/ n = 1 -> written (SBits n) (txt "b'" ++ [48 + n] ++ txt "'")
| w_bytes b h : unhex h = Some b -> written (SBytes b) (txt "unhex('" ++ h ++ txt "')").
Fixpoint listed (ts : list (list Z)) : list Z :=
  match ts with [] => [] | [x] => x | x :: r => x ++ txt "," ++ listed r end.
Definition heading (db tb : list Z) : list Z := txt "replace into `" ++ db ++ txt "`.`" ++ tb ++ txt "` values (".
Definition statement (db tb : list Z) (ts : list (list Z)) : list Z := heading db tb ++ listed ts ++ txt ");".

(** * Character sets *)
(** A character set: the bytes of a text (a list of code points). *)
Definition charset : Type := list Z -> list Z.
Definition utf8_set : charset := flat_map utf8.
Definition ucs2_set : charset := flat_map (be 2).
(** Sets of one byte per character, the first 128 being those of ASCII
    (latin1, latin2, cp1251, koi8r, ...), by their tables. *)
Definition one_byte (table : Z -> Z) : charset := map table.
Definition extends_ascii (table : Z -> Z) : Prop := forall c, 0 <= c < 128 -> table c = c.
(** To a client with a certain set a literal is the text whose bytes in that
    set it has; the server makes of that text the bytes in the column's set. *)
Definition reads_as (client : charset) (v : sqlval) (t : list Z) : Prop := v = SStr (client t).

(** * Sets with characters of two bytes the second of which may be ASCII *)
(** [pair a b]: these two bytes are one character.  In big5, cp932, gbk, sjis
    the first is at least 128, the second at least 64. *)
Definition two_byte (pair : Z -> Z -> bool) : Prop := forall a b, pair a b = true -> 128 <= a < 256 /\ 64 <= b < 256.
Definition gbk (a b : Z) : bool := (129 <=? a) && (a <=? 254) && (64 <=? b) && (b <=? 254) && negb (b =? 127).
(** A character of such a set. *)
Definition char_of (pair : Z -> Z -> bool) (ch : list Z) : Prop :=
  (exists b, ch = [b] /\ 0 <= b < 256 /\ forall d, pair b d = false) \/ (exists a b, ch = [a; b] /\ pair a b = true).
(** String literals for a client with such a set: [lex_str], but a character
    of two bytes is taken whole. *)
Fixpoint lex_wide (pair : Z -> Z -> bool) (t : list Z) : option (list Z * list Z) :=
  let after (front : list Z) (rest : option (list Z * list Z)) := match rest with Some (v, k) => Some (front ++ v, k) | None => None end in
  match t with
  | [] => None
  | c :: r =>
    match r with
    | d :: r' =>
      if pair c d then after [c; d] (lex_wide pair r')
      else if c =? 39 then (if d =? 39 then after [39] (lex_wide pair r') else Some ([], r))
      else if c =? 92 then after (unescape d) (lex_wide pair r')
      else after [c] (lex_wide pair r)
    | [] => if c =? 39 then Some ([], []) else None
    end
  end.
