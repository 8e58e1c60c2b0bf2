(** How MySQL reads the statements the tool prints: an independent
    specification (MySQL reference manual, string literals and identifiers;
    default SQL mode, i.e. backslash escapes on; a connection character set in
    which bytes of multi-byte characters are never ASCII, e.g. utf8 or latin1).
    It uses none of the model's functions. *)
From Coq Require Import ZArith List Bool Ascii String.
From Verif Require Import SpecText.
Import ListNotations.
Open Scope Z_scope.
Local Open Scope list_scope.

(** ASCII text as bytes *)
Fixpoint txt (s : string) : list Z :=
  match s with
  | EmptyString => []
  | String c r => Z.of_N (N_of_ascii c) :: txt r
  end.

(** What follows a backslash in a string literal.  \% and \_ keep the
    backslash. *)
Definition unescape (c : Z) : list Z :=
  if c =? 48 then [0]            (* 0 *)
  else if c =? 98 then [8]       (* b *)
  else if c =? 110 then [10]     (* n *)
  else if c =? 114 then [13]     (* r *)
  else if c =? 116 then [9]      (* t *)
  else if c =? 90 then [26]      (* Z *)
  else if (c =? 37) || (c =? 95) then [92; c]
  else [c].

(** The text after an opening quote: the string's value and the text after
    the closing quote. *)
Fixpoint lex_str (t : list Z) : option (list Z * list Z) :=
  match t with
  | [] => None
  | c :: r =>
    if c =? 39 then
      match r with
      | d :: r' => if d =? 39 then
                     match lex_str r' with Some (v, k) => Some (39 :: v, k) | None => None end
                   else Some ([], r)
      | [] => Some ([], [])
      end
    else if c =? 92 then
      match r with
      | d :: r' => match lex_str r' with Some (v, k) => Some (unescape d ++ v, k) | None => None end
      | [] => None
      end
    else match lex_str r with Some (v, k) => Some (c :: v, k) | None => None end
  end.

(** Strings that mean themselves when written between quotes as they are: no
    quote, and no backslash but before % or _ (where it is kept). *)
Fixpoint literal (s : list Z) : bool :=
  match s with
  | [] => true
  | c :: r =>
    if c =? 39 then false
    else if c =? 92 then match r with d :: r' => ((d =? 37) || (d =? 95)) && literal r' | [] => false end
    else literal r
  end.

(** The text after an opening backquote: the identifier and what follows. *)
Fixpoint lex_ident (t : list Z) : option (list Z * list Z) :=
  match t with
  | [] => None
  | c :: r =>
    if c =? 96 then
      match r with
      | d :: r' => if d =? 96 then
                     match lex_ident r' with Some (v, k) => Some (96 :: v, k) | None => None end
                   else Some ([], r)
      | [] => Some ([], [])
      end
    else match lex_ident r with Some (v, k) => Some (c :: v, k) | None => None end
  end.

(** Strip a fixed text. *)
Fixpoint strip (p t : list Z) : option (list Z) :=
  match p, t with
  | [], _ => Some t
  | a :: p', b :: t' => if a =? b then strip p' t' else None
  | _, [] => None
  end.

(** A value of a statement: NULL, a string, the number of a bit literal, or
    the bytes of unhex(...). *)
Inductive sqlval : Type :=
| SNull
| SStr (s : list Z)
| SBits (n : Z)
| SBytes (s : list Z).

(** The digits of a bit literal up to its closing quote. *)
Fixpoint lex_bits (acc : Z) (t : list Z) : option (Z * list Z) :=
  match t with
  | [] => None
  | c :: r =>
    if c =? 39 then Some (acc, r)
    else if c =? 48 then lex_bits (acc * 2) r
    else if c =? 49 then lex_bits (acc * 2 + 1) r
    else None
  end.

Definition read_plain (t : list Z) : option (sqlval * list Z) :=
  match strip (txt "NULL") t with
  | Some r => Some (SNull, r)
  | None =>
    match strip (txt "'") t with
    | Some r => match lex_str r with Some (s, k) => Some (SStr s, k) | None => None end
    | None => None
    end
  end.
Definition read_value (t : list Z) : option (sqlval * list Z) :=
  match strip (txt "b'") t with
  | Some r => match lex_bits 0 r with Some (n, k) => Some (SBits n, k) | None => None end
  | None =>
    match strip (txt "unhex(") t with
    | Some r =>
      match read_plain r with
      | Some (SNull, k) => match strip (txt ")") k with Some k' => Some (SNull, k') | None => None end
      | Some (SStr s, k) =>
        match unhex s, strip (txt ")") k with
        | Some b, Some k' => Some (SBytes b, k')
        | _, _ => None
        end
      | _ => None
      end
    | None => read_plain t
    end
  end.

(** Values separated by commas up to the closing parenthesis. *)
Fixpoint read_values (fuel : nat) (t : list Z) : option (list sqlval * list Z) :=
  match fuel with
  | O => None
  | S f =>
    match read_value t with
    | None => None
    | Some (v, r) =>
      match strip (txt ",") r with
      | Some r' => match read_values f r' with Some (vs, k) => Some (v :: vs, k) | None => None end
      | None => match strip (txt ")") r with Some k => Some ([v], k) | None => None end
      end
    end
  end.

(** `db`.`table` *)
Definition read_table (t : list Z) : option (list Z * list Z * list Z) :=
  match strip (txt "`") t with
  | None => None
  | Some r =>
    match lex_ident r with
    | None => None
    | Some (db, r) =>
      match strip (txt ".`") r with
      | None => None
      | Some r => match lex_ident r with Some (tb, r) => Some (db, tb, r) | None => None end
      end
    end
  end.

(** replace into `db`.`table` values (...); *)
Definition read_replace (t : list Z) : option (list Z * list Z * list sqlval) :=
  match strip (txt "replace into ") t with
  | None => None
  | Some r =>
    match read_table r with
    | None => None
    | Some (db, tb, r) =>
      match strip (txt " values (") r with
      | None => None
      | Some r =>
        match read_values (List.length r) r with
        | None => None
        | Some (vs, r) => match r with [59] => Some (db, tb, vs) | _ => None end
        end
      end
    end
  end.

(** `col`=value *)
Definition read_eq (t : list Z) : option (list Z * sqlval * list Z) :=
  match strip (txt "`") t with
  | None => None
  | Some r =>
    match lex_ident r with
    | None => None
    | Some (c, r) =>
      match strip (txt "=") r with
      | None => None
      | Some r => match read_plain r with Some (v, r) => Some (c, v, r) | None => None end
      end
    end
  end.
(** comparisons joined by AND *)
Fixpoint read_conj (fuel : nat) (t : list Z) : option (list (list Z * sqlval) * list Z) :=
  match fuel with
  | O => None
  | S f =>
    match read_eq t with
    | None => None
    | Some (c, v, r) =>
      match strip (txt " and ") r with
      | Some r' => match read_conj f r' with Some (l, k) => Some ((c, v) :: l, k) | None => None end
      | None => Some ([(c, v)], r)
      end
    end
  end.
(** An assignment list.  An assignment is `col`=value, optionally followed by
    AND comparisons, which belong to the right-hand side: in MySQL
    "set a='1' and b='2'" assigns to a the truth value of '1' AND b='2'. *)
Definition assignment : Type := (list Z * sqlval * list (list Z * sqlval))%type.
Fixpoint read_set (fuel : nat) (t : list Z) : option (list assignment * list Z) :=
  match fuel with
  | O => None
  | S f =>
    match read_conj (List.length t) t with
    | Some ((c, v) :: more, r) =>
      match strip (txt ",") r with
      | Some r' => match read_set f r' with Some (l, k) => Some ((c, v, more) :: l, k) | None => None end
      | None => Some ([(c, v, more)], r)
      end
    | _ => None
    end
  end.
(** update `db`.`table` set ... where ...; *)
Definition read_update (t : list Z)
  : option (list Z * list Z * list assignment * list (list Z * sqlval)) :=
  match strip (txt "update ") t with
  | None => None
  | Some r =>
    match read_table r with
    | None => None
    | Some (db, tb, r) =>
      match strip (txt " set ") r with
      | None => None
      | Some r =>
        match read_set (List.length r) r with
        | None => None
        | Some (sets, r) =>
          match strip (txt " where ") r with
          | None => None
          | Some r =>
            match read_conj (List.length r) r with
            | None => None
            | Some (conds, r) => match r with [59] => Some (db, tb, sets, conds) | _ => None end
            end
          end
        end
      end
    end
  end.

(** The requested tables of the redo command: the database must match if one
    was given, and the table name must match if one was given. *)
Definition requested (want_db want_tb db tb : list Z) : Prop :=
  (want_db = [] \/ want_db = db) /\ (want_tb = [] \/ want_tb = tb).
