(** What a server makes of a line besides quoted text; the SQL mode
    NO_BACKSLASH_ESCAPES.  Uses none of the model's functions. *)
From Verif Require Import GoBase SpecInno SpecText SpecSql SpecChars.
Local Open Scope list_scope.
Local Open Scope Z_scope.

(** The part of a line that is not in quotes: a quoted string counts as two
    quotes with nothing between them.  [None] if a quote is not closed, and for
    comments and strings in double quotes. *)
Inductive outside : list Z -> list Z -> Prop :=
| out_end : outside [] []
| out_string v r k o : lex_str r = Some (v, k) -> outside k o -> outside (39 :: r) (39 :: 39 :: o)
| out_name v r k o : lex_ident r = Some (v, k) -> outside k o -> outside (96 :: r) (96 :: 96 :: o)
| out_byte c r o : ~ In c [39; 96; 34; 35] -> (c = 45 -> hd 0 r <> 45) -> (c = 47 -> hd 0 r <> 42) -> outside r o -> outside (c :: r) (c :: o).
(** What a value may look like there. *)
Definition shapes : list (list Z) :=
  [txt "''"; txt "NULL"; txt "unhex('')"; txt "unhex(NULL)"; txt "b''"; txt "bNULL"; txt "bunhex('')"; txt "bunhex(NULL)"].
Definition only_replace (line : list Z) : Prop :=
  exists vs, Forall (fun v => In v shapes) vs /\ outside line (txt "replace into ``.`` values (" ++ listed vs ++ txt ");").

(** * NO_BACKSLASH_ESCAPES: a backslash is a character like any other *)
Fixpoint plain_str (t : list Z) : option (list Z * list Z) :=
  match t with
  | [] => None
  | c :: r =>
    if c =? 39 then
      match r with
      | d :: r' => if d =? 39 then match plain_str r' with Some (v, k) => Some (39 :: v, k) | None => None end else Some ([], r)
      | [] => Some ([], [])
      end
    else match plain_str r with Some (v, k) => Some (c :: v, k) | None => None end
  end.
Definition plain_text (t : list Z) : option (sqlval * list Z) :=
  match strip (txt "NULL") t with
  | Some r => Some (SNull, r)
  | None =>
    match strip (txt "'") t with
    | Some r => match plain_str r with Some (s, k) => Some (SStr s, k) | None => None end
    | None => None
    end
  end.
Definition plain_value (t : list Z) : option (sqlval * list Z) :=
  match strip (txt "b'") t with
  | Some r => match lex_bits 0 r with Some (n, k) => Some (SBits n, k) | None => None end
  | None =>
    match strip (txt "unhex(") t with
    | Some r =>
      match plain_text r with
      | Some (SNull, k) => match strip (txt ")") k with Some k' => Some (SNull, k') | None => None end
      | Some (SStr s, k) =>
        match unhex s, strip (txt ")") k with
        | Some b, Some k' => Some (SBytes b, k')
        | _, _ => None
        end
      | _ => None
      end
    | None => plain_text t
    end
  end.
Fixpoint plain_values (fuel : nat) (t : list Z) : option (list sqlval * list Z) :=
  match fuel with
  | O => None
  | S f =>
    match plain_value t with
    | None => None
    | Some (v, r) =>
      match strip (txt ",") r with
      | Some r' => match plain_values f r' with Some (vs, k) => Some (v :: vs, k) | None => None end
      | None => match strip (txt ")") r with Some k => Some ([v], k) | None => None end
      end
    end
  end.
(** replace into `db`.`table` values (...); and what follows it *)
Definition plain_replace (t : list Z) : option (list Z * list Z * list sqlval * list Z) :=
  match strip (txt "replace into ") t with
  | None => None
  | Some r =>
    match read_table r with
    | None => None
    | Some (db, tb, r) =>
      match strip (txt " values (") r with
      | None => None
      | Some r =>
        match plain_values (List.length r) r with
        | None => None
        | Some (vs, r) => match strip (txt ";") r with Some k => Some (db, tb, vs, k) | None => None end
        end
      end
    end
  end.
(** The characters the tool writes with a backslash. *)
Definition backslashed : list Z := [0; 10; 13; 26; 34; 39; 92].
Definition needs_none (v : sqlval) : Prop := match v with SStr s => forall c, In c s -> ~ In c backslashed | _ => True end.
