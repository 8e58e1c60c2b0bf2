(** How MySQL names tables in the dictionary (tablename_to_filename,
    sql_table.cc, and the character set "filename", ctype-utf8.c): letters,
    digits and the underscore stand for themselves, any other character is
    written as @ and a code; the partitions of a table have their names behind
    #P# (#p# on some systems).  Uses none of the model's functions. *)
From Coq Require Import String.
From Verif Require Import GoBase SpecInno SpecText SpecSql SpecDict SpecTool SpecToolRedo.
Local Open Scope string_scope.
Local Open Scope list_scope.
Local Open Scope Z_scope.

Definition safe (c : Z) : Prop := 48 <= c <= 57 \/ 65 <= c <= 90 \/ 97 <= c <= 122 \/ c = 95.
(** A code has four characters, or two for some alphabets. *)
Definition stored_char (c : Z) (s : list Z) : Prop :=
  (safe c /\ s = [c])
  \/ (~ safe c /\ 0 < c < 0x10000 /\ exists t, s = 64 :: t /\ Forall safe t /\ (len t = 4 \/ 128 <= c /\ len t = 2)).
Definition stored_name (n s : list Z) : Prop := exists parts, Forall2 stored_char n parts /\ s = List.concat parts.
Definition part_suffix (s : list Z) : Prop :=
  s = [] \/ exists x, (s = txt "#P#" ++ x \/ s = txt "#p#" ++ x) /\ Forall (fun c => safe c \/ c = 64 \/ c = 35) x.
(** The name of a table, or of one of its partitions. *)
Definition stored_table (n s : list Z) : Prop := exists a p, stored_name n a /\ part_suffix p /\ s = a ++ p.
(** What a user types, and names that are stored as they are typed. *)
Definition typed (n : list Z) : list Z := flat_map utf8 n.
Definition plain_name (n : list Z) : Prop := Forall safe n.
(** All tables are stored under the names of databases and tables, or are
    temporary ones of an ALTER TABLE. *)
Definition temporary (tb : list Z) : Prop := exists x, tb = txt "#sql" ++ x.
Definition well_named (d : dictionary) : Prop :=
  forall t db tb, In t (dd_tables d) -> named_as (td_name t) db tb -> (exists n, stored_name n db) /\ ((exists n, stored_table n tb) \/ temporary tb).
(** A character that no stored name has. *)
Definition name_byte (c : Z) : Prop := safe c \/ c = 64 \/ c = 35.
Definition special (n : list Z) : Prop := exists c, In c n /\ 0 <= c /\ ~ name_byte c.
(** The same update with the names of a database and a table. *)
Definition called (w : update) (db tb : list Z) : update := mkUpdate db tb (up_old w) (up_key w).
