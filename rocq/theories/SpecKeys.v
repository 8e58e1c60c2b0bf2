(** A server that runs the recovered REPLACE statements in a table with any
    number of unique keys and any collations.  Uses none of the model's
    functions. *)
From Verif Require Import GoBase SpecInno SpecText SpecSql SpecRecord SpecRow SpecPage SpecDict SpecTool SpecHistory SpecLoad.
Local Open Scope list_scope.

(** What makes a table refuse two rows: the places of the columns of each of
    its unique keys, the primary key among them, and for each place when two
    values count as the same (the collation of the column; never for NULL). *)
Record rules : Type := mkRules { ru_keys : list (list nat); ru_same : nat -> sqlval -> sqlval -> bool }.
Definition rules_ok (ru : rules) : Prop :=
  Forall (fun ps => ps <> []) (ru_keys ru) /\ forall p a b, ru_same ru p a b = true -> a <> SNull /\ b <> SNull.
Definition clashes (ru : rules) (a b : list sqlval) : bool :=
  existsb (fun ps => forallb (fun p => ru_same ru p (nth p a SNull) (nth p b SNull)) ps) (ru_keys ru).
(** REPLACE removes the rows that clash with the new one and adds it. *)
Definition put_row (ru : rules) (vs : list sqlval) (rows : rows_of_table) : rows_of_table :=
  filter (fun r => negb (clashes ru r vs)) rows ++ [vs].
Definition run_replace (ru : rules) (db tb line : list Z) (rows : rows_of_table) : option rows_of_table :=
  match read_replace line with
  | Some (db', tb', vs) => if text_eqb db db' && text_eqb tb tb' then Some (put_row ru vs rows) else None
  | None => None
  end.
Fixpoint run_all (ru : rules) (db tb : list Z) (lines : list (list Z)) (rows : rows_of_table) : option rows_of_table :=
  match lines with
  | [] => Some rows
  | l :: ls => match run_replace ru db tb l rows with Some rows' => run_all ru db tb ls rows' | None => None end
  end.
(** No two rows of a table clash. *)
Definition apart (ru : rules) (rows : rows_of_table) : Prop :=
  forall a x b y c, rows = a ++ x :: b ++ y :: c -> clashes ru x y = false.
(** The primary key alone, compared byte by byte. *)
Definition same_primary (ps : list nat) (a b : list sqlval) : Prop := ps <> [] /\ forall p, In p ps -> nth p a SNull = nth p b SNull.
