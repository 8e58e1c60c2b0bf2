(** The commands' options and output lines: an independent specification,
    using none of the model's functions. *)
From Coq Require Import ZArith List Bool String.
From Verif Require Import SpecSql.
Import ListNotations.
Open Scope string_scope.
Open Scope list_scope.
Open Scope Z_scope.

(** Output lines: a REPLACE or an UPDATE statement for a table. *)
Definition replace_line (db tb line : list Z) : Prop :=
  exists vals, line = txt "replace into `" ++ db ++ txt "`.`" ++ tb ++ txt "` values (" ++ vals ++ txt ");".
Definition update_line (db tb line : list Z) : Prop :=
  exists sets conds, line = txt "update `" ++ db ++ txt "`.`" ++ tb ++ txt "` set " ++ sets ++ txt " where " ++ conds ++ txt ";".
(** Messages that are printed between the statements. *)
Definition decimal_message : list Z := txt "test MYSQL_TYPE_NEWDECIMAL".
Definition compressed_message : list Z := txt "data too short, method is MatchParseCompressed".

(** A comma-separated list and its parts. *)
Fixpoint joined (parts : list (list Z)) : list Z :=
  match parts with
  | [] => []
  | [p] => p
  | p :: ps => p ++ 44 :: joined ps
  end.
Definition parts_of (s : list Z) (parts : list (list Z)) : Prop :=
  parts <> [] /\ Forall (fun p => ~ In 44 p) parts /\ joined parts = s.

(** The same text up to the case of the letters A-Z. *)
Definition same_letter (a b : Z) : Prop := a = b \/ (65 <= a <= 90 /\ b = a + 32) \/ (65 <= b <= 90 /\ a = b + 32).
Definition same_text (a b : list Z) : Prop := Forall2 same_letter a b.
(** The severities, most severe first. *)
Definition level_names : list (list Z) := [txt "fatal"; txt "error"; txt "warn"; txt "info"; txt "debug"; txt "trace"].
(** [configured s n]: the option s selects the n-th severity. *)
Inductive configured (s : list Z) : Z -> Prop :=
| named n name : nth_error level_names n = Some name -> same_text s name -> configured s (Z.of_nat n)
| unnamed : (forall name, In name level_names -> ~ same_text s name) -> configured s 3.

(** What a log holds, told apart by where it comes from: statements, with the
    database and the table they are about, and messages.  The output for
    requested names: all of it but the statements for other tables. *)
Inductive selected (want_db want_tb : list Z) : list (option (list Z * list Z) * list Z) -> list (list Z) -> Prop :=
| sel_nil : selected want_db want_tb [] []
| sel_message line l lines : selected want_db want_tb l lines -> selected want_db want_tb ((None, line) :: l) (line :: lines)
| sel_in db tb line l lines : requested want_db want_tb db tb -> selected want_db want_tb l lines ->
    selected want_db want_tb ((Some (db, tb), line) :: l) (line :: lines)
| sel_out db tb line l lines : ~ requested want_db want_tb db tb -> selected want_db want_tb l lines ->
    selected want_db want_tb ((Some (db, tb), line) :: l) lines.
