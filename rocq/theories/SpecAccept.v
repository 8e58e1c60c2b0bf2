(** Tables as MySQL knows them, beside InnoDB's dictionary, and the statements
    MySQL takes for them.  None of the model's functions is used. *)
From Coq Require Import ZArith List String.
From Verif Require Import SpecSql SpecDict.
Import ListNotations.
Open Scope string_scope.
Open Scope list_scope.
Open Scope Z_scope.

(** A column of MySQL's own definition (the .frm file): its name, and whether
    its values are generated from the other columns and stored. *)
Definition sql_column : Type := (list Z * bool)%type.
(** InnoDB has all these columns in order.  Behind them it may have a column
    that it added for a FULLTEXT index and that MySQL does not know. *)
Definition defines (sql : list sql_column) (added : list column_def) (cs : list column_def) : Prop :=
  exists known, cs = known ++ added /\ map cd_name known = map fst sql
    /\ (added = [] \/ exists c, added = [c] /\ cd_name c = txt "FTS_DOC_ID" /\ cd_mtype c = 6 /\ cd_len c = 8).
(** A REPLACE that names no columns must have a value for each of them (error
    1136), and none of them may be generated, as DEFAULT is the only value for
    these (error 3105). *)
Definition taken (sql : list sql_column) (vs : list sqlval) : Prop :=
  List.length vs = List.length sql /\ forall c, In c sql -> snd c = false.
