(** JSON columns (MySQL 5.7): stored as a BLOB with MySQL type 245 and the
    binary flag, holding the binary form of the document (json_binary.h); what
    MySQL takes as a value for such a column.  None of the model's functions is
    used. *)
From Coq Require Import ZArith List.
From Verif Require Import SpecInno SpecSql SpecDict SpecTool.
Import ListNotations.
Local Open Scope Z_scope.

Definition json_column (c : column_def) : Prop := mysql_type c = 245.
(** NULL, or a character string that is a JSON text ([json_text] is any notion
    of that).  A binary string such as unhex('...') is refused: "Cannot create a
    JSON value from a string with CHARACTER SET 'binary'" (error 3144), a bit
    string as well. *)
Definition takes (json_text : list Z -> Prop) (c : column_def) (v : sqlval) : Prop :=
  json_column c -> match v with SNull => True | SStr s => json_text s | _ => False end.
(** The values of a row, as far as its JSON columns are concerned. *)
Definition accepted (json_text : list Z -> Prop) (cs : list column_def) (vs : list sqlval) : Prop := Forall2 (takes json_text) cs vs.
