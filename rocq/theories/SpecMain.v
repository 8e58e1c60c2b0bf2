(** Command lines: an independent specification, using none of the model's
    functions. *)
From Coq Require Import ZArith List String.
From Verif Require Import SpecSql.
Import ListNotations.
Open Scope string_scope.
Open Scope list_scope.
Open Scope Z_scope.

(** A command line is a sequence of words and options; an option is written
    --name=value, in one argument, or --name value, in two. *)
Inductive item : Type := Word (w : list Z) | Joined (name value : list Z) | Apart (name value : list Z).
Definition written (i : item) : list (list Z) :=
  match i with
  | Word w => [w]
  | Joined n v => [txt "--" ++ n ++ txt "=" ++ v]
  | Apart n v => [txt "--" ++ n; v]
  end.
Definition arguments (is : list item) : list (list Z) := flat_map written is.
(** The options given, in order, and the value that counts: the last one. *)
Definition options (is : list item) : list (list Z * list Z) :=
  flat_map (fun i => match i with Word _ => [] | Joined n v => [(n, v)] | Apart n v => [(n, v)] end) is.
Inductive given (n : list Z) : list (list Z * list Z) -> list Z -> Prop :=
| given_last v before after : (forall x, ~ In (n, x) after) -> given n (before ++ (n, v) :: after) v.
Definition given_or_empty (n : list Z) (l : list (list Z * list Z)) (v : list Z) : Prop :=
  given n l v \/ ((forall x, ~ In (n, x) l) /\ v = []).
Definition only_options (is : list item) : Prop := Forall (fun i => match i with Word _ => False | _ => True end) is.
(** No value that is an argument of its own is the word [w]. *)
Definition without (w : list Z) (is : list item) : Prop := Forall (fun i => match i with Apart _ v => v <> w | _ => True end) is.
(** Options and further words; a word does not begin with a dash. *)
Definition options_and_words (is : list item) : Prop := Forall (fun i => match i with Word w => exists c w', w = c :: w' /\ c <> 45 | _ => True end) is.
(** The words "recovery" and [sub], with options of the names [names] before,
    between and behind them, and any further words behind them. *)
Definition command_line (sub : list Z) (names : list (list Z)) (is : list item) : Prop :=
  exists a b c, is = a ++ [Word (txt "recovery")] ++ b ++ [Word sub] ++ c
    /\ only_options a /\ only_options b /\ options_and_words c
    /\ without (txt "recovery") a /\ without sub (a ++ b)
    /\ Forall (fun o => In (fst o) names) (options is).
Definition data_names : list (list Z) := map txt ["OpType"; "LogPath"; "LogLevel"; "SysDataFile"; "TableDataFile"; "DBName"; "TableName"].
Definition redo_names : list (list Z) := map txt ["OpType"; "LogPath"; "LogLevel"; "SysDataFile"; "RedoFile"; "DBName"; "TableName"].
(** What can be the name of an option; --help is another matter. *)
Definition spelled (n : list Z) : Prop := (exists c n', n = c :: n' /\ c <> 45) /\ ~ In 61 n /\ n <> txt "help".
(** Both commands' lines, with the options that must be given. *)
Definition data_line (is : list item) (op sys tfile db tb : list Z) : Prop :=
  command_line (txt "FromDataFile") data_names is /\ given_or_empty (txt "OpType") (options is) op
  /\ given (txt "SysDataFile") (options is) sys /\ given (txt "TableDataFile") (options is) tfile
  /\ given (txt "DBName") (options is) db /\ given (txt "TableName") (options is) tb.
Definition redo_line (is : list item) (sys rfile db tb : list Z) : Prop :=
  command_line (txt "FromRedoFile") redo_names is
  /\ given (txt "SysDataFile") (options is) sys /\ given (txt "RedoFile") (options is) rfile
  /\ given_or_empty (txt "DBName") (options is) db /\ given_or_empty (txt "TableName") (options is) tb.
(** The line begins with the command, not with an option. *)
Definition command_first (is : list item) : Prop := exists w rest, is = Word w :: rest.
