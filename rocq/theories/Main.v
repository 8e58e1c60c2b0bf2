(** Model of cmd/db-recovery/main.go and of the command line in
    cmd/db-recovery/command.go: which function runs, with which options, and the
    exit status.  The parsing itself is done by two libraries, cobra v1.1.1
    (go.mod:7), with its pflag, and Go's flag package; what they do with the
    flags defined here is written out below from their documentation and
    source, which are not part of /repo. *)
From Verif Require Import GoBase Utils Ibdata Redo Cmd.
Local Open Scope list_scope.

(** command.go:49-91, 129-147 and version.go: the commands; [Informing] are
    version, help and cobra's own completion commands, which only print texts
    about the tool. *)
Inductive command : Type := Root | Recovery | DataCommand | RedoCommand | Informing.
Definition findNext (c : command) (w : bytes) : option command :=
  match c with
  | Root => if beq w (bs "recovery") then Some Recovery
            else if beq w (bs "version") || beq w (bs "help") || beq w (bs "__complete") || beq w (bs "__completeNoDesc") then Some Informing
            else None
  | Recovery => if beq w (bs "FromDataFile") then Some DataCommand
                else if beq w (bs "FromRedoFile") then Some RedoCommand
                else None
  | _ => None
  end.

Definition dash (s : bytes) : bool := match s with 45 :: _ => true | _ => false end.
Definition dash_dash (s : bytes) : bool := match s with 45 :: 45 :: _ => true | _ => false end.
Definition has_equal (s : bytes) : bool := existsb (fun c => c =? 61) s.

(** cobra, stripFlags: the arguments that are no flags or their values.  At this
    point --help and -h are not defined yet and take a value like the others. *)
Fixpoint stripFlags (args : list bytes) : list bytes :=
  match args with
  | [] => []
  | s :: rest =>
    if beq s (bs "--") then []
    else if (dash_dash s && negb (has_equal s)) || (dash s && negb (has_equal s) && (len s =? 2)) then
      match rest with
      | _ :: rest' => match rest' with [] => [] | _ :: _ => stripFlags rest' end
      | [] => []
      end
    else if negb (beq s []) && negb (dash s) then s :: stripFlags rest
    else stripFlags rest
  end.
(** cobra, argsMinusFirstX *)
Fixpoint argsMinusFirstX (args : list bytes) (x : bytes) : list bytes :=
  match args with
  | [] => []
  | y :: rest => if beq x y then rest else y :: argsMinusFirstX rest x
  end.
(** cobra, innerfind in Find: the command, and the arguments left for it.  No
    command is more than two below the root. *)
Fixpoint innerfind (depth : nat) (c : command) (args : list bytes) : command * list bytes :=
  match depth with
  | O => (c, args)
  | S depth' =>
    match stripFlags args with
    | [] => (c, args)
    | w :: _ =>
      match findNext c w with
      | Some c' => innerfind depth' c' (argsMinusFirstX args w)
      | None => (c, args)
      end
    end
  end.

(** strconv.ParseBool, for --help=... *)
Definition ParseBool (v : bytes) : option bool :=
  if existsb (beq v) [bs "1"; bs "t"; bs "T"; bs "true"; bs "TRUE"; bs "True"] then Some true
  else if existsb (beq v) [bs "0"; bs "f"; bs "F"; bs "false"; bs "FALSE"; bs "False"] then Some false
  else None.
(** pflag: what is set, in order, or None for an error.  A flag with a value
    sets [Some value]; help sets a Boolean. *)
Inductive setting : Type := SetText (name value : bytes) | SetHelp (b : bool).
Definition help_value (v : bytes) : option setting := option_map SetHelp (ParseBool v).
(** pflag, parseShortArg: -h, the only short flag, may be repeated and have a
    value. *)
Fixpoint parseShortArg (s : bytes) : option (list setting) :=
  match s with
  | [] => Some []
  | 104 :: 61 :: c :: v => option_map (fun x => [x]) (help_value (c :: v))
  | 104 :: rest => option_map (cons (SetHelp true)) (parseShortArg rest)
  | _ => None
  end.
(** The name and the value, if there is one, of --name or --name=value *)
Fixpoint cut_equal (s : bytes) : bytes * option bytes :=
  match s with
  | [] => ([], None)
  | c :: s' => if c =? 61 then ([], Some s') else let '(n, v) := cut_equal s' in (c :: n, v)
  end.
(** pflag, parseArgs and parseLongArg, for a command with the given names of
    string flags *)
Fixpoint parseArgs (names : list bytes) (args : list bytes) : option (list setting) :=
  match args with
  | [] => Some []
  | s :: rest =>
    if negb (dash s) || (len s =? 1) then parseArgs names rest
    else if dash_dash s then
      if len s =? 2 then Some []
      else
        let '(n, v) := cut_equal (skipn 2 s) in
        if match n with [] => true | c :: _ => c =? 45 end then None
        else if beq n (bs "help") then
          match (match v with Some v => help_value v | None => Some (SetHelp true) end) with
          | Some x => option_map (cons x) (parseArgs names rest)
          | None => None
          end
        else if existsb (beq n) names then
          match v with
          | Some v => option_map (cons (SetText n v)) (parseArgs names rest)
          | None =>
            match rest with
            | [] => None
            | v :: rest' => option_map (cons (SetText n v)) (parseArgs names rest')
            end
          end
        else None
    else
      match parseShortArg (skipn 1 s) with
      | Some xs => option_map (app xs) (parseArgs names rest)
      | None => None
      end
  end.

(** command.go:55-57, 77-88, 135-144: the flags of each command, and those that
    are required *)
Definition root_flags : list bytes := [bs "OpType"; bs "LogPath"; bs "LogLevel"].
Definition flags_of (c : command) : list bytes :=
  match c with
  | DataCommand => root_flags ++ [bs "SysDataFile"; bs "TableDataFile"; bs "DBName"; bs "TableName"]
  | RedoCommand => root_flags ++ [bs "SysDataFile"; bs "RedoFile"; bs "DBName"; bs "TableName"]
  | _ => root_flags
  end.
Definition required_of (c : command) : list bytes :=
  match c with
  | DataCommand => [bs "SysDataFile"; bs "TableDataFile"; bs "DBName"; bs "TableName"]
  | RedoCommand => [bs "SysDataFile"; bs "RedoFile"]
  | _ => []
  end.
(** The variables of command.go:36-49 after parsing: the last value counts; the
    names read by the commands are all empty by default. *)
Fixpoint value_of (n : bytes) (l : list setting) (v : option bytes) : option bytes :=
  match l with
  | [] => v
  | SetText m x :: l' => value_of n l' (if beq n m then Some x else v)
  | SetHelp _ :: l' => value_of n l' v
  end.
Definition variable (n : bytes) (l : list setting) : bytes := match value_of n l None with Some v => v | None => [] end.
Fixpoint help_asked (l : list setting) (b : bool) : bool :=
  match l with
  | [] => b
  | SetHelp x :: l' => help_asked l' x
  | SetText _ _ :: l' => help_asked l' b
  end.

(** How the process ends: with an exit status, or after a text about the tool
    (status 0), which is not modelled; [Hangs] is the model's lack of fuel. *)
Inductive outcome : Type := Exit (status : Z) | Informs | Hangs.

(** Go's flag.Parse (command.go:99, 152) on os.Args[1:], with only glog's flags
    defined: arguments that are no flags end it; a flag that is not defined
    exits with status 2.  Simplified: glog's own flags are not looked for, as
    cobra has refused them before; --help=false, which cobra takes, exits with
    status 0 instead of 2 from Go 1.15 on. *)
Definition goFlagParse (args : list bytes) : bool :=
  match args with
  | [] => true
  | s :: _ => (len s <? 2) || negb (dash s) || beq s (bs "--")
  end.

(** main.go:26-30 after Execute: a panic of the command, or of main itself for
    an error of cobra's, gives status 2 *)
Definition finish (run : W unit) : list bytes * outcome :=
  match run with
  | (lines, Ok _) => (lines, Exit 0)
  | (lines, Panic) => (lines, Exit 2)
  | (lines, NoFuel) => (lines, Hangs)
  end.

(** main.go:21-30 with cobra's ExecuteC and execute.  Simplified: log files can
    be written (glog would otherwise exit with status 2). *)
Definition main (fuel : nat) (rt : runtime) (files : fs) (spare : nat) (args : list bytes) : list bytes * outcome :=
  let '(c, rest) := innerfind 3 Root args in
  match c, stripFlags rest with
  | Root, _ :: _ => ([], Exit 2)
  | Informing, _ => ([], Informs)
  | _, _ =>
    match parseArgs (flags_of c) rest with
    | None => ([], Exit 2)
    | Some l =>
      if help_asked l false then ([], Informs)
      else
        match c with
        | DataCommand | RedoCommand =>
          if forallb (fun n => match value_of n l None with Some _ => true | None => false end) (required_of c) then
            if goFlagParse args then
              finish (match c with
                      | DataCommand => FromDataFile fuel rt files (variable (bs "OpType") l) (variable (bs "SysDataFile") l)
                                         (variable (bs "TableDataFile") l) (variable (bs "DBName") l) (variable (bs "TableName") l)
                      | _ => FromRedoFile fuel rt files (variable (bs "SysDataFile") l) (variable (bs "RedoFile") l)
                               (variable (bs "DBName") l) (variable (bs "TableName") l) spare
                      end)
            else ([], Exit 2)
          else ([], Exit 2)
        | _ => ([], Informs)
        end
    end
  end.
