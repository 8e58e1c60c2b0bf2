(** Model of cmd/db-recovery/command.go and recovery/logs/logs.go. *)
From Verif Require Import GoBase Utils Ibdata Redo.
Local Open Scope list_scope.

(** logs.go:25-32 *)
Definition LevelFatal := 0.
Definition LevelError := 1.
Definition LevelWarn := 2.
Definition LevelInfo := 3.
Definition LevelDebug := 4.
Definition LevelTrace := 5.

(** Go: strings.ToLower, on ASCII letters.  Simplified: no other letter maps
    to a letter of a level name, except U+0130 to i, which only can spell
    "info", the default. *)
Definition to_lower (s : bytes) : bytes :=
  map (fun c => if (65 <=? c) && (c <=? 90) then c + 32 else c) s.

(** logs.go:34-41, 48-51 *)
Definition level_of (LogLevel : bytes) : Z :=
  let l := to_lower LogLevel in
  if beq l (bs "trace") then LevelTrace
  else if beq l (bs "debug") then LevelDebug
  else if beq l (bs "info") then LevelInfo
  else if beq l (bs "warn") then LevelWarn
  else if beq l (bs "error") then LevelError
  else if beq l (bs "fatal") then LevelFatal
  else LevelInfo.

(** logs.go:60-124 with glog.V: is a message of the given level emitted *)
Definition log_emitted (verbosity level : Z) : bool := level <=? verbosity.

(** A file system: what os.Open and the reads after it give for a path *)
Definition fs : Type := bytes -> option (list ioev).

(** command.go:106, 115-117 *)
Definition is_recovery (OpType : bytes) : bool := beq OpType (bs "RecoveryData").

(** command.go:167: strings.Split(RedoFile, ",") *)
Definition redo_files (RedoFile : bytes) : list bytes := split_on 44 RedoFile.

(** command.go:96-127 (after InitLogs, which cannot fail here) *)
Definition FromDataFile (fuel : nat) (rt : runtime) (files : fs) (OpType SysDataFile TableFile DBName TableName : bytes)
  : W unit :=
  '(tm, err) <-w ParseDictPage fuel rt (files SysDataFile) ;;
  match err with
  | Some e => say e
  | None =>
    err <-w ParseDataPage fuel rt tm (files TableFile) DBName TableName (is_recovery OpType) ;;
    match err with
    | Some e => say e
    | None => wret tt
    end
  end.

(** command.go:149-175 with redo/parse.go:51-57.  A dictionary error is only
    logged; fmt.Println puts a space between its arguments. *)
Definition FromRedoFile (fuel : nat) (rt : runtime) (files : fs) (SysDataFile RedoFile DBName TableName : bytes)
    (spare : nat) : W unit :=
  '(tm, err) <-w ParseDictPage fuel rt (files SysDataFile) ;;
  match err with
  | Some _ => wret tt
  | None =>
    err <-w ParseRedoLogs rt tm DBName TableName (map files (redo_files RedoFile)) spare ;;
    match err with
    | Some e => say (bs "parse redo failed, error:  " ++ e)
    | None => wret tt
    end
  end.
