(** An UPDATE without WHERE, which changes every row of its table, and what
    follows it.  Uses none of the model's functions. *)
From Verif Require Import GoBase Utils Ibdata SpecInno SpecText SpecSql SpecRow SpecRedo SpecChars SpecInject.
Local Open Scope list_scope.

(** update `db`.`table` set ...; and the text behind it *)
Definition read_update_all (t : list Z) : option (list Z * list Z * list assignment * list Z) :=
  match strip (txt "update ") t with
  | None => None
  | Some r =>
    match read_table r with
    | None => None
    | Some (db, tb, r) =>
      match strip (txt " set ") r with
      | None => None
      | Some r =>
        match read_set (List.length r) r with
        | None => None
        | Some (sets, r) => match strip (txt ";") r with Some k => Some (db, tb, sets, k) | None => None end
        end
      end
    end
  end.
(** `a`='x' and `b`='y' and ... *)
Fixpoint conditions (key : list (list Z * list Z)) : list Z :=
  match key with
  | [] => []
  | [(n, v)] => txt "`" ++ n ++ txt "`='" ++ v ++ txt "'"
  | (n, v) :: r => txt "`" ++ n ++ txt "`='" ++ v ++ txt "' and " ++ conditions r
  end.

(** What the UPDATE statements may look like outside quoted text. *)
Definition only_update (line : list Z) : Prop :=
  exists sets keys, Forall (fun v => In v [txt "``=''"; txt "``=NULL"]) sets /\ Forall (fun v => v = txt "``=''") keys
    /\ outside line (txt "update ``.`` set " ++ joined (txt " and ") sets ++ txt " where " ++ joined (txt " and ") keys ++ txt ";").
(** A column whose values are printed without text of their own: numbers,
    dates and times, binary strings (in hex), and the columns that InnoDB adds
    itself (type 0). *)
Definition plain_column (c : Column) : Prop :=
  In (c_type c) [0; innodb_int; innodb_float; innodb_double; innodb_decimal]
  \/ (c_type c = innodb_fixbinary /\ In (c_mysql c) [field_time; field_timestamp; field_datetime; field_bit; field_string])
  \/ (c_type c = innodb_binary /\ c_mysql c = field_varchar)
  \/ (c_type c = innodb_blob /\ c_binary c = true).
(** A table of such columns, with names without backquote. *)
Definition plain_table (t : Table) : Prop :=
  ~ In 96 (t_db t) /\ ~ In 96 (t_name t) /\ Forall (fun c => plain_column c /\ ~ In 96 (c_name c)) (t_columns t)
  /\ Forall (fun kix => Forall (fun f => ~ In 96 (fd_name f)) (ix_fields (snd kix))) (t_indexes t).
(** Go prints floats without quotes and backslashes, and no time zone is more
    than a day away from UTC. *)
Definition plain_runtime (rt : runtime) : Prop :=
  (forall b, literal (rt_fmt32 rt b) = true) /\ (forall b, literal (rt_fmt64 rt b) = true) /\ (forall t, -86400 <= rt_zone rt t <= 86400).
(** What files give when read are bytes. *)
Definition byte_files (files : list (option (list ioev))) : Prop :=
  forall evs b, In (Some evs) files -> In (IoBytes b) evs -> Forall (fun x => 0 <= x < 256) b.
(** An UPDATE with its WHERE, and what follows it. *)
Definition read_update_first (t : list Z) : option (list Z * list Z * list assignment * list (list Z * sqlval) * list Z) :=
  match strip (txt "update ") t with
  | None => None
  | Some r =>
    match read_table r with
    | None => None
    | Some (db, tb, r) =>
      match strip (txt " set ") r with
      | None => None
      | Some r =>
        match read_set (List.length r) r with
        | None => None
        | Some (sets, r) =>
          match strip (txt " where ") r with
          | None => None
          | Some r =>
            match read_conj (List.length r) r with
            | None => None
            | Some (cs, r) => match strip (txt ";") r with Some k => Some (db, tb, sets, cs, k) | None => None end
            end
          end
        end
      end
    end
  end.
