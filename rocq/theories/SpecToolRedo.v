(** What the redo command as a whole should print: the dictionary and the log
    on one side, SQL statements on the other.  Uses none of the model's
    functions. *)
From Verif Require Import GoBase SpecInno SpecText SpecSql SpecRecord SpecRow SpecDict SpecTool SpecRedo.
Local Open Scope list_scope.

(** An update to be undone: the table, the old values, the key of the row. *)
Record update : Type := mkUpdate {
  up_db : list Z; up_tb : list Z; up_old : list (column_def * sqlval); up_key : list (column_def * sqlval) }.
(** The line is the UPDATE that assigns the old values to the row. *)
Definition restores (w : update) (line : list Z) : Prop :=
  read_update line = Some (up_db w, up_tb w, map (fun cv => (cd_name (fst cv), snd cv, [])) (up_old w),
                           map (fun cv => (cd_name (fst cv), snd cv)) (up_key w)).

(** The undo record of a change to a row of a table with a primary key: the
    values of the key columns, in key order; for an update the old values of
    the changed columns, numbered as in the clustered index. *)
Definition old_of (rt : runtime) (ss : list slot) (cv : column_def * sqlval) (f : Z * option (list Z)) : Prop :=
  nth_error ss (Z.to_nat (fst f)) = Some (User (fst cv))
  /\ encodes rt (fst cv) (snd cv) (match snd f with None => FNull | Some b => FBytes b end).
Definition undo_of (rt : runtime) (d : dictionary) (u : undo) (w : update) : Prop :=
  exists t rest, In t (dd_tables d) /\ un_table u = td_id t /\ named_as (td_name t) (up_db w) (up_tb w)
    /\ has_key d (td_id t) (map fst (up_key w)) rest
    /\ Forall2 (fun cv k => encodes rt (fst cv) (snd cv) (FBytes k)) (up_key w) (un_keys u)
    /\ Forall (fun c => SpecTool.ordinary c /\ readable_column c) (columns_of d (td_id t))
    /\ (un_type u = UNDO_UPDATE -> Forall2 (old_of rt (key_slots (map fst (up_key w)) rest)) (up_old w) (un_changes u)).

(** The bytes the reader of an undo record looks at past an old DATETIME *)
Definition datetime_room (w : update) (after : Z) : Prop :=
  Forall (fun cv => mysql_type (fst cv) = 12 -> 3 <= after) (up_old w).

(** The log: ordinary records, undo records of tables the dictionary does not
    have, of inserted and deleted rows, of updates in tables that were not
    asked for, and of updates in those that were.  [ok] restricts the undo
    records; [after] bytes follow the last entry. *)
Inductive log_says (rt : runtime) (d : dictionary) (want_db want_tb : list Z) (ok : undo -> update -> Prop) (after : Z)
  : list entry -> list update -> Prop :=
| ls_nil : log_says rt d want_db want_tb ok after [] []
| ls_end es l : log_says rt d want_db want_tb ok after es l -> log_says rt d want_db want_tb ok after (EEnd :: es) l
| ls_checkpoint lsn es l : 0 <= lsn < 2 ^ 64 -> log_says rt d want_db want_tb ok after es l ->
    log_says rt d want_db want_tb ok after (ECheckpoint lsn :: es) l
| ls_record single space page b es l : word space -> word page -> body_ok b -> SpecRedo.ordinary b ->
    room b <= zlen (flat_map enc_entry es) + after ->
    log_says rt d want_db want_tb ok after es l ->
    log_says rt d want_db want_tb ok after (ERecord single space page b :: es) l
| ls_foreign single space page u es l : word space -> word page -> undo_ok u ->
    ~ In (un_table u) (map td_id (dd_tables d)) ->
    log_says rt d want_db want_tb ok after es l ->
    log_says rt d want_db want_tb ok after (ERecord single space page (BUndo (enc_undo u)) :: es) l
| ls_other single space page u w es l : word space -> word page -> undo_ok u -> undo_room u (zlen (flat_map enc_entry es) + after) ->
    datetime_room w (zlen (flat_map enc_entry es) + after) -> undo_of rt d u w -> ok u w -> un_type u <> UNDO_UPDATE \/ ~ requested want_db want_tb (up_db w) (up_tb w) ->
    log_says rt d want_db want_tb ok after es l ->
    log_says rt d want_db want_tb ok after (ERecord single space page (BUndo (enc_undo u)) :: es) l
| ls_update single space page u w es l : word space -> word page -> undo_ok u -> undo_room u (zlen (flat_map enc_entry es) + after) ->
    datetime_room w (zlen (flat_map enc_entry es) + after) -> undo_of rt d u w -> ok u w -> un_type u = UNDO_UPDATE -> requested want_db want_tb (up_db w) (up_tb w) ->
    log_says rt d want_db want_tb ok after es l ->
    log_says rt d want_db want_tb ok after (ERecord single space page (BUndo (enc_undo u)) :: es) (w :: l).

(** Both files, and the updates of the table that was asked for.  An option
    naming the table must not name tables of two databases (C33). *)
Definition redo_input (rt : runtime) (ok : undo -> update -> Prop) (d : dictionary) (sys_pages : list (list Z)) (want_db want_tb : list Z)
    (fs : list log_file) (ws : list update) : Prop :=
  stores_dictionary sys_pages d /\ consistent d
  /\ Forall file_ok fs
  /\ (forall t db tb, In t (dd_tables d) -> named_as (td_name t) db tb -> want_db = [] \/ want_tb = [] \/ want_db = db \/ want_tb <> tb)
  /\ exists es tail, flat_map (fun f => payloads (lf_blocks f)) fs = flat_map enc_entry es ++ tail
       /\ zlen (flat_map enc_entry es ++ tail) < 2 ^ 32 - 1 /\ zlen tail < 5
       /\ log_says rt d want_db want_tb ok (zlen tail) es ws.

(** The statement as text, values written between quotes as they are. *)
Definition text_in (v : sqlval) : option (list Z) := match v with SStr s => Some s | _ => None end.
Definition verbatim (w : update) : list Z :=
  undo_statement (up_db w) (up_tb w) (map (fun cv => (cd_name (fst cv), text_in (snd cv))) (up_old w))
    (map (fun cv => (cd_name (fst cv), match snd cv with SStr s => s | _ => [] end)) (up_key w)).
(** The undo records of which the values are right, and what is wrong with the
    others: BIT and binary values (shown as numbers and hexadecimal texts),
    DATETIME in the key (C15), a key that is not at the front of the table
    (C55), a changed key column; index names with white space at an end. *)
Definition textual (v : sqlval) : Prop := match v with SNull | SStr _ => True | _ => False end.
Definition shown_update (d : dictionary) (u : undo) (w : update) : Prop :=
  Forall (fun cv => textual (snd cv) /\ mysql_type (fst cv) <> 12) (up_key w)
  /\ Forall (fun cv => textual (snd cv)) (up_old w)
  /\ (exists rest, columns_of d (un_table u) = map fst (up_key w) ++ rest)
  /\ Forall (fun i => tight (id_name i) /\ Forall (fun b => 0 <= b < 256) (id_name i)) (indexes_of d (un_table u))
  /\ (un_type u = UNDO_UPDATE -> Forall (fun f => zlen (up_key w) <= fst f) (un_changes u)).
(** Those of which the statement is right; the others have more than one
    changed column (C31), or values that cannot be written as they are
    (C32). *)
Definition quotable (v : sqlval) : Prop := match v with SStr s => literal s = true | _ => True end.
Definition plain_update (w : update) : Prop :=
  ~ In 96 (up_db w) /\ ~ In 96 (up_tb w) /\ up_key w <> [] /\ zlen (up_old w) = 1
  /\ Forall (fun cv => ~ In 96 (cd_name (fst cv)) /\ quotable (snd cv)) (up_key w ++ up_old w).
