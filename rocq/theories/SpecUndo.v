(** Which lines a log is supposed to print: relates undo records to the tables
    of the dictionary (the data types of the model and its value decoder
    ParseData, the subject of C09-C22; none of its log functions). *)
From Verif Require Import GoBase Utils Ibdata SpecInno SpecText SpecSql SpecRecord SpecRow SpecRedo.
Local Open Scope list_scope.

(** The declared length of a column that has a fixed length, else 0 *)
Definition fixed_of (c : Column) : Z := if existsb (Z.eqb (c_type c)) [5; 12; 13] then 0 else c_len c.

(** The clustered index of a table: the one named PRIMARY; MySQL gives tables
    without a key the index GEN_CLUST_INDEX on the internal row id. *)
Definition clustered_name (ix : Index) : Prop :=
  trim_space (ix_name ix) = txt "PRIMARY" \/ trim_space (ix_name ix) = txt "GEN_CLUST_INDEX".
Definition key_names (t : Table) (names : list bytes) : Prop :=
  exists ixs1 k ix ixs2, t_indexes t = ixs1 ++ (k, ix) :: ixs2
  /\ Forall (fun e => ~ clustered_name (snd e)) (ixs1 ++ ixs2)
  /\ ((trim_space (ix_name ix) = txt "PRIMARY" /\ names = map fd_name (ix_fields ix))
      \/ (trim_space (ix_name ix) = txt "GEN_CLUST_INDEX" /\ names = [txt "DB_ROW_ID"])).
(** The first column of a table with a name *)
Inductive column_named (n : bytes) : list Column -> Column -> Prop :=
| cn_here c cs : c_name c = n -> column_named n (c :: cs) c
| cn_next c c' cs : c_name c <> n -> column_named n cs c' -> column_named n (c :: cs) c'.

(** The column a key column is decoded as: the first of its name, or one of no
    type if the table has lost it *)
Definition no_column : Column := mkColumn [] 0 0 0 0 VNil false false false 0.
Definition key_column (n : bytes) (cs : list Column) (c : Column) : Prop :=
  column_named n cs c \/ (~ In n (map c_name cs) /\ c = no_column).

(** Key values and the texts they are shown as (Go's text of no value for a
    column that is not decoded, such as InnoDB's row id); last, the remarks
    made while reading them (SpecRow: one for each DECIMAL) *)
Definition key_text (rt : runtime) (v : gval) (x : bytes) : Prop := text_of rt v x \/ (v = VNil /\ x = txt "<nil>").
Inductive key_shown (rt : runtime) (t : Table) : list bytes -> list bytes -> list (bytes * bytes) -> list bytes -> Prop :=
| key_nil : key_shown rt t [] [] [] []
| key_cons n ns k ks c v bin x l m : key_column n (t_columns t) c -> 0 <= c_len c < 2 ^ 63 ->
    ParseData rt (c_type c) (c_mysql c) k (zlen k) (fixed_of c) (c_unsigned c) (c_binary c) = (remark c, Ok (v, bin)) ->
    key_text rt v x -> key_shown rt t ns ks l m ->
    key_shown rt t (n :: ns) (k :: ks) ((n, x) :: l) (remark c ++ m).
(** Old values and the texts they are shown as, None for NULL.  At least
    [after] bytes follow an old value. *)
Inductive old_shown (rt : runtime) (t : Table) (after : Z) : list (Z * option bytes) -> list (bytes * option bytes) -> list bytes -> Prop :=
| old_nil : old_shown rt t after [] [] []
| old_null p c l r m : nth_error (t_columns t) (Z.to_nat p) = Some c -> old_shown rt t after l r m ->
    old_shown rt t after ((p, None) :: l) ((c_name c, None) :: r) m
| old_value p b c x l r m : nth_error (t_columns t) (Z.to_nat p) = Some c -> 0 <= c_len c < 2 ^ 63 ->
    (forall d, all_bytes d -> after <= zlen d ->
       exists v bin, ParseData rt (c_type c) (c_mysql c) (b ++ d) (zlen b) (fixed_of c) (c_unsigned c) (c_binary c) = (remark c, Ok (v, bin)) /\ text_of rt v x) ->
    old_shown rt t after l r m ->
    old_shown rt t after ((p, Some b) :: l) ((c_name c, Some x) :: r) (remark c ++ m).

(** What an undo record prints that is followed by [after] bytes (nothing if
    these are too few) *)
Inductive undo_lines (rt : runtime) (tm : gomap Table) (want_db want_tb : bytes) (after : Z) (u : undo) : list bytes -> Prop :=
| ul_foreign : mget tm (un_table u) = None -> undo_lines rt tm want_db want_tb after u []
| ul_late : ~ undo_room u after -> undo_lines rt tm want_db want_tb after u []
| ul_other t names key m : mget tm (un_table u) = Some t -> undo_room u after -> un_type u <> UNDO_UPDATE ->
    key_names t names -> key_shown rt t names (un_keys u) key m ->
    undo_lines rt tm want_db want_tb after u m
| ul_unwanted t names key old m m' : mget tm (un_table u) = Some t -> undo_room u after -> un_type u = UNDO_UPDATE ->
    key_names t names -> key_shown rt t names (un_keys u) key m -> old_shown rt t after (un_changes u) old m' ->
    ~ requested want_db want_tb (t_db t) (t_name t) ->
    undo_lines rt tm want_db want_tb after u (m ++ m')
| ul_update t names key old m m' : mget tm (un_table u) = Some t -> undo_room u after -> un_type u = UNDO_UPDATE ->
    key_names t names -> key_shown rt t names (un_keys u) key m -> old_shown rt t after (un_changes u) old m' ->
    requested want_db want_tb (t_db t) (t_name t) ->
    undo_lines rt tm want_db want_tb after u (m ++ m' ++ [undo_statement (t_db t) (t_name t) old key]).

(** What a log prints: the entries in order, each with enough bytes after it
    ([after] bytes follow the last one). *)
Inductive log_lines (rt : runtime) (tm : gomap Table) (want_db want_tb : bytes) (after : Z) : list entry -> list bytes -> Prop :=
| ll_nil : log_lines rt tm want_db want_tb after [] []
| ll_end es l : log_lines rt tm want_db want_tb after es l -> log_lines rt tm want_db want_tb after (EEnd :: es) l
| ll_checkpoint lsn es l : 0 <= lsn < 2 ^ 64 -> log_lines rt tm want_db want_tb after es l ->
    log_lines rt tm want_db want_tb after (ECheckpoint lsn :: es) l
| ll_record single space page b es l : word space -> word page -> body_ok b -> ordinary b ->
    room b <= zlen (flat_map enc_entry es) + after ->
    log_lines rt tm want_db want_tb after es l ->
    log_lines rt tm want_db want_tb after (ERecord single space page b :: es) l
| ll_undo single space page u es l l' : word space -> word page -> undo_ok u ->
    undo_lines rt tm want_db want_tb (zlen (flat_map enc_entry es) + after) u l ->
    log_lines rt tm want_db want_tb after es l' ->
    log_lines rt tm want_db want_tb after (ERecord single space page (BUndo (enc_undo u)) :: es) (l ++ l').
