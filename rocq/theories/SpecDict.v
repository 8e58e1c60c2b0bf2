(** The InnoDB data dictionary (SYS_TABLES, SYS_COLUMNS, SYS_INDEXES,
    SYS_FIELDS; dict0boot.h, dict0dict.cc of MySQL 5.6/5.7) and what the tool's
    table map should make of it: an independent specification over the model's
    data types, using none of its functions. *)
From Verif Require Import GoBase Ibdata SpecInno SpecText SpecSql SpecRecord SpecRow SpecPage.
Local Open Scope list_scope.

(** The value held by the i-th column of a decoded row. *)
Definition holds_value (row : list Column) (i : nat) (v : gval) : Prop :=
  option_map c_value (nth_error row i) = Some v.

(** Decoded rows of the four dictionary tables: the columns that matter. *)
Definition tables_row (row : list Column) (name : list Z) (id space : Z) : Prop :=
  holds_value row 0 (VStr name) /\ holds_value row 3 (VUint id) /\ holds_value row 9 (VUint space).
Record column_def : Type := mkColumnDef {
  cd_table : Z; cd_pos : Z; cd_name : list Z; cd_mtype : Z; cd_prtype : Z; cd_len : Z }.
Definition columns_row (row : list Column) (d : column_def) : Prop :=
  holds_value row 0 (VUint (cd_table d)) /\ holds_value row 1 (VUint (cd_pos d)) /\ holds_value row 4 (VStr (cd_name d))
  /\ holds_value row 5 (VUint (cd_mtype d)) /\ holds_value row 6 (VUint (cd_prtype d)) /\ holds_value row 7 (VUint (cd_len d)).
Record index_def : Type := mkIndexDef {
  id_table : Z; id_id : Z; id_name : list Z; id_nfields : Z; id_type : Z }.
Definition indexes_row (row : list Column) (d : index_def) : Prop :=
  holds_value row 0 (VUint (id_table d)) /\ holds_value row 1 (VUint (id_id d)) /\ holds_value row 4 (VStr (id_name d))
  /\ holds_value row 5 (VUint (id_nfields d)) /\ holds_value row 6 (VUint (id_type d)).
Record field_def : Type := mkFieldDef { fd_index : Z; fd_position : Z; fd_column : list Z }.
Definition fields_row (row : list Column) (d : field_def) : Prop :=
  holds_value row 0 (VUint (fd_index d)) /\ holds_value row 1 (VUint (fd_position d)) /\ holds_value row 4 (VStr (fd_column d)).

(** dict0mem.h, data0type.h: bit 256 of PRTYPE is DATA_NOT_NULL, bit 512
    DATA_UNSIGNED, bit 1024 DATA_BINARY_TYPE, the low byte the MySQL type. *)
Definition column_ok (d : column_def) (c : Column) : Prop :=
  c_name c = cd_name d /\ c_type c = cd_mtype d /\ c_pos c = cd_pos d /\ c_table c = cd_table d
  /\ c_null c = negb (Z.testbit (cd_prtype d) 8) /\ c_unsigned c = Z.testbit (cd_prtype d) 9
  /\ c_mysql c = cd_prtype d mod 256
  /\ (c_binary c = true <-> cd_mtype d = 5 /\ Z.testbit (cd_prtype d) 10 = true).

(** Every table's count of nullable columns is right. *)
Definition null_count (cols : list Column) : Z := zlen (filter c_null cols).
Definition counted (tm : gomap Table) : Prop :=
  forall id t, In (id, t) tm -> t_nullcount t = null_count (t_columns t).

(** The key columns in key order, then the others in their order. *)
Definition named (n : list Z) (c : Column) : bool := if list_eq_dec Z.eq_dec (c_name c) n then true else false.
Definition key_first (key : list (list Z)) (cols : list Column) : list Column :=
  flat_map (fun n => filter (named n) cols) key ++ filter (fun c => negb (existsb (fun n => named n c) key)) cols.

(** The clustered index of a table is called PRIMARY, or GEN_CLUST_INDEX if
    the table has no key. *)
Definition is_primary (ix : Index) : Prop := ix_name ix = txt "PRIMARY".
Definition is_generated (ix : Index) : Prop := ix_name ix = txt "GEN_CLUST_INDEX".
Definition clustered (ix : Index) : Prop := is_primary ix \/ is_generated ix.
(** The columns InnoDB adds: 6 bytes transaction id, 7 bytes rollback pointer,
    6 bytes row id; never NULL. *)
Definition internal_column (id : Z) (name : string) (pos len : Z) : Column :=
  mkColumn (txt name) 0 0 pos len VNil false false false id.
Definition at_most_one {A} (P : A -> Prop) (l : list A) : Prop :=
  forall l1 x l2 y l3, l = l1 ++ x :: l2 ++ y :: l3 -> P x -> P y -> False.

(** The dictionary header is page 7; it names the root pages of the four
    dictionary tables' trees (dict0boot.h: DICT_HDR_TABLES at 32, COLUMNS at
    40, INDEXES at 44, FIELDS at 48 from the page data at 38).  The trees'
    index ids are 1, 2, 3 and 4. *)
Definition roots (pages : list (list Z)) : list Z :=
  match find (fun p => page_number p =? 7) pages with
  | Some s => [field s 70 4; field s 78 4; field s 82 4; field s 86 4]
  | None => []
  end.
Definition index_of (page : list Z) : Z := field page 66 8.

(** Rows with a value of the right kind wherever one is needed.  Of a
    SYS_COLUMNS or SYS_INDEXES row whose table is not in the dictionary only the
    table's number is needed, of a column of type 4 (DATA_BINARY) no length. *)
Definition number_at (row : list Column) (i : nat) : Prop := exists n, holds_value row i (VUint n).
Definition text_at (row : list Column) (i : nat) : Prop := exists s, holds_value row i (VStr s).
Definition tables_good (row : list Column) : Prop := text_at row 0 /\ number_at row 3 /\ number_at row 9.
Definition columns_good (known : Z -> Prop) (row : list Column) : Prop :=
  exists id, holds_value row 0 (VUint id)
    /\ (known id -> number_at row 1 /\ text_at row 4 /\ number_at row 5 /\ number_at row 6
                    /\ (holds_value row 5 (VUint 4) \/ number_at row 7)).
Definition indexes_good (known : Z -> Prop) (row : list Column) : Prop :=
  exists id, holds_value row 0 (VUint id)
    /\ (known id -> number_at row 1 /\ text_at row 4 /\ number_at row 5 /\ number_at row 6).
Definition fields_good (row : list Column) : Prop := number_at row 0 /\ number_at row 1 /\ text_at row 4.
Definition in_dict (tm : gomap Table) (id : Z) : Prop := In id (map fst tm).
