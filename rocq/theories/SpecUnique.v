(** Tables without a PRIMARY KEY that are clustered on another unique key.
    None of the model's functions is used. *)
From Verif Require Import GoBase Ibdata SpecInno SpecText SpecSql SpecRecord SpecRow SpecPage SpecDict SpecTool.
Local Open Scope list_scope.
Local Open Scope Z_scope.

Definition not_null (c : column_def) : Prop := Z.testbit (cd_prtype c) 8 = true.
(** Without a PRIMARY KEY, the first UNIQUE key whose columns are all NOT NULL
    becomes the clustered index (type 3: DICT_CLUSTERED and DICT_UNIQUE).  It
    keeps its own name, and InnoDB generates no row numbers. *)
Definition promoted (d : dictionary) (id : Z) (key rest : list column_def) : Prop :=
  (exists i, In i (indexes_of d id) /\ id_type i = 3 /\ map cd_name key = map fd_column (fields_of d (id_id i))
    /\ incl key (columns_of d id) /\ key <> [] /\ Forall not_null key
    /\ rest = filter (fun c => negb (existsb (fun k => if list_eq_dec Z.eq_dec (cd_name k) (cd_name c) then true else false) key)) (columns_of d id))
  /\ forall j, In j (indexes_of d id) -> ~ primary j /\ ~ generated j.
(** The names of its indexes, without white space at either end. *)
Definition unknown_key (d : dictionary) (id : Z) : Prop :=
  forall i, In i (indexes_of d id) -> trim_space (id_name i) <> txt "PRIMARY" /\ trim_space (id_name i) <> txt "GEN_CLUST_INDEX".
(** Both files, the table, and what does not depend on its records. *)
Definition unique_table (d : dictionary) (sys_pages : list (list Z)) (t : table_def) (db tb : list Z) (key rest : list column_def) : Prop :=
  stores_dictionary sys_pages d /\ consistent d /\ NoDup (map td_name (dd_tables d))
  /\ In t (dd_tables d) /\ named_as (td_name t) db tb /\ db <> [] /\ ~ In 96 db /\ ~ In 96 tb
  /\ Forall (fun c => ordinary c /\ readable_column c) (columns_of d (td_id t)) /\ promoted d (td_id t) key rest.
(** Its rows; the records are those of any clustered index. *)
Definition unique_input (rt : runtime) (deleted : bool) (d : dictionary) (sys_pages : list (list Z)) (t : table_def) (db tb : list Z)
    (key rest : list column_def) (pages : list (list Z)) (rows : list row) : Prop :=
  unique_table d sys_pages t db tb key rest /\ file_holds rt deleted (key_slots key rest) pages (map (values (key ++ rest)) rows).

(** COMPACT pages, each row with the fields of its record. *)
Definition page_fields (rt : runtime) (deleted : bool) (ss : list slot) (page : list Z) (rows : list (list sqlval * list stored)) : Prop :=
  exists offs, compact_page page
    /\ (if deleted then free_chain true page offs /\ hd_error offs = Some (field page 44 2)
        else chain true page (infimum true) offs (supremum true))
    /\ Forall2 (fun off r => user_origin off /\ compact_at page off (map slot_layout ss) (snd r)
         /\ off + zlen (body (snd r)) <= 16384 - 8 /\ row_encodes rt ss (fst r) (snd r)) offs rows.
Definition file_fields (rt : runtime) (deleted : bool) (ss : list slot) (pages : list (list Z)) (rows : list (list sqlval * list stored)) : Prop :=
  Forall page_image pages /\ exists contents, Forall2 (page_fields rt deleted ss) (filter (eligible deleted) (firsts pages)) contents /\ List.concat contents = rows.
Definition unique_fields (rt : runtime) (deleted : bool) (d : dictionary) (sys_pages : list (list Z)) (t : table_def) (db tb : list Z)
    (key rest : list column_def) (pages : list (list Z)) (rows : list (row * list stored)) : Prop :=
  unique_table d sys_pages t db tb key rest /\ file_fields rt deleted (key_slots key rest) pages (map (fun r => (values (key ++ rest) (fst r), snd r)) rows).

(** A signed integer column. *)
Definition signed_int (c : column_def) (k : nat) : Prop :=
  cd_mtype c = 6 /\ In (mysql_type c) [1; 2; 3; 8; 9] /\ is_unsigned c = false /\ cd_len c = Z.of_nat k /\ In k [1; 2; 3; 4; 8]%nat.
(** The bytes of a record cut up for columns, as if they followed each other
    from its first byte on: the values that are not NULL are taken for the
    numbers that come out. *)
Inductive taken_for : list column_def -> list sqlval -> list Z -> list sqlval -> Prop :=
| taken_none b : taken_for [] [] b []
| taken_null c cs vs b ps : taken_for cs vs b ps -> taken_for (c :: cs) (SNull :: vs) b (SNull :: ps)
| taken_int c k cs v vs z t b ps : v <> SNull -> cd_len c = Z.of_nat k -> - 2 ^ (8 * Z.of_nat k - 1) <= z < 2 ^ (8 * Z.of_nat k - 1) -> int_text z t ->
    taken_for cs vs b ps -> taken_for (c :: cs) (v :: vs) (store_int k z ++ b) (SStr t :: ps).
