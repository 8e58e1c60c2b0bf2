(** The data dictionary as InnoDB stores it in the system tablespace, what the
    tool should know after reading it, and what a user's table looks like in
    its data file: an independent specification (dict0boot.cc, dict0crea.cc,
    dict0load.cc of MySQL 5.6/5.7), using none of the model's functions. *)
From Coq Require Import String Permutation.
From Verif Require Import GoBase Ibdata SpecInno SpecText SpecSql SpecRecord SpecRow SpecPage SpecDict.
Local Open Scope string_scope.
Local Open Scope list_scope.
Local Open Scope Z_scope.

(** * The dictionary's records *)
(** One stored column: a k-byte number; k bytes of no interest; a text; or
    anything at all (NULL included). *)
Definition is_num (k : nat) (n : Z) (f : rstored) : Prop := 0 <= n < 256 ^ Z.of_nat k /\ f = RBytes (be k n).
Definition is_wide (k : Z) (f : rstored) : Prop := zlen (rcontent f) = k.
Definition is_text (s : list Z) (f : rstored) : Prop := f = RBytes s.
Definition is_any (f : rstored) : Prop := True.
(** The stored columns of a record, one by one; later versions of MySQL may
    have added columns at the end (SYS_INDEXES.MERGE_THRESHOLD). *)
Definition matches (ps : list (rstored -> Prop)) (fs : list rstored) : Prop :=
  exists front extra, fs = front ++ extra /\ Forall2 (fun p f => p f) ps front.

Record table_def : Type := mkTableDef { td_name : list Z; td_id : Z; td_space : Z }.
(** SYS_TABLES: NAME, DB_TRX_ID, DB_ROLL_PTR, ID, N_COLS, TYPE, MIX_ID,
    MIX_LEN, CLUSTER_NAME, SPACE *)
Definition tables_record (d : table_def) : list (rstored -> Prop) :=
  [is_text (td_name d); is_wide 6; is_wide 7; is_num 8 (td_id d); is_wide 4; is_wide 4; is_any; is_wide 4; is_any; is_num 4 (td_space d)].
(** SYS_COLUMNS: TABLE_ID, POS, DB_TRX_ID, DB_ROLL_PTR, NAME, MTYPE, PRTYPE,
    LEN, PREC *)
Definition columns_record (d : column_def) : list (rstored -> Prop) :=
  [is_num 8 (cd_table d); is_num 4 (cd_pos d); is_wide 6; is_wide 7; is_text (cd_name d); is_num 4 (cd_mtype d); is_num 4 (cd_prtype d);
   is_num 4 (cd_len d); is_wide 4].
(** SYS_INDEXES: TABLE_ID, ID, DB_TRX_ID, DB_ROLL_PTR, NAME, N_FIELDS, TYPE,
    SPACE, PAGE_NO *)
Definition indexes_record (d : index_def) : list (rstored -> Prop) :=
  [is_num 8 (id_table d); is_num 8 (id_id d); is_wide 6; is_wide 7; is_text (id_name d); is_num 4 (id_nfields d); is_num 4 (id_type d);
   is_wide 4; is_wide 4].
(** SYS_FIELDS: INDEX_ID, POS, DB_TRX_ID, DB_ROLL_PTR, COL_NAME *)
Definition fields_record (d : field_def) : list (rstored -> Prop) :=
  [is_num 8 (fd_index d); is_num 4 (fd_position d); is_wide 6; is_wide 7; is_text (fd_column d)].

(** A leaf page of one of the four tables: REDUNDANT records, linked in order,
    each with offsets of one or two bytes. *)
Definition holds_records {D} (record : D -> list (rstored -> Prop)) (page : list Z) (defs : list D) : Prop :=
  redundant_page page /\ exists offs, chain false page (infimum false) offs (supremum false)
    /\ Forall2 (fun off d => user_origin off /\ exists wide fs, redundant_at page off wide fs /\ matches (record d) fs) offs defs.
(** A page above the leaves: for every page below it a node pointer, the key
    of its first record and its number; no other columns. *)
Definition holds_pointers (key : list (rstored -> Prop)) (page : list Z) : Prop :=
  redundant_page page /\ exists off offs, chain false page (infimum false) (off :: offs) (supremum false)
    /\ Forall (fun off => user_origin off /\ exists wide fs child, redundant_at page off wide (fs ++ [child])
         /\ Forall2 (fun p f => p f) key fs /\ is_wide 4 child) (off :: offs).
(** What a page of a tree contributes to the table. *)
Inductive tree_page {D} (record : D -> list (rstored -> Prop)) (key : list (rstored -> Prop)) (page : list Z) : list D -> Prop :=
| leaf_page defs : holds_records record page defs -> tree_page record key page defs
| node_page : holds_pointers key page -> tree_page record key page [].
(** A tree: the pages with its index id, the root before the others, and the
    contents of the leaves in the order of the pages in the file. *)
Definition stored_tree {D} (record : D -> list (rstored -> Prop)) (key : list (rstored -> Prop)) (pages : list (list Z)) (k root : Z) (defs : list D) : Prop :=
  exists page others contents, filter (fun p => index_of p =? k) (firsts pages) = page :: others /\ page_number page = root
    /\ Forall2 (tree_page record key) (page :: others) contents /\ List.concat contents = defs.
(** The keys: NAME; TABLE_ID, POS; TABLE_ID, ID; INDEX_ID, POS. *)
Definition tables_key : list (rstored -> Prop) := [is_any].
Definition columns_key : list (rstored -> Prop) := [is_wide 8; is_wide 4].
Definition indexes_key : list (rstored -> Prop) := [is_wide 8; is_wide 8].
Definition fields_key : list (rstored -> Prop) := [is_wide 8; is_wide 4].

Record dictionary : Type := mkDictionary {
  dd_tables : list table_def; dd_columns : list column_def; dd_indexes : list index_def; dd_fields : list field_def }.
(** The system tablespace holds the dictionary: the rows of each table in the
    order of its leaf pages in the file. *)
Definition stores_dictionary (pages : list (list Z)) (d : dictionary) : Prop :=
  Forall page_image pages /\
  exists r1 r2 r3 r4, roots (firsts pages) = [r1; r2; r3; r4]
    /\ stored_tree tables_record tables_key pages 1 r1 (dd_tables d)
    /\ stored_tree columns_record columns_key pages 2 r2 (dd_columns d)
    /\ stored_tree indexes_record indexes_key pages 3 r3 (dd_indexes d)
    /\ stored_tree fields_record fields_key pages 4 r4 (dd_fields d).

(** * The order of rows *)
(** The leaves of a tree in key order: every page names the next by its number
    (FIL_PAGE_NEXT at 12), the last names none. *)
Inductive leaf_list : list (list Z) -> Prop :=
| last_leaf p : field p 12 4 = 2 ^ 32 - 1 -> leaf_list [p]
| next_leaf p q ps : field p 12 4 = page_number q -> leaf_list (q :: ps) -> leaf_list (p :: q :: ps).
(** A tree and its rows in key order, wherever in the file its pages are
    (after the root). *)
Definition kept_tree {D} (record : D -> list (rstored -> Prop)) (key : list (rstored -> Prop)) (pages : list (list Z)) (k root : Z)
    (leaves : list (list Z)) (defs : list D) : Prop :=
  exists page others nodes contents, filter (fun p => index_of p =? k) (firsts pages) = page :: others /\ page_number page = root
    /\ Permutation (page :: others) (nodes ++ leaves) /\ Forall (holds_pointers key) nodes /\ leaf_list leaves
    /\ Forall2 (holds_records record) leaves contents /\ List.concat contents = defs.
Definition keeps_dictionary (pages : list (list Z)) (l1 l2 l3 l4 : list (list Z)) (d : dictionary) : Prop :=
  Forall page_image pages /\
  exists r1 r2 r3 r4, roots (firsts pages) = [r1; r2; r3; r4]
    /\ kept_tree tables_record tables_key pages 1 r1 l1 (dd_tables d)
    /\ kept_tree columns_record columns_key pages 2 r2 l2 (dd_columns d)
    /\ kept_tree indexes_record indexes_key pages 3 r3 l3 (dd_indexes d)
    /\ kept_tree fields_record fields_key pages 4 r4 l4 (dd_fields d).
(** The leaves are in the file in key order. *)
Definition in_file_order (pages leaves : list (list Z)) : Prop := exists sel, leaves = filter sel (firsts pages).

(** * What it says *)
Definition columns_of (d : dictionary) (id : Z) : list column_def := filter (fun c => cd_table c =? id) (dd_columns d).
Definition indexes_of (d : dictionary) (id : Z) : list index_def := filter (fun i => id_table i =? id) (dd_indexes d).
Definition fields_of (d : dictionary) (ix : Z) : list field_def := filter (fun f => fd_index f =? ix) (dd_fields d).
(** Names are database/table (a slash in either is encoded); InnoDB's own
    tables have no database. *)
Definition named_as (name db tb : list Z) : Prop :=
  (name = db ++ 47 :: tb /\ ~ In 47 db /\ ~ In 47 tb) \/ (name = tb /\ db = [] /\ ~ In 47 tb).
Definition primary (i : index_def) : Prop := id_name i = txt "PRIMARY".
Definition generated (i : index_def) : Prop := id_name i = txt "GEN_CLUST_INDEX".
(** What InnoDB maintains: ids are unique, indexes belong to tables, a table
    has at most one clustered index, the columns of a table have different
    names, and the fields of its key are different columns of it, counted by
    N_FIELDS. *)
Definition consistent (d : dictionary) : Prop :=
  NoDup (map td_id (dd_tables d)) /\ NoDup (map id_id (dd_indexes d))
  /\ (forall t, In t (dd_tables d) -> exists db tb, named_as (td_name t) db tb)
  /\ (forall i, In i (dd_indexes d) -> In (id_table i) (map td_id (dd_tables d)))
  /\ (forall id, at_most_one (fun i => primary i \/ generated i) (indexes_of d id))
  /\ (forall id, NoDup (map cd_name (columns_of d id)))
  /\ (forall i, In i (dd_indexes d) -> primary i ->
        NoDup (map fd_column (fields_of d (id_id i))) /\ incl (map fd_column (fields_of d (id_id i))) (map cd_name (columns_of d (id_table i)))
        /\ id_nfields i = zlen (fields_of d (id_id i))).

(** SYS_INDEXES has a row of a table that SYS_TABLES does not have; [id] is
    that of the last such row. *)
Definition stray_index (d : dictionary) (id : Z) : Prop :=
  exists is1 i is2, dd_indexes d = is1 ++ i :: is2 /\ id_table i = id /\ ~ In id (map td_id (dd_tables d))
    /\ Forall (fun j => In (id_table j) (map td_id (dd_tables d))) is2.

(** The descriptor of a column: VARBINARY (type 4) has no length (see C36). *)
Definition descriptor (d : column_def) : Column :=
  mkColumn (cd_name d) (cd_mtype d) (cd_prtype d mod 256) (cd_pos d) (if cd_mtype d =? 4 then 0 else cd_len d) VNil
    (negb (Z.testbit (cd_prtype d) 8)) ((cd_mtype d =? 5) && Z.testbit (cd_prtype d) 10) (Z.testbit (cd_prtype d) 9) (cd_table d).
(** The columns of a record of the clustered index: the key, InnoDB's two
    internal columns, the rest; without a key three internal columns first. *)
Definition with_key (id : Z) (key rest : list column_def) : list Column :=
  map descriptor key ++ [internal_column id "DB_TRX_ID" (zlen key) 6; internal_column id "DB_ROLL_PTR" (zlen key + 1) 7] ++ map descriptor rest.
Definition without_key (id : Z) (cols : list column_def) : list Column :=
  [internal_column id "DB_ROW_ID" 0 6; internal_column id "DB_TRX_ID" 1 6; internal_column id "DB_ROLL_PTR" 2 7] ++ map descriptor cols.
(** The key columns in key order, and the others in theirs. *)
Definition has_key (d : dictionary) (id : Z) (key rest : list column_def) : Prop :=
  exists i, In i (indexes_of d id) /\ primary i
    /\ map cd_name key = map fd_column (fields_of d (id_id i)) /\ incl key (columns_of d id)
    /\ rest = filter (fun c => negb (existsb (fun k => if list_eq_dec Z.eq_dec (cd_name k) (cd_name c) then true else false) key)) (columns_of d id).
Definition has_no_key (d : dictionary) (id : Z) : Prop := exists i, In i (indexes_of d id) /\ generated i.
(** The entry of an index: its fields in the order of their rows. *)
Definition index_entry (d : dictionary) (i : index_def) : Z * Index :=
  (id_id i, mkIndex (id_id i) (id_name i) (id_nfields i) (id_type i) (map (fun f => mkField (fd_position f) (fd_column f)) (fields_of d (id_id i)))).
(** The table map agrees with the dictionary in everything but the order of
    the columns. *)
Definition agrees (d : dictionary) (tm : gomap Table) : Prop :=
  NoDup (map fst tm) /\ (forall id, In id (map fst tm) <-> In id (map td_id (dd_tables d)))
  /\ forall t, In t (dd_tables d) -> exists e, mget tm (td_id t) = Some e /\ named_as (td_name t) (t_db e) (t_name e)
       /\ t_space e = td_space t /\ t_nullcount e = zlen (filter (fun c => negb (Z.testbit (cd_prtype c) 8)) (columns_of d (td_id t)))
       /\ t_indexes e = map (index_entry d) (indexes_of d (td_id t)).

(** * Users' tables *)
(** How a column of a table is stored: InnoDB's layout from the dictionary
    (DATA_MYSQL columns taken to have characters of different sizes). *)
Definition column_layout (c : column_def) : layout :=
  inno_layout (cd_mtype c) (cd_len c) (negb (Z.testbit (cd_prtype c) 8)) false.
Definition mysql_type (c : column_def) : Z := cd_prtype c mod 256.
Definition is_unsigned (c : column_def) : bool := Z.testbit (cd_prtype c) 9.
Definition is_binary (c : column_def) : bool := Z.testbit (cd_prtype c) 10.
(** Texts of dates and times. *)
Definition date_text (y m d : Z) (t : list Z) : Prop :=
  exists a b c, t = a ++ txt "-" ++ b ++ txt "-" ++ c /\ dec_text 4 y a /\ dec_text 2 m b /\ dec_text 2 d c.
Definition clock_text (h m s : Z) (t : list Z) : Prop :=
  exists a b c, t = a ++ txt ":" ++ b ++ txt ":" ++ c /\ dec_text 2 h a /\ dec_text 2 m b /\ dec_text 2 s c.

(** The columns and values the tool can read, and how they are stored.  What
    is left out, and the reason: unsigned 3-byte integers from 2^22 (C11), BIT beyond
    one bit (C12, C29), years outside 1991-2099 in DATETIME (C15), TIMESTAMP
    (C17), year 0000 (C18), CHAR with white space at either end (C20),
    DECIMAL (never decoded), VARCHAR of one-byte character sets and VARBINARY longer
    than 255 (C36), columns stored outside the record (C51). *)
Inductive encodes (rt : runtime) (c : column_def) : sqlval -> stored -> Prop :=
| enc_null : Z.testbit (cd_prtype c) 8 = false -> mysql_type c <> 16 -> encodes rt c SNull FNull
| enc_int k v t : cd_mtype c = 6 -> In (mysql_type c) [1; 2; 3; 8; 9; 11; 12] -> is_unsigned c = false -> cd_len c = Z.of_nat k -> In k [1; 2; 3; 4; 8]%nat ->
    - 2 ^ (8 * Z.of_nat k - 1) <= v < 2 ^ (8 * Z.of_nat k - 1) -> int_text v t ->
    encodes rt c (SStr t) (FBytes (store_int k v))
| enc_uint k v t : cd_mtype c = 6 -> In (mysql_type c) [1; 2; 3; 7; 8; 9; 254] -> is_unsigned c = true -> cd_len c = Z.of_nat k -> In k [1; 2; 3; 4; 8]%nat ->
    0 <= v < 256 ^ Z.of_nat k -> (k = 3%nat -> v < 2 ^ 22) -> int_text v t ->
    encodes rt c (SStr t) (FBytes (store_uint k v))
| enc_year b t : cd_mtype c = 6 -> mysql_type c = 13 -> cd_len c = 1 -> 1 <= b < 256 -> int_text (1900 + b) t ->
    encodes rt c (SStr t) (FBytes [b])
| enc_date y m d t : cd_mtype c = 6 -> mysql_type c = 10 -> cd_len c = 3 -> 1000 <= y <= 9999 -> 0 <= m <= 12 -> 0 <= d <= 31 ->
    date_text y m d t -> encodes rt c (SStr t) (FBytes (store_date y m d))
| enc_time neg h m s t : cd_mtype c = 3 -> mysql_type c = 11 -> cd_len c = 3 -> 0 <= h <= 838 -> 0 <= m < 60 -> 0 <= s < 60 -> 0 < h + m + s ->
    clock_text h m s t ->
    encodes rt c (SStr ((if neg : bool then txt "-" else []) ++ t)) (FBytes (store_time neg h m s))
| enc_datetime y mo d h mi s t1 t2 : cd_mtype c = 3 -> mysql_type c = 12 -> cd_len c = 5 -> 1990 < y < 2100 -> 1 <= mo <= 12 -> 1 <= d <= 31 ->
    0 <= h <= 23 -> 0 <= mi <= 59 -> 0 <= s <= 59 -> date_text y mo d t1 -> clock_text h mi s t2 ->
    encodes rt c (SStr (t1 ++ txt " " ++ t2)) (FBytes (store_datetime y mo d h mi s))
| enc_float bits : cd_mtype c = 9 -> mysql_type c = 4 -> cd_len c = 4 -> 0 <= bits < 2 ^ 32 ->
    encodes rt c (SStr (rt_fmt32 rt bits)) (FBytes (store_float bits))
| enc_double bits : cd_mtype c = 10 -> mysql_type c = 5 -> cd_len c = 8 -> 0 <= bits < 2 ^ 64 ->
    encodes rt c (SStr (rt_fmt64 rt bits)) (FBytes (store_double bits))
| enc_bit n : cd_mtype c = 3 -> mysql_type c = 16 -> cd_len c = 1 -> n = 0 \/ n = 1 ->
    encodes rt c (SBits n) (FBytes [n])
| enc_varchar s : cd_mtype c = 12 -> mysql_type c = 15 -> zlen s < 2 ^ 14 -> (cd_len c <= 255 -> zlen s < 256) ->
    encodes rt c (SStr s) (FBytes s)
| enc_text s : cd_mtype c = 5 -> In (mysql_type c) [249; 250; 251; 252] -> is_binary c = false -> zlen s < 2 ^ 14 ->
    encodes rt c (SStr s) (FBytes s)
| enc_char s n : cd_mtype c = 13 -> mysql_type c = 254 -> Forall (fun b => 0 <= b < 256) s -> tight s -> zlen s + Z.of_nat n < 2 ^ 14 -> (cd_len c <= 255 -> zlen s + Z.of_nat n < 256) ->
    encodes rt c (SStr s) (FBytes (s ++ repeat 32 n))
| enc_blob s : cd_mtype c = 5 -> In (mysql_type c) [245; 249; 250; 251; 252] -> is_binary c = true -> zlen s < 2 ^ 14 ->
    Forall (fun b => 0 <= b < 256) s -> encodes rt c (SBytes s) (FBytes s)
| enc_fixbinary s : cd_mtype c = 3 -> mysql_type c = 254 -> 0 < cd_len c -> zlen s = cd_len c ->
    Forall (fun b => 0 <= b < 256) s -> encodes rt c (SBytes s) (FBytes s)
| enc_varbinary s : cd_mtype c = 4 -> mysql_type c = 15 -> cd_len c <= 255 -> zlen s < 256 ->
    Forall (fun b => 0 <= b < 256) s -> encodes rt c (SBytes s) (FBytes s).

(** The columns of such tables (a column all of whose values are NULL counts
    too). *)
Definition readable_column (c : column_def) : Prop :=
  (cd_mtype c = 6 /\ In (mysql_type c) [1; 2; 3; 7; 8; 9; 10; 11; 12; 13; 254] /\ In (cd_len c) [1; 2; 3; 4; 8])
  \/ (cd_mtype c = 3 /\ In (mysql_type c) [11; 12; 16; 254] /\ 0 < cd_len c)
  \/ (cd_mtype c = 9 /\ mysql_type c = 4 /\ cd_len c = 4) \/ (cd_mtype c = 10 /\ mysql_type c = 5 /\ cd_len c = 8)
  \/ (cd_mtype c = 12 /\ mysql_type c = 15) \/ (cd_mtype c = 5 /\ In (mysql_type c) [245; 249; 250; 251; 252])
  \/ (cd_mtype c = 13 /\ mysql_type c = 254) \/ (cd_mtype c = 4 /\ mysql_type c = 15 /\ cd_len c <= 255).
(** Users' columns do not have the names of InnoDB's own. *)
Definition ordinary (c : column_def) : Prop := ~ In (cd_name c) [txt "DB_ROW_ID"; txt "DB_TRX_ID"; txt "DB_ROLL_PTR"].

(** The columns of a clustered index record. *)
Inductive slot : Type := Own (width : Z) | User (c : column_def).
Definition key_slots (key rest : list column_def) : list slot := map User key ++ [Own 6; Own 7] ++ map User rest.
Definition no_key_slots (cols : list column_def) : list slot := [Own 6; Own 6; Own 7] ++ map User cols.
Definition slot_layout (s : slot) : layout :=
  match s with Own n => mkLayout false (Some n) false | User c => column_layout c end.
Inductive row_encodes (rt : runtime) : list slot -> list sqlval -> list stored -> Prop :=
| re_nil : row_encodes rt [] [] []
| re_own n ss vs b fs : zlen b = n -> row_encodes rt ss vs fs -> row_encodes rt (Own n :: ss) vs (FBytes b :: fs)
| re_user c ss v vs f fs : encodes rt c v f -> printable v -> row_encodes rt ss vs fs -> row_encodes rt (User c :: ss) (v :: vs) (f :: fs).
(** A page of the clustered index and the rows in it: the live ones, or those
    in the list of deleted records.  Records end before the page trailer. *)
Definition page_holds (rt : runtime) (deleted : bool) (ss : list slot) (page : list Z) (rows : list (list sqlval)) : Prop :=
  exists compact offs, in_format compact page
    /\ (if deleted then free_chain compact page offs /\ hd_error offs = Some (field page 44 2)
        else chain compact page (infimum compact) offs (supremum compact))
    /\ Forall2 (fun off vs => user_origin off /\ exists fs, stored_at compact page off (map slot_layout ss) fs
         /\ off + zlen (body fs) <= 16384 - 8 /\ row_encodes rt ss vs fs) offs rows.
(** The data file of a table: the rows of its pages, in file order. *)
Definition file_holds (rt : runtime) (deleted : bool) (ss : list slot) (pages : list (list Z)) (rows : list (list sqlval)) : Prop :=
  Forall page_image pages /\ exists contents, Forall2 (page_holds rt deleted ss) (filter (eligible deleted) (firsts pages)) contents /\ List.concat contents = rows.

(** * The whole task *)
(** The columns of a clustered index record, from the dictionary. *)
Definition clustered_slots (d : dictionary) (id : Z) (ss : list slot) : Prop :=
  (has_no_key d id /\ ss = no_key_slots (columns_of d id)) \/ (exists key rest, has_key d id key rest /\ ss = key_slots key rest).
Definition users (ss : list slot) : list column_def := flat_map (fun s => match s with Own _ => [] | User c => [c] end) ss.
(** A row gives every column, by name, its value; a statement without a list of
    columns gives the values in the order of the table's columns. *)
Definition row : Type := list Z -> sqlval.
Definition values (cs : list column_def) (r : row) : list sqlval := map (fun c => r (cd_name c)) cs.
(** No primary key, or one in front of the table, of columns that have the same
    types from first to last as from last to first (such as columns that all
    have one type, or a single column). *)
Definition alike (c c' : column_def) : Prop := cd_mtype c = cd_mtype c' /\ cd_prtype c = cd_prtype c' /\ cd_len c = cd_len c'.
Definition front_key (d : dictionary) (id : Z) : Prop :=
  has_no_key d id \/ exists key rest, has_key d id key rest /\ columns_of d id = key ++ rest /\ key <> [] /\ Forall2 alike key (rev key).
(** Both files, the table, and its rows (live or deleted). *)
Definition tool_input (rt : runtime) (deleted : bool) (d : dictionary) (sys_pages : list (list Z)) (t : table_def) (db tb : list Z)
    (ss : list slot) (pages : list (list Z)) (rows : list row) : Prop :=
  stores_dictionary sys_pages d /\ consistent d /\ NoDup (map td_name (dd_tables d))
  /\ In t (dd_tables d) /\ named_as (td_name t) db tb /\ db <> [] /\ ~ In 96 db /\ ~ In 96 tb
  /\ columns_of d (td_id t) <> [] /\ Forall (fun c => ordinary c /\ readable_column c) (columns_of d (td_id t))
  /\ clustered_slots d (td_id t) ss
  /\ file_holds rt deleted ss pages (map (values (users ss)) rows).
