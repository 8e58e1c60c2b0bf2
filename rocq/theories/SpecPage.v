(** How InnoDB arranges records in an index page: an independent
    specification, from the MySQL 5.6/5.7 sources (page0page.h, fil0fil.h,
    rem0rec.ic), using none of the model's functions; and what reading a page should give,
    in terms of the model's data types. *)
From Coq Require Import ZArith List Bool Relations.
From Verif Require Import GoBase Ibdata SpecInno SpecText SpecSql SpecRecord SpecRow.
Local Open Scope list_scope.

(** The big-endian number in the k bytes at p. *)
Definition field (page : list Z) (p : Z) (k : nat) : Z := be_val (firstn k (skipn (Z.to_nat p) page)).

(** Every record has, in the two bytes below its origin, a link to the next
    one: in COMPACT pages the distance modulo 2^16, in REDUNDANT pages the
    next origin itself. *)
Definition linked (compact : bool) (page : list Z) (a b : Z) : Prop :=
  field page (a - 2) 2 = if compact then (b - a) mod 65536 else b.
(** Origins of the two system records. *)
Definition infimum (compact : bool) : Z := if compact then 99 else 101.
Definition supremum (compact : bool) : Z := if compact then 112 else 116.

(** The list of record origins met following links from [a] to [z]. *)
Inductive chain (compact : bool) (page : list Z) : Z -> list Z -> Z -> Prop :=
| chain_end a z : linked compact page a z -> chain compact page a [] z
| chain_step a o offs z : linked compact page a o -> chain compact page o offs z ->
    chain compact page a (o :: offs) z.
(** The free list starting at record [o]: its last record has a zero link. *)
Inductive free_chain (compact : bool) (page : list Z) : list Z -> Prop :=
| free_last o : field page (o - 2) 2 = 0 -> free_chain compact page [o]
| free_step o o' offs : field page (o - 2) 2 <> 0 -> linked compact page o o' -> free_chain compact page (o' :: offs) ->
    free_chain compact page (o :: o' :: offs).

(** Origins of user records lie above the system records and below the page
    directory (two slots at least) and the trailer. *)
Definition user_origin (off : Z) : Prop := 120 <= off <= 16384 - 8 - 4.
(** The page is of the given record format. *)
Definition in_format (compact : bool) (page : list Z) : Prop :=
  if compact then compact_page page else redundant_page page.

(** A record of either format at [off] holding the columns [fs] (REDUNDANT:
    NULL columns are not covered, see C37). *)
Definition stored_at (compact : bool) (page : list Z) (off : Z) (ls : list layout) (fs : list stored) : Prop :=
  if compact then compact_at page off ls fs
  else exists wide vs, fs = map FBytes vs /\ redundant_at page off wide (map RBytes vs)
                       /\ Forall2 rfits ls (map RBytes vs).

(** The dictionary knows the table the columns belong to. *)
Definition known (tm : gomap Table) (cols : list Column) (ls : list layout) : Prop :=
  exists c0 table, hd_error cols = Some c0 /\ mget tm (c_table c0) = Some table
    /\ Forall2 describes (t_columns table) ls /\ t_nullcount table = nullable_count ls.

(** The rows of the records at the given origins, each decoded on its own, and
    the lines printed meanwhile. *)
Inductive page_rows (rt : runtime) (compact : bool) (page : list Z) (cols : list Column) (ls : list layout) :
  list Z -> list (list Column) -> list bytes -> Prop :=
| rows_nil : page_rows rt compact page cols ls [] [] []
| rows_cons off offs fs row rows lines :
    user_origin off -> stored_at compact page off ls fs ->
    row_of rt (skipn (Z.to_nat (off + zlen (body fs))) page) cols ls fs row ->
    page_rows rt compact page cols ls offs rows lines ->
    page_rows rt compact page cols ls (off :: offs) (row :: rows) (remarks cols fs ++ lines).

(** [c] is what is shown for the column decoded as [c0]: the same, but a NULL
    column may in addition be marked as binary (which shows as unhex(NULL)). *)
Definition as_decoded (c0 c : Column) : Prop :=
  c = c0 \/ (c_value c0 = VStr (txt "NULL")
            /\ c = mkColumn (c_name c0) (c_type c0) (c_mysql c0) (c_pos c0) (c_len c0) (c_value c0)
                            (c_null c0) true (c_unsigned c0) (c_table c0)).

(** One record's link leads to another place in the page (zero ends a list). *)
Definition next_rec (compact : bool) (page : list Z) (o o' : Z) : Prop :=
  field page (o - 2) 2 <> 0 /\ linked compact page o o' /\ 0 <= o' < 16384.
(** The links of the page form no cycle. *)
Definition acyclic (compact : bool) (page : list Z) : Prop :=
  forall o, ~ clos_trans Z (next_rec compact page) o o.
(** Places met following links from [a]. *)
Definition reachable (compact : bool) (page : list Z) : Z -> Z -> Prop :=
  clos_refl_trans Z (next_rec compact page).

(** Which pages hold rows: index pages (FIL_PAGE_TYPE 17855) at level 0 without
    a max transaction id (secondary indexes have one); when deleted rows are
    wanted, the page must have some (PAGE_FREE, inside the page, and a non-zero
    PAGE_GARBAGE). *)
Definition eligible (deleted : bool) (page : list Z) : bool :=
  (field page 24 2 =? 17855) && (field page 64 2 =? 0) && (field page 56 8 =? 0)
  && (negb deleted || ((0 <? field page 44 2) && (field page 44 2 <? 16384) && negb (field page 46 2 =? 0))).

(** The pages of a file, keeping the first of those with the same number. *)
Definition page_number (page : list Z) : Z := field page 4 4.
Fixpoint firsts_rev (before : list (list Z)) : list (list Z) :=
  match before with
  | [] => []
  | p :: b => firsts_rev b ++ (if existsb (fun q => page_number q =? page_number p) b then [] else [p])
  end.
Definition firsts (pages : list (list Z)) : list (list Z) := firsts_rev (rev pages).

(** The rows a page holds: those of the records linked from infimum to
    supremum, or (deleted rows) those of the free list; and the lines printed
    when they are decoded. *)
Definition page_content (rt : runtime) (tm : gomap Table) (deleted : bool) (cols : list Column) (ls : list layout)
    (page : list Z) (content : list bytes * list (list Column)) : Prop :=
  exists compact offs, in_format compact page /\ (compact = true -> known tm cols ls)
    /\ (if deleted then free_chain compact page offs /\ hd_error offs = Some (field page 44 2)
        else chain compact page (infimum compact) offs (supremum compact))
    /\ page_rows rt compact page cols ls offs (snd content) (fst content).
(** What is printed for the pages of a file: for each, the lines printed when
    its rows are decoded, then a statement per row, in order, that reads back
    as the row's values. *)
Inductive file_lines (db tb : list Z) : list (list bytes * list (list Column)) -> list (list (list sqlval)) -> list bytes -> Prop :=
| lines_nil : file_lines db tb [] [] []
| lines_cons content contents vals valss statements lines :
    Forall2 (fun vs line => read_replace line = Some (db, tb, vs)) vals statements ->
    file_lines db tb contents valss lines ->
    file_lines db tb (content :: contents) (vals :: valss) (fst content ++ statements ++ lines).
(** The table as the dictionary has it (map keys are the table ids). *)
Definition is_table (tm : gomap Table) (db tb : list Z) (cols : list Column) : Prop :=
  (exists id t, In (id, t) tm /\ t_db t = db /\ t_name t = tb)
  /\ forall id t, In (id, t) tm -> t_db t = db -> t_name t = tb -> t_columns t = cols.

(** The first four bytes of a page hold a checksum (which one, depends on the
    settings); the same page with other bytes there. *)
Definition sound_page (checksum : list Z -> Z) (page : list Z) : Prop := be_val (firstn 4 page) = checksum (skipn 4 page).
Definition with_sum (sum : Z) (page : list Z) : list Z := be 4 sum ++ skipn 4 page.
