(** A server that runs the recovered REPLACE statements; deleted rows.  Uses
    none of the model's functions. *)
From Verif Require Import GoBase SpecInno SpecText SpecSql SpecRecord SpecRow SpecPage SpecDict SpecTool SpecHistory.
Local Open Scope list_scope.

(** The rows of a table, as values in the order of its columns, and the places
    of its primary key among them (none: no key). *)
Definition rows_of_table : Type := list (list sqlval).
Definition key_places (d : dictionary) (id : Z) (ps : list nat) : Prop :=
  (has_no_key d id /\ ps = [])
  \/ exists key rest, has_key d id key rest /\ Forall2 (fun k p => nth_error (columns_of d id) p = Some k) key ps.
Definition clash (ps : list nat) (a b : list sqlval) : bool :=
  match ps with [] => false | _ => forallb (fun p => value_eqb (nth p a SNull) (nth p b SNull)) ps end.
(** REPLACE removes the rows with the same key and adds the new one. *)
Definition put (ps : list nat) (vs : list sqlval) (rows : rows_of_table) : rows_of_table := filter (fun r => negb (clash ps r vs)) rows ++ [vs].
Definition replace_row (ps : list nat) (db tb line : list Z) (rows : rows_of_table) : option rows_of_table :=
  match read_replace line with
  | Some (db', tb', vs) => if text_eqb db db' && text_eqb tb tb' then Some (put ps vs rows) else None
  | None => None
  end.
Fixpoint load (ps : list nat) (db tb : list Z) (lines : list (list Z)) (rows : rows_of_table) : option rows_of_table :=
  match lines with
  | [] => Some rows
  | l :: ls => match replace_row ps db tb l rows with Some rows' => load ps db tb ls rows' | None => None end
  end.
(** No two rows have the same key. *)
Definition no_clash (ps : list nat) (rows : rows_of_table) : Prop :=
  forall a x b y c, rows = a ++ x :: b ++ y :: c -> clash ps x y = false.

(** * Deleted rows *)
(** A deleted row stays in the page, marked (info bits 32, five bytes below the
    origin of a COMPACT record, six below that of a REDUNDANT one), until it is
    purged; then its record is put at the front of the page's free list. *)
Definition marked (compact : bool) (page : list Z) (off : Z) : bool := Z.testbit (field page (off - (if compact then 5 else 6)) 1) 5.
Definition page_marks (rt : runtime) (ss : list slot) (page : list Z) (items : list (row * bool)) : Prop :=
  exists compact offs, in_format compact page /\ chain compact page (infimum compact) offs (supremum compact)
    /\ Forall2 (fun off it => user_origin off /\ snd it = marked compact page off /\ exists fs, stored_at compact page off (map slot_layout ss) fs
         /\ off + zlen (body fs) <= 16384 - 8 /\ row_encodes rt ss (values (users ss) (fst it)) fs) offs items.
(** The records of the table in its data file, with their marks; whether any
    page has a free list. *)
Definition file_marks (rt : runtime) (ss : list slot) (pages : list (list Z)) (items : list (row * bool)) : Prop :=
  Forall page_image pages /\ exists contents, Forall2 (page_marks rt ss) (filter (eligible false) (firsts pages)) contents /\ List.concat contents = items.
Definition unmarked (items : list (row * bool)) : list row := map fst (filter (fun it => negb (snd it)) items).
Definition only_marked (pages : list (list Z)) : Prop := Forall (fun p => field p 44 2 = 0) pages.
(** As [tool_input] (whose conditions on everything but the data file are
    those for an empty file), with the marks instead of the rows. *)
Definition marks_input (rt : runtime) (d : dictionary) (sys_pages : list (list Z)) (t : table_def) (db tb : list Z)
    (ss : list slot) (pages : list (list Z)) (items : list (row * bool)) : Prop :=
  tool_input rt false d sys_pages t db tb ss [] [] /\ file_marks rt ss pages items.

(** * Dropped tables *)
(** The row of SYS_TABLES of a dropped table is marked like any deleted row. *)
Definition dropped (pages : list (list Z)) (t : table_def) : Prop :=
  exists page offs off wide fs, In page pages /\ index_of page = 1 /\ chain false page (infimum false) offs (supremum false) /\ In off offs
    /\ redundant_at page off wide fs /\ matches (tables_record t) fs /\ marked false page off = true.
