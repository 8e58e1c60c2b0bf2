(** Whose rows the pages of a data file hold.  Uses none of the model's
    functions. *)
From Verif Require Import GoBase SpecInno SpecText SpecSql SpecRecord SpecRow SpecPage SpecDict SpecTool.
Local Open Scope list_scope.

(** The id of a table's clustered index; its pages carry it (PAGE_INDEX_ID). *)
Definition clustered_id (d : dictionary) (id k : Z) : Prop := exists i, In i (indexes_of d id) /\ (primary i \/ generated i) /\ id_id i = k.
(** The rows found in a data file, and whether the page each is in is one of
    the index with this id.  A file can have pages of other tables: the system
    tablespace with all tables created without a file of their own. *)
Definition file_owners (rt : runtime) (deleted : bool) (ss : list slot) (k : Z) (pages : list (list Z)) (items : list (row * bool)) : Prop :=
  Forall page_image pages /\ exists contents,
    Forall2 (fun page its => page_holds rt deleted ss page (map (values (users ss)) (map fst its)) /\ Forall (fun it => snd it = (index_of page =? k)) its)
      (filter (eligible deleted) (firsts pages)) contents
    /\ List.concat contents = items.
Definition own_rows (items : list (row * bool)) : list row := map fst (filter (fun it => snd it) items).
(** As [tool_input] (whose conditions on everything but the data file are
    those for an empty file), with the owners. *)
Definition owners_input (rt : runtime) (deleted : bool) (d : dictionary) (sys_pages : list (list Z)) (t : table_def) (db tb : list Z)
    (ss : list slot) (k : Z) (pages : list (list Z)) (items : list (row * bool)) : Prop :=
  tool_input rt deleted d sys_pages t db tb ss [] [] /\ clustered_id d (td_id t) k /\ file_owners rt deleted ss k pages items.
