(** Rows with the transactions that wrote them.  None of the model's functions
    is used. *)
From Coq Require Import ZArith List.
From Verif Require Import GoBase Ibdata SpecInno SpecText SpecSql SpecRecord SpecRow SpecPage SpecDict SpecTool.
Import ListNotations.
Open Scope list_scope.
Open Scope Z_scope.

(** A record of the clustered index has the number of the transaction that
    wrote it (DB_TRX_ID, six bytes) in front of its roll pointer (DB_ROLL_PTR,
    seven bytes). *)
Definition written_by (ss : list slot) (fs : list stored) (trx : Z) : Prop :=
  exists before after roll fs1 fs2, ss = before ++ [Own 6; Own 7] ++ after /\ List.length fs1 = List.length before
    /\ fs = fs1 ++ [FBytes (be 6 trx); FBytes roll] ++ fs2 /\ 0 <= trx < 2 ^ 48.
(** The live rows of a page, a file, and the whole task, as in [SpecTool], each
    row with its transaction. *)
Definition page_holds_by (rt : runtime) (ss : list slot) (page : list Z) (rows : list (list sqlval * Z)) : Prop :=
  exists compact offs, in_format compact page /\ chain compact page (infimum compact) offs (supremum compact)
    /\ Forall2 (fun off r => user_origin off /\ exists fs, stored_at compact page off (map slot_layout ss) fs
         /\ off + zlen (body fs) <= 16384 - 8 /\ row_encodes rt ss (fst r) fs /\ written_by ss fs (snd r)) offs rows.
Definition file_holds_by (rt : runtime) (ss : list slot) (pages : list (list Z)) (rows : list (list sqlval * Z)) : Prop :=
  Forall page_image pages /\ exists contents, Forall2 (page_holds_by rt ss) (filter (eligible false) (firsts pages)) contents /\ List.concat contents = rows.
Definition tool_input_by (rt : runtime) (d : dictionary) (sys_pages : list (list Z)) (t : table_def) (db tb : list Z)
    (ss : list slot) (pages : list (list Z)) (rows : list (row * Z)) : Prop :=
  stores_dictionary sys_pages d /\ consistent d /\ NoDup (map td_name (dd_tables d))
  /\ In t (dd_tables d) /\ named_as (td_name t) db tb /\ db <> [] /\ ~ In 96 db /\ ~ In 96 tb
  /\ columns_of d (td_id t) <> [] /\ Forall (fun c => ordinary c /\ readable_column c) (columns_of d (td_id t))
  /\ clustered_slots d (td_id t) ss
  /\ file_holds_by rt ss pages (map (fun r => (values (users ss) (fst r), snd r)) rows).
(** The rows of the transactions that committed. *)
Definition lasting (committed : Z -> bool) (rows : list (row * Z)) : list row := map fst (filter (fun r => committed (snd r)) rows).
