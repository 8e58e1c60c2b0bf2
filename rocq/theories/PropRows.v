(** Property C104: dictionary rows with NULL, or a value of another kind, where
    a number or a name should be.  Theorems only; proofs in PRows.v. *)
From Verif Require Import GoBase Utils Ibdata SpecSql SpecDict PDict PRows PropDict.
Local Open Scope list_scope.

(** C104: false, exactly as follows.  One such row in any of the four tables and
    loading the dictionary crashes; without one it does not. *)
Theorem C104_tables_refuted : forall tm rows,
  (Forall tables_good rows -> exists tm', addTables tm rows = Ok tm')
  /\ (forall row, In row rows -> ~ tables_good row -> addTables tm rows = Panic).
Proof. intros tm rows. exact (tables_rows rows tm). Qed.
Print Assumptions C104_tables_refuted.
Theorem C104_columns_refuted : forall tm rows,
  (Forall (columns_good (in_dict tm)) rows -> exists tm', addAllColumns tm rows = Ok tm')
  /\ (forall row, In row rows -> ~ columns_good (in_dict tm) row -> addAllColumns tm rows = Panic).
Proof. intros tm rows. exact (columns_rows rows tm). Qed.
Print Assumptions C104_columns_refuted.
Theorem C104_indexes_refuted : forall tm rows,
  (Forall (indexes_good (in_dict tm)) rows -> exists r, addIndexes tm None rows = Ok r)
  /\ (forall row, In row rows -> ~ indexes_good (in_dict tm) row -> addIndexes tm None rows = Panic).
Proof. intros tm rows. exact (indexes_rows rows tm None). Qed.
Print Assumptions C104_indexes_refuted.
Theorem C104_fields_refuted : forall rows,
  (Forall fields_good rows -> exists m, addFields [] rows = Ok m)
  /\ (forall row, In row rows -> ~ fields_good row -> addFields [] rows = Panic).
Proof. intro rows. exact (fields_rows rows []). Qed.
Print Assumptions C104_fields_refuted.
(** In particular NULL, which is read as the text "NULL": the number of a table
    or its tablespace being NULL in a single row loses the whole dictionary. *)
Theorem C104_null_refuted : forall tm rows row i, In row rows -> In i [3%nat; 9%nat] ->
  holds_value row i (VStr (txt "NULL")) -> addTables tm rows = Panic.
Proof.
  intros tm rows row i Hr Hi Hn. apply (proj2 (C104_tables_refuted tm rows) row Hr).
  intros [_ [[a A] [b B]]]. unfold holds_value in *. destruct Hi as [<-|[<-|[]]]; congruence.
Qed.
Print Assumptions C104_null_refuted.
(** ... while a NULL name is taken for a table called NULL. *)
Theorem C104_name_refuted : forall tm row id space, tables_row row (txt "NULL") id space ->
  exists tm', addTable tm row = Ok tm' /\ mget tm' id = Some (mkTable [] (txt "NULL") [] [] 0 space).
Proof.
  intros tm row id space H. destruct (C52_plain tm row (txt "NULL") id space H) as [tm' [E [G _]]].
  - cbn. lia.
  - exists tm'. split; [exact E|exact G].
Qed.
Print Assumptions C104_name_refuted.
(** Full statement: a row that makes no sense is skipped or reported, the
    others are loaded.  Proved: rows that do make sense are loaded, and of
    SYS_COLUMNS and SYS_INDEXES rows of tables not in the dictionary nothing but
    the table's number has to make sense. *)
Theorem C104_unknown_partial : forall tm row id, holds_value row 0 (VUint id) -> mget tm id = None ->
  addAllColumns tm [row] = Ok tm /\ exists e, addIndexes tm None [row] = Ok (tm, Some e).
Proof.
  intros tm row id H E. pose proof (as_uint_value _ _ _ H) as E0. change (Z.of_nat 0) with 0 in E0. cbn [addAllColumns addIndexes].
  unfold addColumn, addIndex. rewrite E0. cbn [bind]. rewrite E. split; [reflexivity|eexists; reflexivity].
Qed.
Print Assumptions C104_unknown_partial.
Example C104_case : let ok := vrow [VStr (txt "d/t"); VNil; VNil; VUint 21; VInt 3; VUint 1; VStr []; VUint 0; VStr []; VUint 5] in
  let bad := vrow [VStr (txt "d/u"); VNil; VNil; VUint 22; VInt 3; VUint 1; VStr []; VUint 0; VStr []; VStr (txt "NULL")] in
  tables_good ok /\ ~ tables_good bad /\ addTables [] [ok] <> Panic /\ addTables [] [ok; bad] = Panic.
Proof.
  cbv zeta. split; [repeat split; eexists; reflexivity|]. split; [intros [_ [_ [n X]]]; discriminate|]. split; [discriminate|reflexivity].
Qed.
