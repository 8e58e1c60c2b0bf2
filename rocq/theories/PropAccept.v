(** C127: statements and the table as MySQL knows it. *)
From Coq Require Import String ZifyBool.
From Verif Require Import GoBase Utils Ibdata Cmd SpecInno SpecText SpecSql SpecRecord SpecRow SpecPage SpecDict SpecTool SpecAccept
  PBase PWire PValue PText PRec PPage PSql PFile PDict PBuild PTool PropDict PropTool PMake.
Local Open Scope string_scope.
Local Open Scope list_scope.
Local Open Scope Z_scope.

(** The statement of a row is taken exactly if InnoDB added no column and none
    is generated. *)
Theorem C127_taken_refuted : forall fuel rt files op sys tfile d sys_pages t db tb ss pages rows sql added,
  tool_input rt (is_deleted op) d sys_pages t db tb ss pages rows -> front_key d (td_id t) -> defines sql added (columns_of d (td_id t)) ->
  files sys = Some (map IoBytes sys_pages) -> files tfile = Some (map IoBytes pages) -> (Z.to_nat 16384 < fuel)%nat ->
  exists lines, FromDataFile fuel rt files op sys tfile db tb = (lines, Ok tt)
    /\ Forall2 (fun r line => exists vs, read_replace line = Some (db, tb, vs)
         /\ (taken sql vs <-> added = [] /\ forall c, In c sql -> snd c = false)) rows lines.
Proof.
  intros fuel rt files op sys tfile d sys_pages t db tb ss pages rows sql added HI Hk [known [Ec [En Ha]]] F1 F2 Hfuel.
  destruct (C82_statements_partial fuel rt files op sys tfile d sys_pages t db tb ss pages rows HI Hk F1 F2 Hfuel) as [lines [E H]]. exists lines. split; [exact E|].
  eapply forall2_impl; [|exact H]. cbn. intros r line Hr. exists (values (columns_of d (td_id t)) r). split; [exact Hr|]. unfold taken, values. rewrite map_length, Ec, app_length.
  assert (L : List.length known = List.length sql) by (pose proof (map_length cd_name known) as X; rewrite En, map_length in X; now symmetry). rewrite L.
  split; intros [A B]; (split; [|exact B]); [destruct added; [reflexivity|cbn in A; lia]|subst added; cbn; lia].
Qed.
Print Assumptions C127_taken_refuted.
(** For all other tables: taken, and with the values of the row. *)
Theorem C127_plain_partial : forall fuel rt files op sys tfile d sys_pages t db tb ss pages rows sql,
  tool_input rt (is_deleted op) d sys_pages t db tb ss pages rows -> front_key d (td_id t) -> defines sql [] (columns_of d (td_id t)) -> (forall c, In c sql -> snd c = false) ->
  files sys = Some (map IoBytes sys_pages) -> files tfile = Some (map IoBytes pages) -> (Z.to_nat 16384 < fuel)%nat ->
  exists lines, FromDataFile fuel rt files op sys tfile db tb = (lines, Ok tt)
    /\ Forall2 (fun r line => read_replace line = Some (db, tb, map (fun c => r (fst c)) sql) /\ taken sql (map (fun c => r (fst c)) sql)) rows lines.
Proof.
  intros fuel rt files op sys tfile d sys_pages t db tb ss pages rows sql HI Hk [known [Ec [En _]]] Hg F1 F2 Hfuel.
  destruct (C82_statements_partial fuel rt files op sys tfile d sys_pages t db tb ss pages rows HI Hk F1 F2 Hfuel) as [lines [E H]]. exists lines. split; [exact E|].
  eapply forall2_impl; [|exact H]. cbn. intros r line Hr. rewrite app_nil_r in Ec.
  assert (X : values (columns_of d (td_id t)) r = map (fun c => r (fst c)) sql) by (unfold values; rewrite Ec; transitivity (map r (map cd_name known)); [now rewrite map_map|rewrite En; apply map_map]).
  rewrite X in Hr. split; [exact Hr|]. split; [apply map_length|exact Hg].
Qed.
Print Assumptions C127_plain_partial.

(** f(id INT NOT NULL PRIMARY KEY), with a FULLTEXT index made and dropped again,
    which leaves FTS_DOC_ID; s(id INT NOT NULL PRIMARY KEY, w INT AS (id + 1)
    STORED NOT NULL); the row (1, 2) of each. *)
Definition f_id : column_def := mkColumnDef 71 0 (txt "id") 6 (256 + 3) 4.
Definition f_doc : column_def := mkColumnDef 71 1 (txt "FTS_DOC_ID") 6 (256 + 512 + 1024 + 3) 8.
Definition s_w : column_def := mkColumnDef 71 1 (txt "w") 6 (256 + 3) 4.
Definition dict_f (tb : list Z) (c : column_def) : dictionary := single (txt "test") tb 71 6 72 f_id [c].
Definition row_f : row := fun n => if list_eq_dec Z.eq_dec n (txt "id") then SStr (txt "1") else SStr (txt "2").
Definition page_f (c : column_def) (b : list Z) : list Z := built true 3 17855 72 (map (crec (map slot_layout (key_slots [f_id] [c]))) [[FBytes (store_int 4 1); FBytes (be 6 300); FBytes (be 7 5); FBytes b]]).
Example C127_case : forall rt,
  (tool_input rt (is_deleted (txt "PrintData")) (dict_f (txt "f") f_doc) (dict_pages (dict_f (txt "f") f_doc)) (mkTableDef (txt "test/f") 71 6) (txt "test") (txt "f") (key_slots [f_id] [f_doc]) [page_f f_doc (store_uint 8 2)] [row_f]
    /\ front_key (dict_f (txt "f") f_doc) 71) /\ defines [(txt "id", false)] [f_doc] (columns_of (dict_f (txt "f") f_doc) 71)
  /\ (tool_input rt (is_deleted (txt "PrintData")) (dict_f (txt "s") s_w) (dict_pages (dict_f (txt "s") s_w)) (mkTableDef (txt "test/s") 71 6) (txt "test") (txt "s") (key_slots [f_id] [s_w]) [page_f s_w (store_int 4 2)] [row_f]
    /\ front_key (dict_f (txt "s") s_w) 71) /\ defines [(txt "id", false); (txt "w", true)] [] (columns_of (dict_f (txt "s") s_w) 71).
Proof.
  intro rt. change (is_deleted (txt "PrintData")) with false. split; [|split; [|split]].
  - apply (single_input rt (txt "test") (txt "f") 71 6 72 f_id [f_doc]).
    + split; [cbn; lia|]. split; [cbn; lia|]. split; [repeat constructor|distinct].
    + vm_compute. reflexivity.
    + discriminate.
    + cbn; lia.
    + cbn; lia.
    + ordinary_columns.
    + lia.
    + apply fine_check; vm_compute; reflexivity.
    + vm_compute; discriminate.
    + constructor; [|constructor]. split; [repeat (constructor; [vm_compute; reflexivity|]); constructor|].
      change (row_encodes rt [User f_id; Own 6; Own 7; User f_doc] [SStr (txt "1"); SStr (txt "2")] [FBytes (store_int 4 1); FBytes (be 6 300); FBytes (be 7 5); FBytes (store_uint 8 2)]).
      constructor; [apply enc_int; try reflexivity; try (cbn; lia); number|plain_text|]. constructor; [reflexivity|]. constructor; [reflexivity|]. constructor; [apply enc_uint; try reflexivity; try (cbn; lia); number|plain_text|constructor].
  - exists [f_id]. split; [reflexivity|]. split; [reflexivity|]. right. exists f_doc. auto.
  - apply (single_input rt (txt "test") (txt "s") 71 6 72 f_id [s_w]).
    + split; [cbn; lia|]. split; [cbn; lia|]. split; [repeat constructor|distinct].
    + vm_compute. reflexivity.
    + discriminate.
    + cbn; lia.
    + cbn; lia.
    + ordinary_columns.
    + lia.
    + apply fine_check; vm_compute; reflexivity.
    + vm_compute; discriminate.
    + constructor; [|constructor]. split; [repeat (constructor; [vm_compute; reflexivity|]); constructor|].
      change (row_encodes rt [User f_id; Own 6; Own 7; User s_w] [SStr (txt "1"); SStr (txt "2")] [FBytes (store_int 4 1); FBytes (be 6 300); FBytes (be 7 5); FBytes (store_int 4 2)]).
      constructor; [apply enc_int; try reflexivity; try (cbn; lia); number|plain_text|]. constructor; [reflexivity|]. constructor; [reflexivity|]. constructor; [apply enc_int; try reflexivity; try (cbn; lia); number|plain_text|constructor].
  - exists [f_id; s_w]. split; [reflexivity|]. split; [reflexivity|now left].
Qed.
