(** Properties C23-C33: the printed SQL.  Theorems only; proofs in PSql.v.
    Statements are read back with the independent readers of SpecSql.v. *)
From Verif Require Import GoBase Utils Ibdata Redo SpecText SpecSql SpecRow PBase PValue PText PSql.
Local Open Scope list_scope.

(** C23: false for one string only. *)
Theorem C23_escape_refuted : exists s, all_bytes s /\ s = txt "0001-01-01T00:00:00Z" /\
  forall following, hd 0 following <> 39 -> lex_str (EscapeValue s ++ txt "'" ++ following) <> Some (s, following).
Proof.
  exists magic. split; [vm_compute; repeat (constructor; [split; [discriminate|reflexivity]|]); constructor|].
  split; [reflexivity|]. intros k Hk. rewrite escape_magic. cbn [app]. change (txt "'" ++ k) with (39 :: k).
  rewrite lex_close by (destruct k; [exact I|exact Hk]). discriminate.
Qed.
Print Assumptions C23_escape_refuted.
(** Full statement: all byte strings.  Proved: all but that one. *)
Theorem C23_escape_partial : forall s following, all_bytes s -> s <> txt "0001-01-01T00:00:00Z" ->
  hd 0 following <> 39 -> lex_str (EscapeValue s ++ txt "'" ++ following) = Some (s, following).
Proof. intros s k Hb Hm Hk. apply escape_lex; [exact Hb|exact Hm|destruct k; [exact I|exact Hk]]. Qed.
Print Assumptions C23_escape_partial.
Theorem C23_exact_refuted : forall s following, all_bytes s -> hd 0 following <> 39 ->
  (lex_str (EscapeValue s ++ txt "'" ++ following) = Some (s, following) <-> s <> txt "0001-01-01T00:00:00Z").
Proof.
  intros s k Hb Hk. split; [|intro H; now apply C23_escape_partial]. intros E ->.
  destruct C23_escape_refuted as [s' [_ [-> H]]]. exact (H k Hk E).
Qed.
Print Assumptions C23_exact_refuted.
Example C23_case : lex_str (EscapeValue [39; 92; 0; 10; 13; 26; 34; 255; 206; 177; 37; 192; 39] ++ txt "'" ++ txt ",NULL);")
  = Some ([39; 92; 0; 10; 13; 26; 34; 255; 206; 177; 37; 192; 39], txt ",NULL);").
Proof. reflexivity. Qed.

(** C24: the lexer passes through the whole escaped value, whatever follows. *)
Theorem C24_no_breakout : forall s, all_bytes s -> exists v, forall following,
  lex_str (EscapeValue s ++ following)
  = match lex_str following with Some (w, rest) => Some (v ++ w, rest) | None => None end.
Proof.
  intros s Hb. rewrite escape_bytes by exact Hb. destruct (beq _ _).
  - exists []. intro k. cbn [app]. destruct (lex_str k) as [[w r]|]; reflexivity.
  - exists s. intro k. apply lex_esc.
Qed.
Print Assumptions C24_no_breakout.
Example C24_case : lex_str (EscapeValue (txt "'); drop table t; -- ") ++ txt "',1")
  = Some (txt "'); drop table t; -- ", txt ",1").
Proof. reflexivity. Qed.

(** C25: one line per row, in order, each a function of its row and the names
    alone; a line contains no line feed unless a name does. *)
Theorem C25_one_line_per_row : forall rt table database, exists line : list Column -> bytes,
  (forall rows, makeReplaceIntoStatement rt rows table database = (map line rows, Ok tt))
  /\ (forall row, ~ In 10 table -> ~ In 10 database ->
       Forall (fun c => all_bytes (fmt_v rt (c_value c))) row -> ~ In 10 (line row)).
Proof.
  intros rt table database. exists (replace_statement rt table database). split; [reflexivity|].
  intros row Ht Hd H. unfold replace_statement.
  assert (Hc : forall b, ~ In 10 (columns_text rt b row)).
  { induction H as [|c cs Hc _ IH]; intro b; [exact (fun X => X)|]. cbn [columns_text].
    destruct (internal_name (c_name c)); [apply IH|]. rewrite !in_app_iff. intros [X|[X|X]].
    - destruct b; [contradiction|]. cbn in X. intuition discriminate.
    - unfold column_text in X. rewrite !in_app_iff in X. destruct X as [X|[X|[X|X]]].
      + destruct (_ =? _); cbn in X; intuition discriminate.
      + destruct (c_binary c); cbn in X; intuition discriminate.
      + destruct (negb _); [|cbn in X; intuition discriminate]. rewrite !in_app_iff in X.
        destruct X as [X|[X|X]]; [cbn in X; intuition discriminate| |cbn in X; intuition discriminate].
        now apply escape_no_lf in X.
      + destruct (c_binary c); cbn in X; intuition discriminate.
    - now apply IH in X. }
  rewrite !in_app_iff. intros [X|[X|[X|[X|[X|[X|X]]]]]]; try (cbn in X; intuition discriminate); try contradiction.
  now apply Hc in X.
Qed.
Print Assumptions C25_one_line_per_row.

(** A column for the examples: name, MySQL type, value, binary *)
Definition col (n : bytes) (mysql : Z) (v : gval) (bin : bool) : Column :=
  mkColumn n 0 mysql 0 0 v false bin false 0.
Example C25_case rt : makeReplaceIntoStatement rt [[col (txt "a") 15 (VStr [10]) false]; [col (txt "a") 3 (VInt (-7)) false]]
    (txt "t") (txt "d")
  = ([txt "replace into `d`.`t` values ('\n');"; txt "replace into `d`.`t` values ('-7');"], Ok tt).
Proof. reflexivity. Qed.

(** C26: false for the text NULL, for that one date text, and for BIT values. *)
Theorem C26_replace_refuted : forall rt, exists row1 row2 row3 v1 v2 v3,
  (stands_for rt row1 v1 /\ read_replace (hd [] (fst (makeReplaceIntoStatement rt [[row1]] (txt "t") (txt "d")))) <> Some (txt "d", txt "t", [v1]))
  /\ (stands_for rt row2 v2 /\ read_replace (hd [] (fst (makeReplaceIntoStatement rt [[row2]] (txt "t") (txt "d")))) <> Some (txt "d", txt "t", [v2]))
  /\ (stands_for rt row3 v3 /\ read_replace (hd [] (fst (makeReplaceIntoStatement rt [[row3]] (txt "t") (txt "d")))) <> Some (txt "d", txt "t", [v3])).
Proof.
  intro rt. exists (col (txt "a") 15 (VStr (txt "NULL")) false), (col (txt "a") 15 (VStr (txt "0001-01-01T00:00:00Z")) false),
    (col (txt "a") 16 (VUint 10) false), (SStr (txt "NULL")), (SStr (txt "0001-01-01T00:00:00Z")), (SBits 10).
  split; [|split]; (split; [|vm_compute; discriminate]).
  - apply st_text; [constructor|discriminate|reflexivity].
  - apply st_text; [constructor|discriminate|reflexivity].
  - now apply st_bits.
Qed.
Print Assumptions C26_replace_refuted.
(** Full statement: without the last hypothesis.  Missing (false): the text
    NULL, the text 0001-01-01T00:00:00Z, and BIT values above 1. *)
Theorem C26_replace_partial : forall rt db tb row users vals,
  ~ In 96 db -> ~ In 96 tb ->
  (forall c, In c users -> ~ internal c) ->
  (exists f, users = filter f row /\ forall c, In c row -> f c = false -> internal c) ->
  users <> [] ->
  Forall2 (stands_for rt) users vals ->
  (forall v, In v vals -> match v with
     | SStr t => all_bytes t /\ t <> txt "NULL" /\ t <> txt "0001-01-01T00:00:00Z"
     | SBits n => n = 0 \/ n = 1 | _ => True end) ->
  exists line, makeReplaceIntoStatement rt [row] tb db = ([line], Ok tt)
    /\ read_replace line = Some (db, tb, vals).
Proof.
  intros rt db tb row users vals Hd Ht Hu [f [Ef Hf]] Hne H Hr.
  exists (replace_statement rt tb db row). split; [reflexivity|].
  assert (E : filter user row = users).
  { rewrite Ef. apply filter_ext_in. intros c Hc. destruct (f c) eqn:Efc.
    - apply user_spec. apply Hu. rewrite Ef. apply filter_In. auto.
    - apply not_true_iff_false. rewrite user_spec. intro X. apply X. now apply Hf. }
  destruct H as [|c v cs vs Hc Hcs]; [contradiction|].
  apply (replace_reads rt db tb row c cs v vs Hd Ht E).
  assert (G : Forall2 (stands_for rt) (c :: cs) (v :: vs)) by (constructor; assumption).
  assert (Hr' : Forall readable (v :: vs)).
  { apply Forall_forall. intros x Hx. specialize (Hr x Hx). destruct x; try exact I; cbn; [|exact Hr]. destruct Hr as [A [B C]]. auto. }
  revert G Hr'. generalize (c :: cs) (v :: vs). clear. induction 1 as [|x y l m Hx _ IH]; intro Ha; [constructor|].
  inversion Ha; subst. constructor; [tauto|]. now apply IH.
Qed.
Print Assumptions C26_replace_partial.
(** Exactly these rows are read back: table names without backquotes, no text
    NULL kept as such, no such date text, and no BIT value above 1. *)
Theorem C26_exact_refuted : forall rt db tb row users vals,
  (forall c, In c users -> ~ internal c) ->
  (exists f, users = filter f row /\ forall c, In c row -> f c = false -> internal c) ->
  users <> [] ->
  Forall2 (stands_for rt) users vals -> (forall t, In (SStr t) vals -> all_bytes t) ->
  exists line, makeReplaceIntoStatement rt [row] tb db = ([line], Ok tt)
    /\ (read_replace line = Some (db, tb, vals) <->
        ~ In 96 db /\ ~ In 96 tb /\
        Forall2 (fun c v => match v with
          | SStr t => c_value c <> VStr (txt "NULL") /\ t <> txt "0001-01-01T00:00:00Z"
          | SBits n => n = 0 \/ n = 1 | _ => True end) users vals).
Proof.
  intros rt db tb row users vals Hu [f [Ef Hf]] Hne H Hb. exists (replace_statement rt tb db row). split; [reflexivity|].
  assert (E : filter user row = users).
  { rewrite Ef. apply filter_ext_in. intros c Hc. destruct (f c) eqn:Efc.
    - apply user_spec. apply Hu. rewrite Ef. apply filter_In. auto.
    - apply not_true_iff_false. rewrite user_spec. intro X. apply X. now apply Hf. }
  destruct H as [|c v cs vs Hc Hcs]; [contradiction|].
  pose proof (fun Hd Ht => replace_exact rt db tb row c cs v vs Hd Ht E (Forall2_cons _ _ Hc Hcs) Hb) as X. unfold carried in X. split.
  - intro R. destruct (replace_names rt db tb row _ R) as [Hd Ht]. split; [exact Hd|]. split; [exact Ht|]. now apply (X Hd Ht).
  - intros [Hd [Ht HC]]. now apply (X Hd Ht).
Qed.
Print Assumptions C26_exact_refuted.
Example C26_exact_case rt : let row := [col (txt "a") 15 (VStr (txt "x")) false; col (txt "b") 16 (VUint 3) false] in
  Forall2 (stands_for rt) row [SStr (txt "x"); SBits 3]
  /\ makeReplaceIntoStatement rt [row] (txt "t") (txt "d") = ([txt "replace into `d`.`t` values ('x',b'3');"], Ok tt)
  /\ read_replace (txt "replace into `d`.`t` values ('x',b'3');") = None.
Proof.
  split; [|split; reflexivity]. constructor; [apply st_text; [constructor|discriminate|reflexivity]|]. constructor; [now apply st_bits|constructor].
Qed.
Example C26_case rt : exists line,
  makeReplaceIntoStatement rt [[col (txt "id") 3 (VInt (-7)) false; col (txt "DB_TRX_ID") 0 VNil false;
     col (txt "b") 252 (VStr (txt "00ff")) true; col (txt "n") 15 (VStr (txt "NULL")) false;
     col (txt "s") 15 (VStr (txt "it's")) false; col (txt "f") 16 (VUint 1) false]] (txt "t") (txt "d") = ([line], Ok tt)
  /\ read_replace line = Some (txt "d", txt "t", [SStr (txt "-7"); SBytes [0; 255]; SNull; SStr (txt "it's"); SBits 1]).
Proof. eexists. split; reflexivity. Qed.

(** C27: the statement is the header, one text per user column separated by
    commas, and the end; the text of a column depends on that column alone. *)
Theorem C27_internal_columns : forall rt, exists shown : Column -> bytes, forall tb db row f,
  (forall c, In c row -> f c = true <-> ~ internal c) ->
  makeReplaceIntoStatement rt [row] tb db
  = ([txt "replace into `" ++ db ++ txt "`.`" ++ tb ++ txt "` values ("
      ++ List.concat (match map shown (filter f row) with [] => [] | x :: xs => x :: map (fun y => txt "," ++ y) xs end)
      ++ txt ");"], Ok tt)
  /\ (forall c, (1 <= List.length (shown c))%nat).
Proof.
  intro rt. exists (column_text rt). intros tb db row f Hf. split; [|apply column_text_len].
  unfold makeReplaceIntoStatement. cbn [map]. unfold replace_statement.
  replace (filter f row) with (filter user row).
  2:{ apply filter_ext_in. intros c Hc. specialize (Hf c Hc). pose proof (user_spec c) as Hu.
      destruct (user c), (f c); try reflexivity; exfalso; intuition congruence. }
  rewrite columns_text_user.
  assert (Hall : Forall (fun c => internal_name (c_name c) = false) (filter user row)).
  { apply Forall_forall. intros x Hx. apply filter_In in Hx. destruct Hx as [_ Hx]. unfold user in Hx. now apply negb_true_iff in Hx. }
  assert (G : forall l, Forall (fun c => internal_name (c_name c) = false) l ->
     columns_text rt false l = List.concat (map (fun y => txt "," ++ y) (map (column_text rt) l))).
  { induction 1 as [|c l Hc _ IH]; [reflexivity|]. cbn [columns_text map List.concat]. rewrite Hc, IH, app_assoc. reflexivity. }
  destruct (filter user row) as [|c cs]; [reflexivity|]. inversion Hall as [|? ? Hc Hcs]; subst.
  cbn [columns_text map List.concat]. rewrite Hc, G by exact Hcs. reflexivity.
Qed.
Print Assumptions C27_internal_columns.
Example C27_case rt v1 v2 : makeReplaceIntoStatement rt [[col (txt "DB_ROW_ID") 0 v1 false; col (txt "a") 15 (VStr (txt "x")) false; col (txt "DB_ROLL_PTR") 0 v2 true]] (txt "t") (txt "d")
  = ([txt "replace into `d`.`t` values ('x');"], Ok tt).
Proof. reflexivity. Qed.

(** C28 *)
Theorem C28_null_text_refuted : forall rt c db tb, c_value c = VStr (txt "NULL") -> ~ is_bit c -> c_binary c = false -> ~ internal c -> ~ In 96 db -> ~ In 96 tb ->
  exists line, makeReplaceIntoStatement rt [[c]] tb db = ([line], Ok tt) /\ read_replace line = Some (db, tb, [SNull]).
Proof.
  intros rt c db tb Hv Hbit Hbin Hint Hd Ht. exists (replace_statement rt tb db [c]). split; [reflexivity|]. apply replace_reads with (c := c) (cs := []); [assumption|assumption| |].
  - cbn [filter]. replace (user c) with true by (symmetry; now apply user_spec). reflexivity.
  - constructor; [|constructor]. split; [apply st_null; [now right|exact Hbit]|exact I].
Qed.
Print Assumptions C28_null_text_refuted.
Example C28_refuted_case rt : makeReplaceIntoStatement rt [[col (txt "a") 15 (VStr (txt "NULL")) false]] (txt "t") (txt "d") = ([txt "replace into `d`.`t` values (NULL);"], Ok tt).
Proof. reflexivity. Qed.
(** Full statement: every string.  Proved: every string except NULL itself;
    a quoted string, never SQL NULL, is printed. *)
Theorem C28_null_text_partial : forall rt c s db tb, c_value c = VStr s -> s <> txt "NULL" -> all_bytes s ->
  ~ is_bit c -> c_binary c = false -> ~ internal c -> ~ In 96 db -> ~ In 96 tb ->
  exists line t, makeReplaceIntoStatement rt [[c]] tb db = ([line], Ok tt)
  /\ read_replace line = Some (db, tb, [SStr t]) /\ (s <> txt "0001-01-01T00:00:00Z" -> t = s).
Proof.
  intros rt c s db tb Hv Hs Hb Hbit Hbin Hint Hd Ht. exists (replace_statement rt tb db [c]).
  assert (Hu : filter user [c] = [c]).
  { cbn [filter]. replace (user c) with true by (symmetry; now apply user_spec). reflexivity. }
  destruct (beq s magic) eqn:E.
  - apply beq_eq in E. subst s. exists []. split; [reflexivity|]. split; [|contradiction].
    assert (Hst : stands_for rt (set_value c (VStr []) false) (SStr [])) by (apply st_text; [constructor|exact Hbit|reflexivity]).
    replace (replace_statement rt tb db [c]) with (replace_statement rt tb db [set_value c (VStr []) false]).
    + apply replace_reads with (c := set_value c (VStr []) false) (cs := []); [assumption|assumption| |].
      * cbn [filter]. replace (user _) with true; [reflexivity|]. symmetry. apply user_spec. exact Hint.
      * constructor; [|constructor]. split; [exact Hst|]. split; [constructor|]. split; discriminate.
    + unfold replace_statement. cbn [columns_text]. change (c_name (set_value c (VStr []) false)) with (c_name c).
      replace (internal_name (c_name c)) with false by (symmetry; apply not_true_iff_false; now rewrite internal_spec).
      unfold column_text. rewrite Hv, Hbin. reflexivity.
  - apply beq_neq in E. exists s. split; [reflexivity|]. split; [|reflexivity].
    apply replace_reads with (c := c) (cs := []); [assumption|assumption|exact Hu|].
    constructor; [|constructor]. split; [apply st_text; [rewrite Hv; constructor|exact Hbit|exact Hbin]|].
    split; [exact Hb|]. split; [exact E|exact Hs].
Qed.
Print Assumptions C28_null_text_partial.
Example C28_case rt : read_replace (hd [] (fst (makeReplaceIntoStatement rt [[col (txt "a") 15 (VStr (txt "null")) false]] (txt "t") (txt "d"))))
  = Some (txt "d", txt "t", [SStr (txt "null")]).
Proof. reflexivity. Qed.

(** C29 *)
Theorem C29_bit_literal_refuted : forall rt, exists c n, c_value c = VUint n /\ is_bit c /\ c_binary c = false /\ 0 <= n < 256 /\
  exists m, m <> n /\
  read_replace (hd [] (fst (makeReplaceIntoStatement rt [[c]] (txt "t") (txt "d")))) = Some (txt "d", txt "t", [SBits m]).
Proof.
  intro rt. exists (col (txt "a") 16 (VUint 10) false), 10. split; [reflexivity|]. split; [reflexivity|]. split; [reflexivity|].
  split; [lia|]. exists 2. split; [lia|reflexivity].
Qed.
Print Assumptions C29_bit_literal_refuted.
(** Exactly 0 and 1 are read back. *)
Theorem C29_exact_refuted : forall rt c n db tb, c_value c = VUint n -> is_bit c -> c_binary c = false -> ~ internal c -> ~ In 96 db -> ~ In 96 tb ->
  exists line, makeReplaceIntoStatement rt [[c]] tb db = ([line], Ok tt) /\ (read_replace line = Some (db, tb, [SBits n]) <-> n = 0 \/ n = 1).
Proof.
  intros rt c n db tb Hv Hbit Hbin Hint Hd Ht. destruct (C26_exact_refuted rt db tb [c] [c] [SBits n]) as [line [E H]].
  - intros x [<-|[]]. exact Hint.
  - exists (fun _ => true). split; [reflexivity|discriminate].
  - discriminate.
  - constructor; [now apply st_bits|constructor].
  - intros t [X|[]]. discriminate X.
  - exists line. split; [exact E|]. rewrite H. split; [intros [_ [_ X]]; now inversion X|]. intro X. split; [exact Hd|]. split; [exact Ht|]. constructor; [exact X|constructor].
Qed.
Print Assumptions C29_exact_refuted.
Example C29_exact_case rt : makeReplaceIntoStatement rt [[col (txt "a") 16 (VUint 12) false]] (txt "t") (txt "d") = ([txt "replace into `d`.`t` values (b'12');"], Ok tt).
Proof. reflexivity. Qed.
(** Full statement: all BIT values.  Proved: 0 and 1.  Missing (false): all
    others are printed in decimal inside b'...'. *)
Theorem C29_bit_literal_partial : forall rt c n db tb, c_value c = VUint n -> n = 0 \/ n = 1 ->
  is_bit c -> c_binary c = false -> ~ internal c -> ~ In 96 db -> ~ In 96 tb ->
  exists line, makeReplaceIntoStatement rt [[c]] tb db = ([line], Ok tt)
  /\ read_replace line = Some (db, tb, [SBits n]).
Proof.
  intros rt c n db tb Hv Hn Hbit Hbin Hint Hd Ht. exists (replace_statement rt tb db [c]). split; [reflexivity|].
  apply replace_reads with (c := c) (cs := []); [assumption|assumption| |].
  - cbn [filter]. replace (user c) with true by (symmetry; now apply user_spec). reflexivity.
  - constructor; [|constructor]. split; [now apply st_bits|exact Hn].
Qed.
Print Assumptions C29_bit_literal_partial.
Example C29_case rt : read_replace (hd [] (fst (makeReplaceIntoStatement rt [[col (txt "a") 16 (VUint 1) false]] (txt "t") (txt "d"))))
  = Some (txt "d", txt "t", [SBits 1]).
Proof. reflexivity. Qed.

(** An old or key value of an UPDATE whose text can be written as it is, and
    the SQL value it stands for *)
Definition plain_value (rt : runtime) (v : gval) (s : sqlval) : Prop :=
  match s with
  | SNull => v = VNil
  | SStr t => text_of rt v t /\ literal t = true
  | _ => False
  end.
Lemma plain_sql rt v s : plain_value rt v s -> sql_of rt v = s.
Proof.
  destruct s as [|t| |]; cbn; try contradiction; [now intros ->|]. intros [H _].
  apply text_of_fmt in H. destruct H as [E H]. unfold sql_of. destruct v; [contradiction|..]; now rewrite E.
Qed.
Lemma plain_clean rt n v s : ~ In 96 n -> plain_value rt v s -> clean_item (n, s).
Proof. intros Hn H. split; [exact Hn|]. destruct s; cbn in *; [exact I|tauto|assumption|assumption]. Qed.
(** The general fact behind C30-C32. *)
Lemma update_general rt t cols svals keys kvals :
  ~ In 96 (t_db t) -> ~ In 96 (t_name t) -> cols <> [] -> keys <> [] ->
  Forall2 (fun c s => ~ In 96 (c_name c) /\ plain_value rt (c_value c) s) cols svals ->
  Forall2 (fun kv s => ~ In 96 (fst kv) /\ plain_value rt (snd kv) s /\ s <> SNull) keys kvals ->
  exists line, makeSQL rt t keys cols = ([line], Ok tt) /\
  forall s sets, combine (map c_name cols) svals = s :: sets ->
  read_update line = Some (t_db t, t_name t, [(s, sets)], combine (map fst keys) kvals).
Proof.
  intros Hd Ht Hc Hk HC HK. exists (update_statement rt t keys cols). split; [reflexivity|]. intros s sets E.
  rewrite update_is_text.
  2:{ clear - HK. induction HK as [|kv v l m [_ [H1 H2]] _ IH]; constructor; [|exact IH].
      destruct v; cbn in H1; try contradiction. destruct H1 as [H1 _]. now apply text_of_fmt in H1. }
  assert (EC : map (fun c => (c_name c, sql_of rt (c_value c))) cols = combine (map c_name cols) svals).
  { clear - HC. induction HC as [|c v l m [_ H] _ IH]; [reflexivity|]. cbn [map combine]. now rewrite (plain_sql rt _ v H), IH. }
  assert (EK : map (fun kv => (fst kv, sql_of rt (snd kv))) keys = combine (map fst keys) kvals).
  { clear - HK. induction HK as [|c v l m [_ [H _]] _ IH]; [reflexivity|]. cbn [map combine]. now rewrite (plain_sql rt _ v H), IH. }
  rewrite EC, E. etransitivity; [apply (f_equal (fun z => read_update (update_text _ _ _ z)) EK)|].
  destruct (combine (map fst keys) kvals) as [|k ks] eqn:Ek.
  { destruct HK; [contradiction|discriminate]. }
  apply update_reads; [assumption|assumption| |].
  - refine (eq_ind _ (Forall clean_item) _ _ E). clear - HC. induction HC as [|c v l m [H1 H2] _ IH]; [constructor|]. cbn [map combine]. constructor; [|exact IH].
    eapply plain_clean; eassumption.
  - refine (eq_ind _ (Forall clean_item) _ _ Ek). clear - HK. induction HK as [|c v l m [H1 [H2 _]] _ IH]; [constructor|]. cbn [map combine]. constructor; [|exact IH].
    eapply plain_clean; eassumption.
Qed.

(** C30 *)
Theorem C30_update_one_column : forall rt t c s keys kvals,
  ~ In 96 (t_db t) -> ~ In 96 (t_name t) -> ~ In 96 (c_name c) -> plain_value rt (c_value c) s -> keys <> [] ->
  Forall2 (fun kv v => ~ In 96 (fst kv) /\ plain_value rt (snd kv) v /\ v <> SNull) keys kvals ->
  exists line, makeSQL rt t keys [c] = ([line], Ok tt)
  /\ read_update line = Some (t_db t, t_name t, [(c_name c, s, [])], combine (map fst keys) kvals).
Proof.
  intros rt t c s keys kvals Hd Ht Hn Hs Hk HK.
  destruct (update_general rt t [c] [s] keys kvals Hd Ht ltac:(discriminate) Hk) as [line [E R]]; [|exact HK|].
  - constructor; [split; assumption|constructor].
  - exists line. split; [exact E|]. exact (R (c_name c, s) [] eq_refl).
Qed.
Print Assumptions C30_update_one_column.
Example C30_case rt : exists line,
  makeSQL rt (mkTable (txt "d") (txt "t") [] [] 0 0) [(txt "id", VInt 5); (txt "k2", VStr (txt "x y"))] [col (txt "a") 3 VNil false] = ([line], Ok tt)
  /\ read_update line = Some (txt "d", txt "t", [(txt "a", SNull, [])], [(txt "id", SStr (txt "5")); (txt "k2", SStr (txt "x y"))]).
Proof. eexists. split; reflexivity. Qed.

(** C31: false whenever more than one column changed: MySQL sees a single
    assignment, to the first column, of a truth value. *)
Theorem C31_update_set_refuted : forall rt t c1 c2 cs s1 s2 ss keys kvals,
  ~ In 96 (t_db t) -> ~ In 96 (t_name t) -> keys <> [] ->
  Forall2 (fun c s => ~ In 96 (c_name c) /\ plain_value rt (c_value c) s) (c1 :: c2 :: cs) (s1 :: s2 :: ss) ->
  Forall2 (fun kv v => ~ In 96 (fst kv) /\ plain_value rt (snd kv) v /\ v <> SNull) keys kvals ->
  exists line more, makeSQL rt t keys (c1 :: c2 :: cs) = ([line], Ok tt)
  /\ more <> []
  /\ read_update line = Some (t_db t, t_name t, [(c_name c1, s1, more)], combine (map fst keys) kvals).
Proof.
  intros rt t c1 c2 cs s1 s2 ss keys kvals Hd Ht Hk HC HK.
  destruct (update_general rt t (c1 :: c2 :: cs) (s1 :: s2 :: ss) keys kvals Hd Ht ltac:(discriminate) Hk HC HK) as [line [E R]].
  exists line, (combine (map c_name (c2 :: cs)) (s2 :: ss)). split; [exact E|]. split; [discriminate|].
  exact (R (c_name c1, s1) _ eq_refl).
Qed.
Print Assumptions C31_update_set_refuted.
Example C31_refuted_case rt : exists line,
  makeSQL rt (mkTable (txt "d") (txt "t") [] [] 0 0) [(txt "id", VInt 5)] [col (txt "a") 3 (VInt 1) false; col (txt "b") 3 (VInt 2) false] = ([line], Ok tt)
  /\ read_update line = Some (txt "d", txt "t", [(txt "a", SStr (txt "1"), [(txt "b", SStr (txt "2"))])], [(txt "id", SStr (txt "5"))]).
Proof. eexists. split; reflexivity. Qed.
(** Full statement: any number of columns, one assignment each.  Proved: one
    column.  Missing (false): two or more. *)
Theorem C31_update_set_partial : forall rt t cols svals keys kvals,
  ~ In 96 (t_db t) -> ~ In 96 (t_name t) -> keys <> [] -> List.length cols = 1%nat ->
  Forall2 (fun c s => ~ In 96 (c_name c) /\ plain_value rt (c_value c) s) cols svals ->
  Forall2 (fun kv v => ~ In 96 (fst kv) /\ plain_value rt (snd kv) v /\ v <> SNull) keys kvals ->
  exists line, makeSQL rt t keys cols = ([line], Ok tt)
  /\ read_update line = Some (t_db t, t_name t, map (fun cs => (fst cs, snd cs, [])) (combine (map c_name cols) svals),
                              combine (map fst keys) kvals).
Proof.
  intros rt t cols svals keys kvals Hd Ht Hk Hl HC HK.
  destruct cols as [|c [|c2 cs]]; try discriminate. inversion HC as [|? s ? ? [H1 H2] H3]; subst. inversion H3; subst.
  destruct (C30_update_one_column rt t c s keys kvals Hd Ht H1 H2 Hk HK) as [line [E R]]. exists line. auto.
Qed.
Print Assumptions C31_update_set_partial.

(** C32: a value with a quote changes what the statement does. *)
Theorem C32_update_value_refuted : forall rt, exists v line,
  let t := mkTable (txt "d") (txt "t") [] [] 0 0 in
  makeSQL rt t [(txt "id", VInt 5)] [col (txt "a") 15 (VStr v) false] = ([line], Ok tt)
  /\ read_update line = Some (txt "d", txt "t", [(txt "a", SStr (txt "x"), []); (txt "b", SStr (txt "y"), [])], [(txt "id", SStr (txt "5"))]).
Proof. intro rt. exists (txt "x',`b`='y"). eexists. split; reflexivity. Qed.
Print Assumptions C32_update_value_refuted.
(** Exactly these statements are read as they are meant: one changed column,
    a key, names without backquotes, and values that can be written as they
    are. *)
Definition shown_as (rt : runtime) (v : gval) (s : sqlval) : Prop := match s with SNull => v = VNil | SStr t => text_of rt v t | _ => False end.
Theorem C32_exact_refuted : forall rt t cols svals keys kvals,
  Forall2 (fun c s => shown_as rt (c_value c) s) cols svals -> Forall2 (fun kv s => shown_as rt (snd kv) s /\ s <> SNull) keys kvals ->
  exists line, makeSQL rt t keys cols = ([line], Ok tt)
  /\ (read_update line = Some (t_db t, t_name t, map (fun cs => (fst cs, snd cs, [])) (combine (map c_name cols) svals), combine (map fst keys) kvals)
      <-> ~ In 96 (t_db t) /\ ~ In 96 (t_name t) /\ List.length cols = 1%nat /\ keys <> []
          /\ Forall (fun n => ~ In 96 n) (map c_name cols ++ map fst keys)
          /\ Forall (fun s => match s with SStr x => literal x = true | _ => True end) (svals ++ kvals)).
Proof.
  intros rt t cols svals keys kvals HC HK. exists (update_statement rt t keys cols). split; [reflexivity|].
  assert (S1 : forall v s, shown_as rt v s -> sql_of rt v = s /\ match s with SNull | SStr _ => True | _ => False end).
  { intros v s H. destruct s as [|x| |]; cbn in H; try contradiction; [subst v; now split|]. split; [|exact I]. apply text_of_fmt in H as [E H]. unfold sql_of. destruct v; [contradiction|..]; now rewrite E. }
  rewrite update_is_text.
  2:{ clear - HK. induction HK as [|kv v l m [H1 H2] _ IH]; constructor; [|exact IH]. destruct v; cbn in H1; try contradiction. now apply text_of_fmt in H1. }
  assert (EC : map (fun c => (c_name c, sql_of rt (c_value c))) cols = combine (map c_name cols) svals).
  { clear - HC S1. induction HC as [|c v l m H _ IH]; [reflexivity|]. cbn [map combine]. now rewrite (proj1 (S1 _ v H)), IH. }
  assert (EK : map (fun kv => (fst kv, sql_of rt (snd kv))) keys = combine (map fst keys) kvals).
  { clear - HK S1. induction HK as [|c v l m [H _] _ IH]; [reflexivity|]. cbn [map combine]. now rewrite (proj1 (S1 _ v H)), IH. }
  rewrite EC. rewrite EK.
  rewrite update_exact.
  - assert (L1 : List.length (combine (map c_name cols) svals) = List.length cols) by (rewrite <- EC; apply map_length).
    assert (L2 : combine (map fst keys) kvals <> [] <-> keys <> []) by (clear - HK; destruct HK; cbn; split; congruence).
    assert (L3 : Forall clean_item (combine (map c_name cols) svals) <-> Forall (fun n => ~ In 96 n) (map c_name cols) /\ Forall (fun s => match s with SStr x => literal x = true | _ => True end) svals).
    { clear - HC S1. induction HC as [|c v l m H _ IH]; [cbn; split; [intros _; split; constructor|intros _; constructor]|]. cbn [map combine]. rewrite !Forall_cons_iff, IH. apply S1 in H as [_ H]. unfold clean_item. cbn [fst snd]. destruct v; tauto. }
    assert (L4 : Forall clean_item (combine (map fst keys) kvals) <-> Forall (fun n => ~ In 96 n) (map fst keys) /\ Forall (fun s => match s with SStr x => literal x = true | _ => True end) kvals).
    { clear - HK S1. induction HK as [|c v l m [H _] _ IH]; [cbn; split; [intros _; split; constructor|intros _; constructor]|]. cbn [map combine]. rewrite !Forall_cons_iff, IH. apply S1 in H as [_ H]. unfold clean_item. cbn [fst snd]. destruct v; tauto. }
    unfold item, bytes in *. rewrite L1, L2, L3, L4, !Forall_app. tauto.
  - clear - HC S1. induction HC as [|c v l m H _ IH]; [constructor|]. cbn [map combine]. constructor; [apply S1 in H as [_ H]; exact H|exact IH].
  - clear - HK S1. induction HK as [|c v l m [H _] _ IH]; [constructor|]. cbn [map combine]. constructor; [apply S1 in H as [_ H]; exact H|exact IH].
Qed.
Print Assumptions C32_exact_refuted.
Example C32_exact_case rt : let t := mkTable (txt "d") (txt "t") [] [] 0 0 in
  (exists line, makeSQL rt t [(txt "id", VInt 5)] [col (txt "a") 15 (VStr (txt "50\%")) false] = ([line], Ok tt)
     /\ read_update line = Some (txt "d", txt "t", [(txt "a", SStr (txt "50\%"), [])], [(txt "id", SStr (txt "5"))]))
  /\ (exists line, makeSQL rt t [(txt "id", VInt 5)] [col (txt "a") 15 (VStr (txt "it's")) false] = ([line], Ok tt) /\ read_update line = None)
  /\ literal (txt "50\%") = true /\ literal (txt "it's") = false /\ literal (txt "a\") = false.
Proof. split; [eexists; split; reflexivity|]. split; [eexists; split; reflexivity|]. repeat split. Qed.
(** Full statement: all strings.  Proved: strings that can be written as they
    are.  Missing (false): the others. *)
Theorem C32_update_value_partial : forall rt t n s keys kvals c,
  c_name c = n -> c_value c = VStr s -> literal s = true ->
  ~ In 96 (t_db t) -> ~ In 96 (t_name t) -> ~ In 96 n -> keys <> [] ->
  Forall2 (fun kv v => ~ In 96 (fst kv) /\ plain_value rt (snd kv) v /\ v <> SNull) keys kvals ->
  exists line, makeSQL rt t keys [c] = ([line], Ok tt)
  /\ read_update line = Some (t_db t, t_name t, [(n, SStr s, [])], combine (map fst keys) kvals).
Proof.
  intros rt t n s keys kvals c <- Hv H1 Hd Ht Hn Hk HK.
  apply C30_update_one_column; try assumption. cbn. rewrite Hv. split; [constructor|exact H1].
Qed.
Print Assumptions C32_update_value_partial.
