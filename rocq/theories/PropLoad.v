(** C92-C94: running the recovered REPLACE statements; deleted rows. *)
From Coq Require Import String ZifyBool.
From Verif Require Import GoBase Utils Ibdata Cmd SpecInno SpecText SpecSql SpecRecord SpecRow SpecPage SpecDict SpecTool SpecHistory SpecLoad SpecCmd
  PBase PWire PRec PPage PSql PFile PTool PBuild PFreed PHistory PropCmd PropTool.
Local Open Scope string_scope.
Local Open Scope list_scope.
Local Open Scope Z_scope.

Definition puts (ps : list nat) (tuples rows : rows_of_table) : rows_of_table := fold_left (fun acc vs => put ps vs acc) tuples rows.
Lemma load_all {A} ps db tb (vs : A -> list sqlval) rows lines : Forall2 (fun r line => read_replace line = Some (db, tb, vs r)) rows lines ->
  forall init, load ps db tb lines init = Some (puts ps (map vs rows) init).
Proof.
  induction 1 as [|r line rows lines H _ IH]; intro init; cbn [load map puts fold_left]; [reflexivity|]. unfold replace_row. rewrite H.
  assert (E : forall x, text_eqb x x = true) by (intro; now apply text_eqb_iff). rewrite !E. cbn [andb]. apply IH.
Qed.
Lemma puts_distinct ps tuples : forall init, no_clash ps (init ++ tuples) -> puts ps tuples init = init ++ tuples.
Proof.
  induction tuples as [|v tuples IH]; intros init H; [now rewrite app_nil_r|]. cbn [puts fold_left].
  assert (E : put ps v init = init ++ [v]).
  { unfold put. f_equal. clear IH. revert H. generalize tuples. intros tl H. assert (G : forall x, In x init -> clash ps x v = false) by (intros x Hx; apply in_split in Hx as [a [b ->]]; apply (H a x b v tl); now rewrite <- app_assoc).
    clear H. induction init as [|x init IHi]; [reflexivity|]. cbn [filter]. rewrite (G x) by (now left). cbn [negb]. f_equal. apply IHi. intros; apply G; now right. }
  rewrite E. change (puts ps tuples (init ++ [v]) = init ++ v :: tuples). rewrite IH by (now rewrite <- app_assoc). now rewrite <- app_assoc.
Qed.
Lemma puts_in ps tuples : forall init x, In x (puts ps tuples init) -> In x tuples \/ (In x init /\ forall y, In y tuples -> clash ps x y = false).
Proof.
  induction tuples as [|v tuples IH]; intros init x H; [right; split; [exact H|contradiction]|]. cbn [puts fold_left] in H. destruct (IH (put ps v init) x H) as [H1|[H1 H2]]; [left; now right|].
  unfold put in H1. apply in_app_or in H1 as [H1|[H1|[]]]; [|left; now left]. apply filter_In in H1 as [H1 H3]. right. split; [exact H1|]. intros y [<-|Hy]; [now destruct (clash ps x v)|now apply H2].
Qed.
Lemma puts_keep ps tuples : forall init x, In x init -> (forall y, In y tuples -> clash ps x y = false) -> In x (puts ps tuples init).
Proof.
  induction tuples as [|v tuples IH]; intros init x H Hc; [exact H|]. cbn [puts fold_left]. apply IH; [|intros; apply Hc; now right]. unfold put. apply in_or_app. left. apply filter_In. split; [exact H|]. now rewrite (Hc v (or_introl eq_refl)).
Qed.
Lemma puts_app ps a b init : puts ps (a ++ b) init = puts ps b (puts ps a init).
Proof. unfold puts. apply fold_left_app. Qed.

(** * C92 *)
(** Full statement: running the statements for the live rows of any table of
    [tool_input] in an empty table gives its rows.  Proved for the tables of
    C82 ([front_key]).  Missing (false): other keys.  That no two rows have the same key is what
    InnoDB guarantees. *)
Theorem C92_load_partial : forall fuel rt files op sys tfile d sys_pages t db tb ss pages rows ps,
  op <> txt "RecoveryData" -> tool_input rt false d sys_pages t db tb ss pages rows ->
  front_key d (td_id t) ->
  files sys = Some (map IoBytes sys_pages) -> files tfile = Some (map IoBytes pages) -> (Z.to_nat 16384 < fuel)%nat ->
  key_places d (td_id t) ps -> no_clash ps (map (values (columns_of d (td_id t))) rows) ->
  exists lines, FromDataFile fuel rt files op sys tfile db tb = (lines, Ok tt)
    /\ load ps db tb lines [] = Some (map (values (columns_of d (td_id t))) rows).
Proof.
  intros fuel rt files op sys tfile d sys_pages t db tb ss pages rows ps Hop HI Hk F1 F2 Hfuel _ Hn.
  assert (Ed : is_deleted op = false) by (unfold is_deleted; destruct (list_eq_dec Z.eq_dec op (txt "RecoveryData")); [contradiction|reflexivity]). rewrite <- Ed in HI.
  destruct (C82_statements_partial fuel rt files op sys tfile d sys_pages t db tb ss pages rows HI Hk F1 F2 Hfuel) as [lines [E H]]. exists lines. split; [exact E|].
  rewrite (load_all ps db tb _ rows lines H []). now rewrite (puts_distinct ps _ []).
Qed.
Print Assumptions C92_load_partial.
Theorem C92_load_refuted : forall rt op, op <> txt "RecoveryData" ->
  exists d sys_pages t db tb ss pages rows ps, tool_input rt false d sys_pages t db tb ss pages rows /\ key_places d (td_id t) ps
  /\ no_clash ps (map (values (columns_of d (td_id t))) rows)
  /\ forall fuel files sys tfile, files sys = Some (map IoBytes sys_pages) -> files tfile = Some (map IoBytes pages) -> (Z.to_nat 16384 < fuel)%nat ->
     exists lines s, FromDataFile fuel rt files op sys tfile db tb = (lines, Ok tt) /\ load ps db tb lines [] = Some s
       /\ s <> map (values (columns_of d (td_id t))) rows.
Proof.
  intros rt op Hop. assert (Ed : is_deleted op = false) by (unfold is_deleted; destruct (list_eq_dec Z.eq_dec op (txt "RecoveryData")); [contradiction|reflexivity]).
  destruct (composite_wrong rt op Hop) as [HI H]. rewrite Ed in HI.
  exists dict3, pages3, (mkTableDef (txt "test/p") 22 6), (txt "test"), (txt "p"), (key_slots [c_a; c_b] []), [page_p], [row_p], [0%nat; 1%nat]. split; [exact HI|]. split; [|split].
  - right. exists [c_a; c_b], []. split; [apply C81_case|]. repeat constructor.
  - intros a x b y c E. apply (f_equal (@List.length _)) in E. cbn in E. rewrite app_length in E. cbn in E. rewrite app_length in E. cbn in E. lia.
  - intros fuel files sys tfile F1 F2 Hfuel. destruct (H fuel files sys tfile F1 F2 Hfuel) as [line [E [HR _]]]. exists [line], [[SStr (txt "385"); SStr (txt "-126")]]. split; [exact E|]. split; [|discriminate].
    cbn [load]. unfold replace_row. rewrite HR. reflexivity.
Qed.
Print Assumptions C92_load_refuted.
Lemma two_clash ps (u v : list sqlval) : clash ps u v = false -> no_clash ps [u; v].
Proof.
  intros H a x b y c E. destruct a as [|a0 a]; cbn in E; injection E as -> E.
  - destruct b as [|b0 b]; cbn in E; injection E as -> E; [exact H|]. destruct b; discriminate.
  - destruct a as [|a1 a]; cbn in E; injection E as -> E; [|destruct a; discriminate]. destruct b; discriminate.
Qed.
(** A table [test.t] with primary key [id] and two rows with different keys. *)
Example C92_case : forall rt, tool_input rt false dict3 pages3 (mkTableDef (txt "test/t") 21 5) (txt "test") (txt "t") (key_slots [c_id] [c_v]) [page_t] [row_t1; row_t2]
  /\ front_key dict3 21 /\ key_places dict3 21 [0%nat]
  /\ no_clash [0%nat] (map (values (columns_of dict3 21)) [row_t1; row_t2]).
Proof.
  intro rt. destruct (C82_case rt) as [H1 H2]. split; [exact H1|]. split; [exact H2|]. destruct C81_case as [_ [_ [Hkey _]]]. split.
  - right. exists [c_id], [c_v]. split; [exact Hkey|]. repeat constructor.
  - apply two_clash. reflexivity.
Qed.

(** * C93 *)
Lemma deleted_op op : op = txt "RecoveryData" -> is_deleted op = true.
Proof. intros ->. unfold is_deleted. destruct (list_eq_dec Z.eq_dec (txt "RecoveryData") (txt "RecoveryData")); [reflexivity|contradiction]. Qed.
Lemma recovered : forall fuel rt files sys tfile d sys_pages t db tb ss pages rows ps live,
  tool_input rt true d sys_pages t db tb ss pages rows ->
  front_key d (td_id t) ->
  files sys = Some (map IoBytes sys_pages) -> files tfile = Some (map IoBytes pages) -> (Z.to_nat 16384 < fuel)%nat ->
  exists lines, FromDataFile fuel rt files (txt "RecoveryData") sys tfile db tb = (lines, Ok tt)
    /\ load ps db tb lines live = Some (puts ps (map (values (columns_of d (td_id t))) rows) live).
Proof.
  intros fuel rt files sys tfile d sys_pages t db tb ss pages rows ps live HI Hk F1 F2 Hfuel.
  assert (Ed := deleted_op (txt "RecoveryData") eq_refl). rewrite <- Ed in HI.
  destruct (C82_statements_partial fuel rt files (txt "RecoveryData") sys tfile d sys_pages t db tb ss pages rows HI Hk F1 F2 Hfuel) as [lines [E H]]. exists lines. split; [exact E|].
  exact (load_all ps db tb _ rows lines H live).
Qed.
(** Full statement: running the statements printed for the deleted rows of any
    table of [tool_input] in the table as it is now ([live]) keeps the rows it
    has and adds the deleted ones.  Proved for the tables of C82 when no two of
    all these rows have the same key.  Missing (false): rows with the same key
    as a live row, as after an UPDATE that moved the row, and several deleted
    versions of one row. *)
Theorem C93_recover_partial : forall fuel rt files sys tfile d sys_pages t db tb ss pages rows ps live,
  tool_input rt true d sys_pages t db tb ss pages rows ->
  front_key d (td_id t) ->
  files sys = Some (map IoBytes sys_pages) -> files tfile = Some (map IoBytes pages) -> (Z.to_nat 16384 < fuel)%nat ->
  key_places d (td_id t) ps -> no_clash ps (live ++ map (values (columns_of d (td_id t))) rows) ->
  exists lines, FromDataFile fuel rt files (txt "RecoveryData") sys tfile db tb = (lines, Ok tt)
    /\ load ps db tb lines live = Some (live ++ map (values (columns_of d (td_id t))) rows).
Proof.
  intros fuel rt files sys tfile d sys_pages t db tb ss pages rows ps live HI Hk F1 F2 Hfuel _ Hn.
  destruct (recovered fuel rt files sys tfile d sys_pages t db tb ss pages rows ps live HI Hk F1 F2 Hfuel) as [lines [E H]]. exists lines. split; [exact E|]. rewrite H. now rewrite puts_distinct.
Qed.
Print Assumptions C93_recover_partial.
(** The statement for a deleted row removes the live row with its key. *)
Theorem C93_live_refuted : forall fuel rt files sys tfile d sys_pages t db tb ss pages rows ps live l r,
  tool_input rt true d sys_pages t db tb ss pages rows ->
  front_key d (td_id t) ->
  files sys = Some (map IoBytes sys_pages) -> files tfile = Some (map IoBytes pages) -> (Z.to_nat 16384 < fuel)%nat ->
  key_places d (td_id t) ps -> In l live -> In r rows -> clash ps l (values (columns_of d (td_id t)) r) = true ->
  ~ In l (map (values (columns_of d (td_id t))) rows) ->
  exists lines s, FromDataFile fuel rt files (txt "RecoveryData") sys tfile db tb = (lines, Ok tt) /\ load ps db tb lines live = Some s /\ ~ In l s.
Proof.
  intros fuel rt files sys tfile d sys_pages t db tb ss pages rows ps live l r HI Hk F1 F2 Hfuel _ Hl Hr Hc Hn.
  destruct (recovered fuel rt files sys tfile d sys_pages t db tb ss pages rows ps live HI Hk F1 F2 Hfuel) as [lines [E H]]. eexists lines, _. split; [exact E|]. split; [exact H|].
  intro X. destruct (puts_in ps _ live l X) as [Y|[_ Y]]; [contradiction|]. rewrite (Y (values (columns_of d (td_id t)) r)) in Hc by now apply in_map. discriminate.
Qed.
Print Assumptions C93_live_refuted.
(** Of two deleted versions of one row the one that stands later in the free
    list, which was deleted earlier, is the one left. *)
Theorem C93_version_refuted : forall fuel rt files sys tfile d sys_pages t db tb ss pages a x b y c ps live,
  tool_input rt true d sys_pages t db tb ss pages (a ++ x :: b ++ y :: c) ->
  front_key d (td_id t) ->
  files sys = Some (map IoBytes sys_pages) -> files tfile = Some (map IoBytes pages) -> (Z.to_nat 16384 < fuel)%nat ->
  key_places d (td_id t) ps ->
  let tuple := values (columns_of d (td_id t)) in
  clash ps (tuple x) (tuple y) = true -> ~ In (tuple x) (map tuple (y :: c)) -> (forall z, In z c -> clash ps (tuple y) (tuple z) = false) ->
  exists lines s, FromDataFile fuel rt files (txt "RecoveryData") sys tfile db tb = (lines, Ok tt) /\ load ps db tb lines live = Some s
    /\ ~ In (tuple x) s /\ In (tuple y) s.
Proof.
  intros fuel rt files sys tfile d sys_pages t db tb ss pages a x b y c ps live HI Hk F1 F2 Hfuel _ tuple Hc Hn Hz.
  destruct (recovered fuel rt files sys tfile d sys_pages t db tb ss pages _ ps live HI Hk F1 F2 Hfuel) as [lines [E H]]. eexists lines, _. split; [exact E|]. split; [exact H|]. fold tuple.
  replace (a ++ x :: b ++ y :: c) with ((a ++ x :: b) ++ y :: c) by now rewrite <- app_assoc. rewrite map_app, puts_app. split.
  - intro X. destruct (puts_in ps _ _ (tuple x) X) as [Y|[_ Y]]; [contradiction|]. rewrite (Y (tuple y)) in Hc by (now left). discriminate.
  - cbn [map puts fold_left]. apply (puts_keep ps (map tuple c)); [unfold put; apply in_or_app; right; now left|]. intros z Z. apply in_map_iff in Z as [w [<- Hw]]. now apply Hz.
Qed.
Print Assumptions C93_version_refuted.
(** Two deleted versions of the row with key 1, the later one first, and a
    page with the deleted rows 1 and -2. *)
Definition row_t3 : row := fun n => if list_eq_dec Z.eq_dec n (txt "id") then SStr (txt "1") else SStr (txt "new").
Definition stored_t3 : list stored := [FBytes (store_int 4 1); FBytes (be 6 301); FBytes (be 7 9); FBytes (txt "new")].
Definition freed_t (fss : list (list stored)) : list Z := freed 3 40 (map (irec 32 (map slot_layout (key_slots [c_id] [c_v]))) fss).
Lemma t1_encodes rt : row_encodes rt (key_slots [c_id] [c_v]) (values (users (key_slots [c_id] [c_v])) row_t1) stored_t1.
Proof.
  change (row_encodes rt [User c_id; Own 6; Own 7; User c_v] [SStr (txt "1"); SStr (txt "abc")] stored_t1). unfold stored_t1. constructor; [|plain_text|].
  - apply enc_int; try reflexivity; try (cbn; lia). number.
  - constructor; [reflexivity|]. constructor; [reflexivity|]. constructor; [|plain_text|constructor]. apply enc_varchar; reflexivity || (intros _; reflexivity).
Qed.
Lemma t3_encodes rt : row_encodes rt (key_slots [c_id] [c_v]) (values (users (key_slots [c_id] [c_v])) row_t3) stored_t3.
Proof.
  change (row_encodes rt [User c_id; Own 6; Own 7; User c_v] [SStr (txt "1"); SStr (txt "new")] stored_t3). unfold stored_t3. constructor; [|plain_text|].
  - apply enc_int; try reflexivity; try (cbn; lia). number.
  - constructor; [reflexivity|]. constructor; [reflexivity|]. constructor; [|plain_text|constructor]. apply enc_varchar; reflexivity || (intros _; reflexivity).
Qed.
Lemma t2_encodes rt : row_encodes rt (key_slots [c_id] [c_v]) (values (users (key_slots [c_id] [c_v])) row_t2) stored_t2.
Proof.
  change (row_encodes rt [User c_id; Own 6; Own 7; User c_v] [SStr (txt "-2"); SNull] stored_t2). unfold stored_t2. constructor; [|plain_text|].
  - apply enc_int; try reflexivity; try (cbn; lia). number.
  - constructor; [reflexivity|]. constructor; [reflexivity|]. constructor; [|exact I|constructor]. apply enc_null; [reflexivity|discriminate].
Qed.
Lemma freed_input rt fss rows : fss <> [] ->
  Forall2 (fun fs r => Forall2 fits (map slot_layout (key_slots [c_id] [c_v])) fs /\ row_encodes rt (key_slots [c_id] [c_v]) (values (users (key_slots [c_id] [c_v])) r) fs) fss rows ->
  Forall fine (map (irec 32 (map slot_layout (key_slots [c_id] [c_v]))) fss) -> zlen (free_blocks 125 (map (irec 32 (map slot_layout (key_slots [c_id] [c_v]))) fss)) <= 16000 ->
  tool_input rt true dict3 pages3 (mkTableDef (txt "test/t") 21 5) (txt "test") (txt "t") (key_slots [c_id] [c_v]) [freed_t fss] rows.
Proof.
  intros Hne HR Hf Hl. destruct (C82_case rt) as [[H1 [H2 [H3 [H4 [H5 [H6 [H7 [H8 [H9 [H10 [H11 _]]]]]]]]]]] _]. repeat (split; [assumption|]).
  destruct (freed_page 3 40 (map (irec 32 (map slot_layout (key_slots [c_id] [c_v]))) fss)) as [[P1 _] [_ [P2 _]]]; try assumption; try lia; [destruct fss; [contradiction|discriminate]|]. fold (freed_t fss) in P1, P2.
  split; [constructor; [exact P1|constructor]|]. exists [map (values (users (key_slots [c_id] [c_v]))) rows]. split; [|apply app_nil_r].
  cbn [firsts firsts_rev rev app existsb filter]. rewrite P2. constructor; [|constructor]. refine (freed_holds rt (key_slots [c_id] [c_v]) 3 40 fss _ _ Hne Hf Hl _ _); [|lia|lia].
  clear - HR. induction HR; constructor; assumption.
Qed.
Example C93_case : forall rt,
  tool_input rt true dict3 pages3 (mkTableDef (txt "test/t") 21 5) (txt "test") (txt "t") (key_slots [c_id] [c_v]) [freed_t [stored_t1; stored_t2]] [row_t1; row_t2]
  /\ no_clash [0%nat] ([] ++ map (values (columns_of dict3 21)) [row_t1; row_t2])
  /\ tool_input rt true dict3 pages3 (mkTableDef (txt "test/t") 21 5) (txt "test") (txt "t") (key_slots [c_id] [c_v]) [freed_t [stored_t3; stored_t1]] [row_t3; row_t1]
  /\ clash [0%nat] (values (columns_of dict3 21) row_t3) (values (columns_of dict3 21) row_t1) = true
  /\ ~ In (values (columns_of dict3 21) row_t3) (map (values (columns_of dict3 21)) [row_t1]).
Proof.
  intro rt. assert (F : forall fs, In fs [stored_t1; stored_t2; stored_t3] -> Forall2 fits (map slot_layout (key_slots [c_id] [c_v])) fs).
  { intros fs [<-|[<-|[<-|[]]]]; repeat (constructor; [vm_compute; reflexivity|]); constructor. }
  split; [|split; [|split; [|split]]].
  - apply freed_input; [discriminate| |apply fine_check; vm_compute; reflexivity|vm_compute; discriminate]. constructor; [split; [apply F; cbn; tauto|apply t1_encodes]|]. constructor; [split; [apply F; cbn; tauto|apply t2_encodes]|constructor].
  - apply two_clash. reflexivity.
  - apply freed_input; [discriminate| |apply fine_check; vm_compute; reflexivity|vm_compute; discriminate]. constructor; [split; [apply F; cbn; tauto|apply t3_encodes]|]. constructor; [split; [apply F; cbn; tauto|apply t1_encodes]|constructor].
  - reflexivity.
  - intros [X|[]]. discriminate X.
Qed.

(** * C94 *)
Lemma marks_hold rt ss pages items : file_marks rt ss pages items -> file_holds rt false ss pages (map (values (users ss)) (map fst items)).
Proof.
  intros [H1 [cs [H2 <-]]]. split; [exact H1|]. exists (map (fun its => map (values (users ss)) (map fst its)) cs). split.
  - clear H1. induction H2 as [|p its ps cs H _ IH]; [constructor|]. constructor; [|exact IH]. destruct H as [c [os [A [B C]]]]. exists c, os. split; [exact A|]. split; [exact B|].
    clear - C. induction C as [|o it os its [X [_ Y]] _ IH]; constructor; [split; assumption|exact IH].
  - clear. induction cs as [|c cs IH]; [reflexivity|]. cbn [map List.concat]. now rewrite IH, !map_app.
Qed.
Lemma marks_tool rt d sys_pages t db tb ss pages items : marks_input rt d sys_pages t db tb ss pages items -> tool_input rt false d sys_pages t db tb ss pages (map fst items).
Proof. intros [[H1 [H2 [H3 [H4 [H5 [H6 [H7 [H8 [H9 [H10 [H11 _]]]]]]]]]]] HM]. repeat (split; [assumption|]). now apply marks_hold. Qed.
(** Full statement: PrintData prints the rows that are not deleted, and
    RecoveryData those that are.  Proved for PrintData and files without
    marked records.  Missing (false): marked records, which are printed with
    the others, and not by RecoveryData. *)
Theorem C94_marks_partial : forall fuel rt files op sys tfile d sys_pages t db tb ss pages items,
  op <> txt "RecoveryData" -> marks_input rt d sys_pages t db tb ss pages items -> Forall (fun it => snd it = false) items ->
  front_key d (td_id t) ->
  files sys = Some (map IoBytes sys_pages) -> files tfile = Some (map IoBytes pages) -> (Z.to_nat 16384 < fuel)%nat ->
  exists lines, FromDataFile fuel rt files op sys tfile db tb = (lines, Ok tt)
    /\ Forall2 (fun r line => read_replace line = Some (db, tb, values (columns_of d (td_id t)) r)) (unmarked items) lines.
Proof.
  intros fuel rt files op sys tfile d sys_pages t db tb ss pages items Hop HI Hm Hk F1 F2 Hfuel. apply marks_tool in HI.
  assert (Ed : is_deleted op = false) by (unfold is_deleted; destruct (list_eq_dec Z.eq_dec op (txt "RecoveryData")); [contradiction|reflexivity]). rewrite <- Ed in HI.
  destruct (C82_statements_partial fuel rt files op sys tfile d sys_pages t db tb ss pages _ HI Hk F1 F2 Hfuel) as [lines [E H]]. exists lines. split; [exact E|].
  replace (unmarked items) with (map fst items); [exact H|]. clear - Hm. unfold unmarked. induction Hm as [|[r m] items E _ IH]; [reflexivity|]. cbn in *. subst m. cbn. now rewrite IH.
Qed.
Print Assumptions C94_marks_partial.
(** Every marked row is printed like the others, so there are more statements
    than rows. *)
Theorem C94_marks_refuted : forall fuel rt files op sys tfile d sys_pages t db tb ss pages items,
  op <> txt "RecoveryData" -> marks_input rt d sys_pages t db tb ss pages items -> Exists (fun it => snd it = true) items ->
  front_key d (td_id t) ->
  files sys = Some (map IoBytes sys_pages) -> files tfile = Some (map IoBytes pages) -> (Z.to_nat 16384 < fuel)%nat ->
  exists lines, FromDataFile fuel rt files op sys tfile db tb = (lines, Ok tt)
    /\ Forall2 (fun it line => read_replace line = Some (db, tb, values (columns_of d (td_id t)) (fst it))) items lines
    /\ (List.length (unmarked items) < List.length lines)%nat.
Proof.
  intros fuel rt files op sys tfile d sys_pages t db tb ss pages items Hop HI Hm Hk F1 F2 Hfuel. apply marks_tool in HI.
  assert (Ed : is_deleted op = false) by (unfold is_deleted; destruct (list_eq_dec Z.eq_dec op (txt "RecoveryData")); [contradiction|reflexivity]). rewrite <- Ed in HI.
  destruct (C82_statements_partial fuel rt files op sys tfile d sys_pages t db tb ss pages _ HI Hk F1 F2 Hfuel) as [lines [E H]]. exists lines. split; [exact E|].
  assert (G : Forall2 (fun it line => read_replace line = Some (db, tb, values (columns_of d (td_id t)) (fst it))) items lines).
  { clear - H. revert lines H. induction items as [|it items IH]; intros lines H; inversion H; subst; constructor; auto. }
  split; [exact G|]. assert (GL : List.length items = List.length lines) by (clear - G; induction G; cbn; congruence). rewrite <- GL. clear - Hm. unfold unmarked. rewrite map_length.
  assert (L : forall l : list (row * bool), (List.length (filter (fun it => negb (snd it)) l) <= List.length l)%nat) by (induction l as [|[r m] l IH]; cbn; [lia|destruct m; cbn; lia]).
  induction Hm as [[r m] items E|[r m] items _ IH]; cbn in *; [subst m; cbn; pose proof (L items); lia|destruct m; cbn; lia].
Qed.
Print Assumptions C94_marks_refuted.
(** Nothing is recovered of a file whose deleted rows have not been purged. *)
Theorem C94_unpurged_refuted : forall fuel rt files sys tfile d sys_pages t db tb ss pages items,
  marks_input rt d sys_pages t db tb ss pages items -> Exists (fun it => snd it = true) items -> only_marked pages ->
  front_key d (td_id t) ->
  files sys = Some (map IoBytes sys_pages) -> files tfile = Some (map IoBytes pages) -> (Z.to_nat 16384 < fuel)%nat ->
  FromDataFile fuel rt files (txt "RecoveryData") sys tfile db tb = ([], Ok tt).
Proof.
  intros fuel rt files sys tfile d sys_pages t db tb ss pages items [[H1 [H2 [H3 [H4 [H5 [H6 [H7 [H8 [H9 [H10 [H11 _]]]]]]]]]]] [HM _]] _ Ho Hk F1 F2 Hfuel.
  assert (HI : tool_input rt (is_deleted (txt "RecoveryData")) d sys_pages t db tb ss pages []).
  { rewrite (deleted_op _ eq_refl). repeat (split; [assumption|]). exists []. split; [|reflexivity].
    assert (Hs : forall p, In p (firsts pages) -> In p pages).
    { intros p. unfold firsts. rewrite (in_rev pages p). generalize (rev pages). induction l as [|q l IH]; [auto|]. cbn [firsts_rev]. intro X. apply in_app_or in X as [X|X]; [right; now apply IH|].
      destruct (existsb _ l); [contradiction|destruct X as [->|[]]; now left]. }
    replace (filter (eligible true) (firsts pages)) with (@nil (list Z)); [constructor|]. symmetry. revert Hs. generalize (firsts pages). induction l as [|p l IH]; intro Hs; [reflexivity|]. cbn [filter].
    unfold only_marked in Ho. rewrite Forall_forall in Ho. replace (eligible true p) with false; [apply IH; intros; apply Hs; now right|]. unfold eligible. rewrite (Ho p) by (apply Hs; now left).
    change (0 <? 0) with false. cbn [andb orb negb]. now rewrite !andb_false_r. }
  destruct (C82_statements_partial fuel rt files _ sys tfile d sys_pages t db tb ss pages [] HI Hk F1 F2 Hfuel) as [lines [E H]]. inversion H; subst. exact E.
Qed.
Print Assumptions C94_unpurged_refuted.
(** Row 1 deleted but not purged, row -2 alive. *)
Definition page_k : list Z := built true 3 17855 40 (map (fun it : bool * list stored => irec (if fst it then 32 else 0) (map slot_layout (key_slots [c_id] [c_v])) (snd it)) [(true, stored_t1); (false, stored_t2)]).
Example C94_case : forall rt, marks_input rt dict3 pages3 (mkTableDef (txt "test/t") 21 5) (txt "test") (txt "t") (key_slots [c_id] [c_v]) [page_k] [(row_t1, true); (row_t2, false)]
  /\ only_marked [page_k] /\ unmarked [(row_t1, true); (row_t2, false)] = [row_t2].
Proof.
  intro rt. assert (Hf : Forall fine (map (fun it : bool * list stored => irec (if fst it then 32 else 0) (map slot_layout (key_slots [c_id] [c_v])) (snd it)) [(true, stored_t1); (false, stored_t2)])) by (apply fine_check; vm_compute; reflexivity).
  assert (Hl : zlen (blocks true 125 (map (fun it : bool * list stored => irec (if fst it then 32 else 0) (map slot_layout (key_slots [c_id] [c_v])) (snd it)) [(true, stored_t1); (false, stored_t2)])) <= 16000) by (vm_compute; discriminate).
  split; [|split; [constructor; [vm_compute; reflexivity|constructor]|reflexivity]]. split.
  - destruct (C82_case rt) as [[H1 [H2 [H3 [H4 [H5 [H6 [H7 [H8 [H9 [H10 [H11 _]]]]]]]]]]] _]. repeat (split; [assumption|]). split; [constructor|]. exists []. split; [constructor|reflexivity].
  - destruct (built_alone 3 40 _ Hf Hl) as [Hi He]; try lia. split; [exact Hi|]. fold page_k in He. rewrite He. exists [[(row_t1, true); (row_t2, false)]]. split; [|reflexivity]. constructor; [|constructor].
    apply marks_built; try assumption; try lia. constructor; [|constructor; [|constructor]]; (split; [repeat (constructor; [vm_compute; reflexivity|]); constructor|]).
    + split; [apply t1_encodes|reflexivity].
    + split; [apply t2_encodes|reflexivity].
Qed.
