(** C131: running the recovered REPLACE statements in a table with further unique keys. *)
From Coq Require Import String ZifyBool.
From Verif Require Import GoBase Utils Ibdata Cmd SpecInno SpecText SpecSql SpecRecord SpecRow SpecPage SpecDict SpecTool SpecHistory SpecLoad SpecKeys SpecCmd
  PBase PWire PRec PPage PSql PFile PTool PBuild PFreed PHistory PropCmd PropTool PropLoad.
Local Open Scope string_scope.
Local Open Scope list_scope.
Local Open Scope Z_scope.

Definition all_put (ru : rules) (tuples rows : rows_of_table) : rows_of_table := fold_left (fun acc vs => put_row ru vs acc) tuples rows.
Lemma run_put {A} ru db tb (vs : A -> list sqlval) rows lines : Forall2 (fun r line => read_replace line = Some (db, tb, vs r)) rows lines ->
  forall init, run_all ru db tb lines init = Some (all_put ru (map vs rows) init).
Proof.
  induction 1 as [|r line rows lines H _ IH]; intro init; cbn [run_all map all_put fold_left]; [reflexivity|]. unfold run_replace. rewrite H.
  assert (E : forall x, text_eqb x x = true) by (intro; now apply text_eqb_iff). rewrite !E. cbn [andb]. apply IH.
Qed.
Lemma put_apart ru tuples : forall init, apart ru (init ++ tuples) -> all_put ru tuples init = init ++ tuples.
Proof.
  induction tuples as [|v tuples IH]; intros init H; [now rewrite app_nil_r|]. cbn [all_put fold_left].
  assert (E : put_row ru v init = init ++ [v]).
  { unfold put_row. f_equal. clear IH. revert H. generalize tuples. intros tl H. assert (G : forall x, In x init -> clashes ru x v = false) by (intros x Hx; apply in_split in Hx as [a [b ->]]; apply (H a x b v tl); now rewrite <- app_assoc).
    clear H. induction init as [|x init IHi]; [reflexivity|]. cbn [filter]. rewrite (G x) by (now left). cbn [negb]. f_equal. apply IHi. intros; apply G; now right. }
  rewrite E. change (all_put ru tuples (init ++ [v]) = init ++ v :: tuples). rewrite IH by (now rewrite <- app_assoc). now rewrite <- app_assoc.
Qed.
Lemma put_in ru tuples : forall init x,
  In x (all_put ru tuples init) <-> (exists a b, tuples = a ++ x :: b /\ forall y, In y b -> clashes ru x y = false) \/ (In x init /\ forall y, In y tuples -> clashes ru x y = false).
Proof.
  induction tuples as [|v tuples IH]; intros init x; cbn [all_put fold_left].
  - split; [intro H; right; split; [exact H|contradiction]|]. intros [[a [b [E _]]]|[H _]]; [destruct a; discriminate|exact H].
  - change (In x (all_put ru tuples (put_row ru v init)) <-> (exists a b, v :: tuples = a ++ x :: b /\ forall y, In y b -> clashes ru x y = false) \/ (In x init /\ forall y, In y (v :: tuples) -> clashes ru x y = false)).
    rewrite IH. unfold put_row. rewrite in_app_iff, filter_In. cbn [In]. split.
    + intros [[a [b [-> H]]]|[[[H1 H2]|[<-|[]]] H]].
      * left. exists (v :: a), b. split; [reflexivity|exact H].
      * right. split; [exact H1|]. intros y [<-|Hy]; [now destruct (clashes ru x v)|now apply H].
      * left. exists [], tuples. split; [reflexivity|exact H].
    + intros [[a [b [E H]]]|[H1 H]].
      * destruct a as [|a0 a]; injection E as -> ->; [right; split; [right; now left|exact H]|]. left. exists a, b. split; [reflexivity|exact H].
      * right. split; [left; split; [exact H1|now rewrite (H v (or_introl eq_refl))]|]. intros y Hy. apply H. now right.
Qed.

(** Full statement: running the statements for the deleted rows of any table of
    [tool_input] in the table as it is now removes no row of another primary
    key.  What happens, for the tables of C82 and any unique keys: a row is in
    the table afterwards exactly if it was printed and clashes with none
    printed after it, or was there and clashes with none printed. *)
Theorem C131_kept_partial : forall fuel rt files sys tfile d sys_pages t db tb ss pages rows ru live,
  tool_input rt true d sys_pages t db tb ss pages rows -> front_key d (td_id t) ->
  files sys = Some (map IoBytes sys_pages) -> files tfile = Some (map IoBytes pages) -> (Z.to_nat 16384 < fuel)%nat ->
  let tuple := values (columns_of d (td_id t)) in
  exists lines s, FromDataFile fuel rt files (txt "RecoveryData") sys tfile db tb = (lines, Ok tt) /\ run_all ru db tb lines live = Some s
    /\ (forall x, In x s <-> (exists a b, map tuple rows = a ++ x :: b /\ forall y, In y b -> clashes ru x y = false)
                             \/ (In x live /\ forall r, In r rows -> clashes ru x (tuple r) = false))
    /\ (apart ru (live ++ map tuple rows) -> s = live ++ map tuple rows).
Proof.
  intros fuel rt files sys tfile d sys_pages t db tb ss pages rows ru live HI Hk F1 F2 Hfuel tuple.
  assert (Ed := deleted_op (txt "RecoveryData") eq_refl). rewrite <- Ed in HI.
  destruct (C82_statements_partial fuel rt files (txt "RecoveryData") sys tfile d sys_pages t db tb ss pages rows HI Hk F1 F2 Hfuel) as [lines [E H]]. exists lines, (all_put ru (map tuple rows) live).
  split; [exact E|]. split; [exact (run_put ru db tb tuple rows lines H live)|]. split; [|apply put_apart].
  intro x. rewrite put_in. split; (intros [X|[X Y]]; [now left|right; split; [exact X|]]).
  - intros r Hr. apply Y. now apply in_map.
  - intros y Hy. apply in_map_iff in Hy as [r [<- Hr]]. now apply Y.
Qed.
Print Assumptions C131_kept_partial.
(** A row that clashes with a deleted one, in whatever key and by whatever
    collation, is lost, though its primary key is another. *)
Theorem C131_lost_refuted : forall fuel rt files sys tfile d sys_pages t db tb ss pages rows ru live l r,
  tool_input rt true d sys_pages t db tb ss pages rows -> front_key d (td_id t) ->
  files sys = Some (map IoBytes sys_pages) -> files tfile = Some (map IoBytes pages) -> (Z.to_nat 16384 < fuel)%nat ->
  let tuple := values (columns_of d (td_id t)) in
  In l live -> In r rows -> clashes ru l (tuple r) = true -> ~ In l (map tuple rows) ->
  exists lines s, FromDataFile fuel rt files (txt "RecoveryData") sys tfile db tb = (lines, Ok tt) /\ run_all ru db tb lines live = Some s /\ ~ In l s.
Proof.
  intros fuel rt files sys tfile d sys_pages t db tb ss pages rows ru live l r HI Hk F1 F2 Hfuel tuple Hl Hr Hc Hn.
  destruct (C131_kept_partial fuel rt files sys tfile d sys_pages t db tb ss pages rows ru live HI Hk F1 F2 Hfuel) as [lines [s [E [H [HX _]]]]]. exists lines, s. split; [exact E|]. split; [exact H|].
  intro X. apply HX in X as [[a [b [EX _]]]|[_ Y]]; [apply Hn; fold tuple in EX; rewrite EX; apply in_or_app; right; now left|]. fold tuple in Y. rewrite (Y r Hr) in Hc. discriminate.
Qed.
Print Assumptions C131_lost_refuted.
(** The live rows, run in an empty table with the same keys, give the table
    back, whatever the keys and collations are. *)
Theorem C131_live_partial : forall fuel rt files op sys tfile d sys_pages t db tb ss pages rows ru,
  op <> txt "RecoveryData" -> tool_input rt false d sys_pages t db tb ss pages rows -> front_key d (td_id t) ->
  files sys = Some (map IoBytes sys_pages) -> files tfile = Some (map IoBytes pages) -> (Z.to_nat 16384 < fuel)%nat ->
  let tuple := values (columns_of d (td_id t)) in
  apart ru (map tuple rows) ->
  exists lines, FromDataFile fuel rt files op sys tfile db tb = (lines, Ok tt) /\ run_all ru db tb lines [] = Some (map tuple rows).
Proof.
  intros fuel rt files op sys tfile d sys_pages t db tb ss pages rows ru Hop HI Hk F1 F2 Hfuel tuple Ha.
  assert (Ed : is_deleted op = false) by (unfold is_deleted; destruct (list_eq_dec Z.eq_dec op (txt "RecoveryData")); [contradiction|reflexivity]). rewrite <- Ed in HI.
  destruct (C82_statements_partial fuel rt files op sys tfile d sys_pages t db tb ss pages rows HI Hk F1 F2 Hfuel) as [lines [E H]]. exists lines. split; [exact E|].
  rewrite (run_put ru db tb tuple rows lines H []). now rewrite (put_apart ru _ []).
Qed.
Print Assumptions C131_live_partial.
(** A table with a primary key [id] and a unique key on [v], compared without
    regard to case: the deleted row (1, 'abc') removes the live row (7, 'ABC'),
    and with the primary key alone it would not. *)
Definition fold_case (b : Z) : Z := if (65 <=? b) && (b <=? 90) then b + 32 else b.
Definition same_text (a b : sqlval) : bool := match a, b with SStr x, SStr y => text_eqb (map fold_case x) (map fold_case y) | _, _ => false end.
Definition rules_t : rules := mkRules [[0%nat]; [1%nat]] (fun _ => same_text).
Fixpoint apart_check (ru : rules) (rows : rows_of_table) : bool :=
  match rows with [] => true | x :: l => forallb (fun y => negb (clashes ru x y)) l && apart_check ru l end.
Lemma apart_checked ru rows : apart_check ru rows = true -> apart ru rows.
Proof.
  intros H a x b y c ->. induction a as [|a0 a IH]; cbn [app apart_check] in H; apply andb_true_iff in H as [H1 H2]; [|now apply IH].
  rewrite forallb_forall in H1. apply negb_true_iff. apply H1. apply in_or_app. right. now left.
Qed.
Example C131_case : forall rt, let live := [[SStr (txt "7"); SStr (txt "ABC")]; [SStr (txt "8"); SNull]] in let tuple := values (columns_of dict3 21) in
  tool_input rt true dict3 pages3 (mkTableDef (txt "test/t") 21 5) (txt "test") (txt "t") (key_slots [c_id] [c_v]) [freed_t [stored_t1; stored_t2]] [row_t1; row_t2]
  /\ front_key dict3 21 /\ rules_ok rules_t /\ apart rules_t live
  /\ clashes rules_t [SStr (txt "7"); SStr (txt "ABC")] (tuple row_t1) = true
  /\ ~ same_primary [0%nat] [SStr (txt "7"); SStr (txt "ABC")] (tuple row_t1)
  /\ ~ In [SStr (txt "7"); SStr (txt "ABC")] (map tuple [row_t1; row_t2])
  /\ apart rules_t ([[SStr (txt "8"); SNull]] ++ map tuple [row_t1; row_t2]).
Proof.
  intros rt live tuple. split; [apply C93_case|]. split; [apply (C82_case rt)|]. split; [|split; [|split; [|split; [|split]]]].
  - split; [repeat constructor; discriminate|]. intros p [|x|n|x] [|y|m|y] X; try discriminate X. split; discriminate.
  - apply apart_checked. reflexivity.
  - reflexivity.
  - intros [_ X]. specialize (X 0%nat (or_introl eq_refl)). discriminate X.
  - intros [X|[X|[]]]; discriminate X.
  - apply apart_checked. reflexivity.
Qed.
(** So the claim is false: a live row goes although no deleted row has its
    primary key. *)
Theorem C131_unique_refuted : forall rt, exists d sys_pages t db tb ss pages rows ps ru live l,
  tool_input rt true d sys_pages t db tb ss pages rows /\ front_key d (td_id t) /\ key_places d (td_id t) ps
  /\ rules_ok ru /\ In ps (ru_keys ru) /\ apart ru live /\ In l live
  /\ Forall (fun r => ~ same_primary ps l (values (columns_of d (td_id t)) r)) rows
  /\ forall fuel files sys tfile, files sys = Some (map IoBytes sys_pages) -> files tfile = Some (map IoBytes pages) -> (Z.to_nat 16384 < fuel)%nat ->
     exists lines s, FromDataFile fuel rt files (txt "RecoveryData") sys tfile db tb = (lines, Ok tt) /\ run_all ru db tb lines live = Some s /\ ~ In l s.
Proof.
  intro rt. destruct (C131_case rt) as [HI [Hk [Hr [Ha [Hc [Hp [Hn _]]]]]]].
  exists dict3, pages3, (mkTableDef (txt "test/t") 21 5), (txt "test"), (txt "t"), (key_slots [c_id] [c_v]), [freed_t [stored_t1; stored_t2]], [row_t1; row_t2], [0%nat], rules_t,
    [[SStr (txt "7"); SStr (txt "ABC")]; [SStr (txt "8"); SNull]], [SStr (txt "7"); SStr (txt "ABC")].
  split; [exact HI|]. split; [exact Hk|]. split; [apply (C92_case rt)|]. split; [exact Hr|]. split; [now left|]. split; [exact Ha|]. split; [now left|]. split.
  - constructor; [exact Hp|]. constructor; [|constructor]. intros [_ X]. specialize (X 0%nat (or_introl eq_refl)). discriminate X.
  - intros fuel files sys tfile F1 F2 Hfuel. apply (C131_lost_refuted fuel rt files sys tfile dict3 pages3 (mkTableDef (txt "test/t") 21 5) (txt "test") (txt "t") (key_slots [c_id] [c_v]) _ _ rules_t _ _ row_t1 HI Hk F1 F2 Hfuel);
      [now left|now left|exact Hc|exact Hn].
Qed.
Print Assumptions C131_unique_refuted.
