(** C137: tables with GEOMETRY columns. *)
From Coq Require Import ZifyBool.
From Verif Require Import GoBase Utils Ibdata Redo Cmd SpecInno SpecText SpecSql SpecRecord SpecRow SpecPage SpecDict SpecTool SpecCmd SpecChars SpecLine
  PBase PWire PValue PText PRec PPage PSql PFile PDict POut PTypes PropValue PropRec PropCmd PropLine PropNull PropInjectRedo.
Local Open Scope list_scope.
Local Open Scope Z_scope.

(** * Specification *)
(** MySQL 5.7 stores columns of type GEOMETRY, POINT, POLYGON and so on with a
    main type of their own (data0type.h: DATA_GEOMETRY).  They vary in length,
    two bytes hold a length of 128 or more, and the dictionary has 12 as their
    length (8 for the pointer, 4 for the length MySQL's own row format has). *)
Definition innodb_geometry : Z := 14.
Definition field_geometry : Z := 255.
Definition geometry (c : Column) : Prop := c_type c = innodb_geometry /\ c_mysql c = field_geometry.
(** the columns that have a place in the statements *)
Definition internal (c : Column) : bool :=
  existsb (fun n => if list_eq_dec Z.eq_dec (c_name c) n then true else false) [txt "DB_ROW_ID"; txt "DB_TRX_ID"; txt "DB_ROLL_PTR"].
Definition user_columns (cs : list Column) : list Column := filter (fun c => negb (internal c)) cs.
(** A statement in which every GEOMETRY column of the table has the value NULL *)
Definition null_geometry (db tb : list Z) (cs : list Column) (line : list Z) : Prop :=
  exists vs, line = statement db tb vs /\ Forall2 (fun c v => geometry c -> v = txt "NULL") (user_columns cs) vs.

(** * The dictionary's columns have no value yet *)
Definition fresh (c : Column) : Prop := c_value c = VNil /\ (c_type c = innodb_geometry -> c_binary c = false).
Definition fresh_map (tm : gomap Table) : Prop := Forall (fun kt => Forall fresh (t_columns (snd kt))) tm.
Lemma fresh_get tm k t : fresh_map tm -> mget tm k = Some t -> Forall fresh (t_columns t).
Proof.
  intros H E. induction tm as [|[k' t'] tm IH]; [discriminate|]. inversion H as [|? ? H1 H2]; subst. cbn [mget] in E. destruct (k =? k'); [injection E as <-; exact H1|now apply IH].
Qed.
Lemma fresh_set tm k t : fresh_map tm -> Forall fresh (t_columns t) -> fresh_map (mset tm k t).
Proof.
  intros H Ht. induction tm as [|[k' t'] tm IH]; cbn [mset]; [constructor; [exact Ht|constructor]|]. inversion H as [|? ? H1 H2]; subst.
  destruct (k =? k'); constructor; try assumption. now apply IH.
Qed.
Lemma bind_ok {A B} (m : res A) (k : A -> res B) b : bind m k = Ok b -> exists a, m = Ok a /\ k a = Ok b.
Proof. destruct m; cbn; try discriminate. eauto. Qed.
Ltac ok H := match type of H with bind _ _ = Ok _ => let a := fresh "a" in let E := fresh "E" in apply bind_ok in H as [a [E H]] end.
Lemma fresh_tables rows : forall tm tm', fresh_map tm -> addTables tm rows = Ok tm' -> fresh_map tm'.
Proof.
  induction rows as [|r rs IH]; intros tm tm' H E; cbn [addTables] in E; [injection E as <-; exact H|]. ok E. apply (IH a); [|exact E].
  unfold addTable in E0. ok E0. ok E0. ok E0. ok E0. injection E0 as <-. apply fresh_set; [exact H|constructor].
Qed.
Lemma fresh_columns rows : forall tm tm', fresh_map tm -> addAllColumns tm rows = Ok tm' -> fresh_map tm'.
Proof.
  induction rows as [|r rs IH]; intros tm tm' H E; cbn [addAllColumns] in E; [injection E as <-; exact H|]. ok E. apply (IH a); [|exact E].
  unfold addColumn in E0. ok E0. destruct (mget tm a0) as [t|] eqn:G; [|injection E0 as <-; exact H]. ok E0. cbv zeta in E0. ok E0. ok E0. ok E0. ok E0. injection E0 as <-.
  apply fresh_set; [exact H|]. cbn [t_columns]. apply Forall_app. split; [exact (fresh_get _ _ _ H G)|]. constructor; [|constructor]. split; [reflexivity|]. cbn [c_type c_binary]. intros ->. reflexivity.
Qed.
Lemma fresh_indexes rows : forall tm e r, fresh_map tm -> addIndexes tm e rows = Ok r -> fresh_map (fst r).
Proof.
  induction rows as [|w rs IH]; intros tm e r H E; cbn [addIndexes] in E; [injection E as <-; exact H|]. ok E. destruct a as [tm' e']. eapply IH; [|exact E].
  unfold addIndex in E0. ok E0. destruct (mget tm a) as [t|] eqn:G; [|injection E0 as <- <-; exact H]. ok E0. ok E0. ok E0. ok E0. injection E0 as <- <-.
  apply fresh_set; [exact H|]. exact (fresh_get _ _ _ H G).
Qed.
Lemma fresh_attach m tm : fresh_map tm -> fresh_map (attachFields m tm).
Proof. intro H. unfold attachFields, fresh_map. apply Forall_map. eapply Forall_impl; [|exact H]. intros [k t] X. exact X. Qed.
Lemma index_in {A} (l : list A) i x : index l i = Ok x -> In x l.
Proof. unfold index. destruct (_ && _); [|discriminate]. destruct (nth_error l (Z.to_nat i)) eqn:E; [|discriminate]. intro H. injection H as <-. exact (nth_error_In _ _ E). Qed.
Lemma forall_firstn {A} (Q : A -> Prop) l n : Forall Q l -> Forall Q (firstn n l).
Proof. intro H. rewrite <- (firstn_skipn n l) in H. now apply Forall_app in H. Qed.
Lemma forall_skipn {A} (Q : A -> Prop) l n : Forall Q l -> Forall Q (skipn n l).
Proof. intro H. rewrite <- (firstn_skipn n l) in H. now apply Forall_app in H. Qed.
Lemma fresh_inner fs : forall j i cs cs', Forall fresh cs -> move_inner fs j i cs = Ok cs' -> Forall fresh cs'.
Proof.
  induction fs as [|f fs IH]; intros j i cs cs' H E; cbn [move_inner] in E; [injection E as <-; exact H|]. ok E. ok E. eapply IH; [|exact E].
  destruct (beq _ _); [|injection E1 as <-; exact H]. destruct (_ <? _)%nat; [|discriminate]. injection E1 as <-.
  constructor; [rewrite Forall_forall in H; apply H; exact (index_in _ _ _ E0)|]. apply Forall_app. split; [now apply forall_firstn|exact (forall_skipn fresh cs (S j) H)].
Qed.
Lemma fresh_outer fs n : forall i cs cs', Forall fresh cs -> move_outer n i fs cs = Ok cs' -> Forall fresh cs'.
Proof. induction n as [|n IH]; intros i cs cs' H E; cbn [move_outer] in E; [injection E as <-; exact H|]. ok E. exact (IH _ _ _ (fresh_inner _ _ _ _ _ H E0) E). Qed.
Lemma fresh_move ixs : forall cs cs', Forall fresh cs -> movePK_table ixs cs = Ok cs' -> Forall fresh cs'.
Proof.
  induction ixs as [|[k ix] ixs IH]; intros cs cs' H E; cbn [movePK_table] in E; [injection E as <-; exact H|]. ok E. apply (IH a); [|exact E].
  destruct (beq _ _); [exact (fresh_outer _ _ _ _ _ H E0)|injection E0 as <-; exact H].
Qed.
Lemma fresh_moves tm : forall tm', fresh_map tm -> movePrimaryKeyFirst tm = Ok tm' -> fresh_map tm'.
Proof.
  induction tm as [|[k t] tm IH]; intros tm' H E; cbn [movePrimaryKeyFirst] in E; [injection E as <-; exact H|]. inversion H as [|? ? H1 H2]; subst. ok E. ok E. injection E as <-.
  constructor; [exact (fresh_move _ _ _ H1 E0)|now apply IH].
Qed.
Lemma fresh_internal n id p : fresh (addInternalColumn n id p).
Proof. unfold addInternalColumn. repeat destruct (beq _ _); (split; [reflexivity|discriminate]). Qed.
Lemma fresh_add cs i c cs' : Forall fresh cs -> fresh c -> addColumns cs i c = Ok cs' -> Forall fresh cs'.
Proof.
  intros H Hc E. unfold addColumns in E. ok E. ok E. injection E as <-. unfold slice_from, slice_to in *.
  assert (S1 : forall l, slice_from cs i = Ok l -> Forall fresh l) by (intros l X; unfold slice_from, slice in X; destruct (_ && _) in X; [|discriminate]; injection X as <-; first [now apply forall_skipn|apply forall_firstn; now apply forall_skipn]).
  assert (S2 : forall l, slice_to cs i = Ok l -> Forall fresh l) by (intros l X; unfold slice_to, slice in X; destruct (_ && _) in X; [|discriminate]; injection X as <-; first [now apply forall_firstn|apply forall_firstn; now apply forall_skipn]).
  apply Forall_app. split; [exact (S2 _ E1)|]. constructor; [exact Hc|exact (S1 _ E0)].
Qed.
Lemma fresh_addtable id ixs : forall cs cs', Forall fresh cs -> addInternal_table id ixs cs = Ok cs' -> Forall fresh cs'.
Proof.
  induction ixs as [|[k ix] ixs IH]; intros cs cs' H E; cbn [addInternal_table] in E; [injection E as <-; exact H|]. ok E. apply (IH a); [|exact E]. cbv zeta in E0.
  destruct (beq _ (bs "PRIMARY")).
  - ok E0. eapply fresh_add; [eapply fresh_add; [exact H| |exact E1]| |exact E0]; apply fresh_internal.
  - destruct (beq _ _); [|injection E0 as <-; exact H]. ok E0. ok E0. eapply fresh_add; [eapply fresh_add; [eapply fresh_add; [exact H| |exact E1]| |exact E2]| |exact E0]; apply fresh_internal.
Qed.
Lemma fresh_adds tm : forall tm', fresh_map tm -> addInternalColumns tm = Ok tm' -> fresh_map tm'.
Proof.
  induction tm as [|[k t] tm IH]; intros tm' H E; cbn [addInternalColumns] in E; [injection E as <-; exact H|]. inversion H as [|? ? H1 H2]; subst. ok E. ok E. injection E as <-.
  constructor; [exact (fresh_addtable _ _ _ _ H1 E0)|now apply IH].
Qed.
Lemma fresh_loop fuel rt pages : forall tm cs tm', fresh_map tm -> snd (getAllTables_loop fuel rt tm pages cs) = Ok tm' -> fresh_map tm'.
Proof.
  induction pages as [|d ds IH]; intros tm cs tm' H E; cbn [getAllTables_loop] in E; [injection E as <-; exact H|]. apply wbind_ok in E as [[rows cs'] [_ E]]. apply wbind_ok in E as [tm1 [E1 E]].
  eapply IH; [|exact E]. eapply fresh_tables; [exact H|exact E1].
Qed.
Lemma fresh_dict fuel rt file tm e : snd (ParseDictPage fuel rt file) = Ok (tm, e) -> fresh_map tm.
Proof.
  intro E. unfold ParseDictPage in E. apply wbind_ok in E as [[pages er] [_ E]]. destruct er as [x|]; [injection E as <- _; constructor|].
  apply wbind_ok in E as [sp [_ E]]. apply wbind_ok in E as [DP [_ E]]. apply wbind_ok in E as [[tm1 e1] [E1 E]].
  assert (F1 : fresh_map tm1).
  { unfold getAllTables in E1. destruct (mget DP SysTablesIdx); [|injection E1 as <- _; constructor]. apply wbind_ok in E1 as [tm' [X E1]]. injection E1 as <- _. eapply fresh_loop; [|exact X]. constructor. }
  destruct e1 as [x|]; [injection E as <- _; exact F1|]. apply wbind_ok in E as [[tm2 e2] [E2 E]].
  assert (F2 : fresh_map tm2).
  { unfold getAllColumns in E2. destruct (mget DP SysColumnsIdx); [|injection E2 as <- _; exact F1]. apply wbind_ok in E2 as [rows [_ E2]]. apply wbind_ok in E2 as [tm' [X E2]]. injection E2 as <- _. exact (fresh_columns _ _ _ F1 X). }
  destruct e2 as [x|]; [injection E as <- _; exact F2|]. apply wbind_ok in E as [[tm3 e3] [E3 E]].
  assert (F3 : fresh_map tm3).
  { unfold getAllIndexes in E3. destruct (mget DP SysIndexesIdx); [|injection E3 as <- _; exact F2]. apply wbind_ok in E3 as [rows [_ E3]]. exact (fresh_indexes _ _ _ _ F2 E3). }
  destruct e3 as [x|]; [injection E as <- _; exact F3|]. apply wbind_ok in E as [[tm4 e4] [E4 E]].
  assert (F4 : fresh_map tm4).
  { unfold getAllFields in E4. destruct (mget DP SysFieldsIdx); [|injection E4 as <- _; exact F3]. apply wbind_ok in E4 as [rows [_ E4]]. apply wbind_ok in E4 as [m [_ E4]]. injection E4 as <- _. now apply fresh_attach. }
  destruct e4 as [x|]; [injection E as <- _; exact F4|]. apply wbind_ok in E as [tm5 [E5 E]]. injection E as <- _. unfold finishDict, sortColumns in E5. cbn [snd wlift] in E5. ok E5.
  eapply fresh_adds; [|exact E5]. exact (fresh_moves _ _ F4 E).
Qed.
Lemma fresh_table tm db tb : fresh_map tm -> Forall fresh (getTableColumnsFromDict tm db tb).
Proof.
  unfold getTableColumnsFromDict. assert (K : forall tm cs, fresh_map tm -> Forall fresh cs -> Forall fresh (fold_left (fun columns kt => if beq (t_db (snd kt)) db && beq (t_name (snd kt)) tb then t_columns (snd kt) else columns) tm cs)).
  { clear. induction tm as [|[k t] tm IH]; intros cs H Hc; cbn [fold_left]; [exact Hc|]. inversion H as [|? ? H1 H2]; subst. apply IH; [exact H2|]. destruct (_ && _); [exact H1|exact Hc]. }
  intro H. apply K; [exact H|constructor].
Qed.

(** * Rows *)
Definition same_place (c0 c : Column) : Prop :=
  c_name c = c_name c0 /\ c_type c = c_type c0 /\ c_mysql c = c_mysql c0
  /\ (c_type c0 = innodb_geometry -> is_null_value (c_value c) = true /\ c_binary c = false).
Lemma same_refl c : fresh c -> same_place c c.
Proof. intros [V B]. repeat split; auto. now rewrite V. Qed.
Lemma same_field rt o offs i c0 c c' : same_place c0 c -> snd (parseField rt o offs i c) = Ok c' -> same_place c0 c'.
Proof.
  intros (N & T & M & G) E. unfold parseField in E. apply wbind_ok in E as [[d n] [_ E]]. destruct (len d <? n).
  - destruct (n =? 4294967295); injection E as <-; repeat split; auto; now apply G.
  - apply wbind_ok in E as [[v b] [E1 E]]. injection E as <-. repeat split; auto; cbn [set_value c_value c_binary].
    + rewrite nil_value in E1 by (rewrite T, H; unfold innodb_geometry; cbn; lia). injection E1 as <- _. reflexivity.
    + rewrite nil_value in E1 by (rewrite T, H; unfold innodb_geometry; cbn; lia). injection E1 as _ <-. now apply G.
Qed.
Lemma same_fields rt o offs cs0 : forall cs i cs', Forall2 same_place cs0 cs -> snd (parseFields rt o offs i cs) = Ok cs' -> Forall2 same_place cs0 cs'.
Proof.
  intros cs. revert cs0. induction cs as [|c cs IH]; intros cs0 i cs' H E; cbn [parseFields] in E; inversion H as [|c0 ? cs0' ? H1 H2]; subst; [injection E as <-; constructor|].
  apply wbind_ok in E as [c' [E1 E]]. apply wbind_ok in E as [cs2 [E2 E]]. injection E as <-. constructor; [exact (same_field _ _ _ _ _ _ _ H1 E1)|exact (IH _ _ _ H2 E2)].
Qed.
Lemma same_record rt tm data off cs0 cs cs' : Forall2 same_place cs0 cs -> snd (parsePage_record rt tm data off cs) = Ok (Some cs') -> Forall2 same_place cs0 cs'.
Proof.
  intros H E. unfold parsePage_record, parseRecords in E. apply wbind_ok in E as [origin [_ E]]. apply wbind_ok in E as [cp [_ E]]. apply wbind_ok in E as [[offs|] [_ E]]; [|discriminate].
  apply wbind_ok in E as [[] [_ E]]; [|discriminate]. apply wbind_ok in E as [c [E1 E]]. apply wbind_ok in E as [? [_ E]]. injection E as <-.
  apply wbind_ok in E1 as [c1 [E1 E]]. apply wbind_ok in E as [? [_ E]]. injection E as <-. exact (same_fields _ _ _ _ _ _ _ H E1).
Qed.
Lemma same_loop rt tm data sup cs0 fuel : forall off cs rows cs', Forall2 same_place cs0 cs -> snd (parsePage_loop fuel rt tm data sup off cs) = Ok (rows, cs') ->
  Forall (Forall2 same_place cs0) rows /\ Forall2 same_place cs0 cs'.
Proof.
  induction fuel as [|f IH]; intros off cs rows cs' H E; cbn [parsePage_loop] in E; [discriminate|].
  destruct ((off <? 16384 - 6) && negb (off =? sup)).
  - apply wbind_ok in E as [[c|] [E1 E]]; [|injection E as <- <-; split; [constructor|exact H]]. pose proof (same_record _ _ _ _ _ _ _ H E1) as Hc.
    apply wbind_ok in E as [[off'|] [_ E]]; [|injection E as <- <-; split; [constructor; [exact Hc|constructor]|exact Hc]].
    apply wbind_ok in E as [[rows' cs''] [E2 E]]. injection E as <- <-. destruct (IH _ _ _ _ Hc E2) as [A B]. split; [now constructor|exact B].
  - apply wbind_ok in E as [? [_ E]]. injection E as <- <-. split; [constructor|exact H].
Qed.
Lemma same_page fuel rt tm data cs0 cs r free rows cs' : Forall2 same_place cs0 cs -> snd (parsePage fuel rt tm data cs r free) = Ok (rows, cs') ->
  Forall (Forall2 same_place cs0) rows /\ Forall2 same_place cs0 cs'.
Proof. intros H E. unfold parsePage in E. apply wbind_ok in E as [cp [_ E]]. apply wbind_ok in E as [b [_ E]]. exact (same_loop _ _ _ _ _ _ _ _ _ _ H E). Qed.

(** * Statements *)
Lemma internal_spec c : internal c = internal_name (c_name c).
Proof.
  unfold internal, internal_name. cbn [existsb]. rewrite orb_false_r, orb_assoc.
  assert (K : forall n m, (if list_eq_dec Z.eq_dec n m then true else false) = beq n m).
  { intros n m. destruct (list_eq_dec Z.eq_dec n m) as [->|N]; symmetry; [now apply beq_eq|]. apply not_true_iff_false. intro X. apply N. now apply beq_eq. }
  now rewrite !K.
Qed.
Lemma same_text rt c0 c : same_place c0 c -> geometry c0 -> column_text rt c = txt "NULL".
Proof.
  intros (N & T & M & G) [H1 H2]. destruct (G H1) as [V B]. unfold column_text. rewrite M, H2, V, B. reflexivity.
Qed.
Lemma same_texts rt cs0 cs : Forall2 same_place cs0 cs ->
  exists vs, Forall2 (fun c v => geometry c -> v = txt "NULL") (user_columns cs0) vs /\ columns_text rt true cs = listed vs /\ columns_text rt false cs = match vs with [] => [] | _ => txt "," ++ listed vs end.
Proof.
  induction 1 as [|c0 c cs0 cs H HF [vs [V1 [V2 V3]]]]; [exists []; repeat split; constructor|].
  assert (N : internal c0 = internal_name (c_name c)) by (rewrite internal_spec; destruct H as [-> _]; reflexivity).
  unfold user_columns in *. cbn [filter columns_text]. rewrite N. destruct (internal_name (c_name c)); cbn [negb]; [exists vs; auto|].
  exists (column_text rt c :: vs). split; [constructor; [intro G; exact (same_text _ _ _ H G)|exact V1]|].
  assert (E : column_text rt c ++ columns_text rt false cs = listed (column_text rt c :: vs)) by (rewrite V3; destruct vs; [apply app_nil_r|reflexivity]).
  split; [exact E|]. rewrite <- E. reflexivity.
Qed.
Lemma same_statement rt db tb cs0 cs : Forall2 same_place cs0 cs -> null_geometry db tb cs0 (replace_statement rt tb db cs).
Proof.
  intro H. destruct (same_texts rt cs0 cs H) as [vs [V1 [V2 _]]]. exists vs. split; [|exact V1]. unfold replace_statement, statement, heading. rewrite V2, <- !app_assoc. reflexivity.
Qed.
Lemma out_pages fuel rt tm db tb r cs0 : forall pages cs, Forall2 same_place cs0 cs ->
  wout (fun l => l = decimal_message \/ null_geometry db tb cs0 l) (dataPages_loop fuel rt tm pages db tb r cs).
Proof.
  set (D := fun l => l = decimal_message \/ null_geometry db tb cs0 l).
  assert (Q : forall cs : list Column, Forall (quiet D) cs) by (intro cs; apply Forall_forall; intros x _ _ _; left; reflexivity).
  induction pages as [|p ps IH]; intros cs H; cbn [dataPages_loop]; [apply wo_ret|]. apply wo_bind; [apply wo_lift|]. intros ph _.
  destruct (page_selected p ph r); [|apply IH, H]. apply wo_bind; [exact (proj1 (wo_page D rt fuel tm (pg_orig p) cs r (ph_free ph) (Q cs)))|]. intros [rows cs'] E.
  destruct (same_page _ _ _ _ _ _ _ _ _ _ H E) as [F1 F2]. apply wo_bind; [|intros _ _; apply IH, F2]. destruct (Nat.eqb (List.length rows) 0); [apply wo_ret|].
  unfold makeReplaceIntoStatement, wout. cbn [fst]. apply Forall_forall. intros l Hl. apply in_map_iff in Hl as [row [<- Hr]]. right. apply same_statement. rewrite Forall_forall in F1. now apply F1.
Qed.
Lemma out_data fuel rt tm file db tb r : fresh_map tm ->
  wout (fun l => l = decimal_message \/ null_geometry db tb (getTableColumnsFromDict tm db tb) l) (ParseDataPage fuel rt tm file db tb r).
Proof.
  intro H. unfold ParseDataPage. apply wo_bind; [apply wo_lift|]. intros [pages [e|]] _; [apply wo_ret|]. apply wo_bind; [|intros _ _; apply wo_ret]. apply out_pages.
  pose proof (fresh_table tm db tb H) as F. induction F as [|c cs Hc F IH]; constructor; [now apply same_refl|exact IH].
Qed.
Lemma table_columns tm db tb : (exists k t, In (k, t) tm /\ t_db t = db /\ t_name t = tb /\ getTableColumnsFromDict tm db tb = t_columns t)
  \/ ((forall k t, In (k, t) tm -> ~ (t_db t = db /\ t_name t = tb)) /\ getTableColumnsFromDict tm db tb = []).
Proof.
  unfold getTableColumnsFromDict. induction tm as [|[k t] tm IH] using rev_ind; [right; split; [intros ? ? []|reflexivity]|]. rewrite fold_left_app. cbn [fold_left snd].
  destruct (beq (t_db t) db && beq (t_name t) tb) eqn:E.
  - apply andb_true_iff in E as [E1 E2]. apply beq_eq in E1, E2. left. exists k, t. repeat split; try assumption. apply in_or_app. right. now left.
  - destruct IH as [(k' & t' & H1 & H2 & H3 & H4)|[H1 H2]].
    + left. exists k', t'. repeat split; try assumption. apply in_or_app. now left.
    + right. split; [|exact H2]. intros k' t' X [Y1 Y2]. apply in_app_or in X as [X|[X|[]]]; [exact (H1 _ _ X (conj Y1 Y2))|]. injection X as <- <-.
      apply beq_eq in Y1, Y2. rewrite Y1, Y2 in E. discriminate.
Qed.

(** * C137 *)
(** Full statement: the GEOMETRY values of a table are recovered.  False,
    always: whatever the files, a line for a table of the dictionary is the
    message about DECIMAL or a statement that has NULL for every GEOMETRY
    column, whatever the record holds. *)
Theorem C137_null_refuted : forall fuel rt files op sys tfile db tb tm,
  snd (ParseDictPage fuel rt (files sys)) = Ok (tm, None) ->
  exists cs lines,
    ((exists k t, In (k, t) tm /\ t_db t = db /\ t_name t = tb /\ cs = t_columns t) \/ ((forall k t, In (k, t) tm -> ~ (t_db t = db /\ t_name t = tb)) /\ cs = []))
    /\ (fst (FromDataFile fuel rt files op sys tfile db tb) = lines \/
        exists e, snd (ParseDataPage fuel rt tm (files tfile) db tb (is_recovery op)) = Ok (Some e) /\ fst (FromDataFile fuel rt files op sys tfile db tb) = lines ++ [e])
    /\ Forall (fun line => line = decimal_message \/ null_geometry db tb cs line) lines.
Proof.
  intros fuel rt files op sys tfile db tb tm E. pose proof (fresh_dict _ _ _ _ _ E) as F. pose proof (out_data fuel rt tm (files tfile) db tb (is_recovery op) F) as HO.
  exists (getTableColumnsFromDict tm db tb), (fst (ParseDataPage fuel rt tm (files tfile) db tb (is_recovery op))).
  split; [exact (table_columns tm db tb)|]. split; [|exact HO]. unfold FromDataFile. pose proof (dict_silent rt fuel (files sys)) as Hd.
  destruct (ParseDictPage fuel rt (files sys)) as [o r]. cbn [fst snd] in Hd, E. subst o r. cbn [wbind].
  destruct (ParseDataPage fuel rt tm (files tfile) db tb (is_recovery op)) as [o [[e|]| |]]; cbn [fst snd].
  - right. exists e. split; reflexivity.
  - left. cbn. now rewrite app_nil_r.
  - left. reflexivity.
  - left. reflexivity.
Qed.
Print Assumptions C137_null_refuted.

(** * The other columns *)
(** Columns of fixed length stored in the record, by other bytes: the same
    ones are NULL and the lengths are the same. *)
Definition same_shape (f g : stored) : Prop :=
  match f, g with FNull, FNull => True | FBytes a, FBytes b => zlen a = zlen b | _, _ => False end.
Definition fixed_layout (l : layout) : Prop := exists n, l_fixed l = Some n.
Lemma lengths_two : forall ls fs ls2 fs2, List.length ls = List.length fs -> lengths (ls ++ ls2) (fs ++ fs2) = lengths ls fs ++ lengths ls2 fs2.
Proof. induction ls as [|l ls IH]; intros [|f fs] ls2 fs2 H; try discriminate; [reflexivity|]. cbn [app lengths]. rewrite IH by (now injection H). apply app_assoc. Qed.
Lemma flags_two : forall ls fs ls2 fs2, List.length ls = List.length fs -> null_flags (ls ++ ls2) (fs ++ fs2) = null_flags ls fs ++ null_flags ls2 fs2.
Proof. induction ls as [|l ls IH]; intros [|f fs] ls2 fs2 H; try discriminate; [reflexivity|]. cbn [app null_flags]. rewrite IH by (now injection H). apply app_assoc. Qed.
Lemma lengths_fixed ls : Forall fixed_layout ls -> forall fs, Forall2 fits ls fs -> lengths ls fs = [].
Proof.
  induction 1 as [|l ls [n Hn] _ IH]; intros fs HF; inversion HF as [|? f ? fs' H1 H2]; subst; [reflexivity|]. cbn [lengths]. rewrite (IH _ H2), app_nil_r.
  unfold length_bytes. rewrite Hn. now destruct f.
Qed.
Lemma shape_fits ls : Forall fixed_layout ls -> forall fs gs, Forall2 fits ls fs -> Forall2 same_shape fs gs -> Forall2 fits ls gs /\ null_flags ls gs = null_flags ls fs.
Proof.
  induction 1 as [|l ls [n Hn] _ IH]; intros fs gs HF HS; inversion HF as [|? f ? fs' H1 H2]; subst; inversion HS as [|? g ? gs' S1 S2]; subst; [split; [constructor|reflexivity]|].
  destruct (IH _ _ H2 S2) as [A B]. cbn [null_flags]. rewrite B. unfold fits, same_shape in *. rewrite Hn in *.
  destruct f, g; try contradiction; (split; [constructor; [rewrite ?Hn; congruence|exact A]|reflexivity]).
Qed.
(** Any record with a GEOMETRY of 12 or more bytes, columns of fixed length
    behind it: as a record in which the GEOMETRY has 12 bytes and the columns
    behind it start with its 13th byte. *)
Lemma geometry_at page off ls1 l ls2 fs1 v fs2 gs rest :
  compact_at page off (ls1 ++ l :: ls2) (fs1 ++ FBytes v :: fs2) -> List.length ls1 = List.length fs1 -> l_fixed l = None -> 12 <= zlen v ->
  Forall fixed_layout ls2 -> Forall2 same_shape fs2 gs -> skipn 12 v ++ body fs2 = body gs ++ rest ->
  compact_at page off (ls1 ++ mkLayout (l_nullable l) (Some 12) false :: ls2) (fs1 ++ FBytes (firstn 12 v) :: gs).
Proof.
  intros (pre & header & post & Epage & Hpre & Hhd & Hoff & HF) Hll Hl Hv H2 HS Hb. set (l' := mkLayout (l_nullable l) (Some 12) false).
  apply Forall2_app_inv_l in HF. destruct HF as [a [b [F1 [F2 E]]]]. inversion F2 as [|? y ? b' Hy Hr]; subst b.
  assert (La : List.length fs1 = List.length a) by (rewrite <- Hll; exact (forall2_length _ _ _ F1)).
  assert (fs1 = a /\ FBytes v :: fs2 = y :: b') as [<- E2].
  { clear - E La. revert a E La. induction fs1 as [|f fs1 IH]; intros [|x a] E La; try discriminate; [split; [reflexivity|exact E]|]. cbn [app] in E. injection E as <- E.
    destruct (IH a E ltac:(now injection La)) as [<- X]. split; [reflexivity|exact X]. }
  injection E2 as <- <-. destruct (shape_fits ls2 H2 _ _ Hr HS) as [G1 G2].
  assert (EL : lengths (ls1 ++ l :: ls2) (fs1 ++ FBytes v :: fs2) = lengths ls1 fs1 ++ length_bytes l (FBytes v)) by (rewrite lengths_two by exact Hll; cbn [lengths]; rewrite (lengths_fixed ls2 H2 _ Hr); now rewrite app_nil_r).
  assert (EL' : lengths (ls1 ++ l' :: ls2) (fs1 ++ FBytes (firstn 12 v) :: gs) = lengths ls1 fs1) by (rewrite lengths_two by exact Hll; cbn [lengths]; rewrite (lengths_fixed ls2 H2 _ G1); apply app_nil_r).
  assert (EN : null_flags (ls1 ++ l' :: ls2) (fs1 ++ FBytes (firstn 12 v) :: gs) = null_flags (ls1 ++ l :: ls2) (fs1 ++ FBytes v :: fs2)) by (rewrite !flags_two by exact Hll; cbn [null_flags]; rewrite G2; reflexivity).
  assert (EC : nullable_count (ls1 ++ l' :: ls2) = nullable_count (ls1 ++ l :: ls2)) by (unfold nullable_count; rewrite !filter_app; unfold zlen; rewrite !app_length; cbn [filter l' l_nullable]; now destruct (l_nullable l)).
  assert (EB : body (fs1 ++ FBytes v :: fs2) = body (fs1 ++ FBytes (firstn 12 v) :: gs) ++ rest).
  { unfold body in *. rewrite !flat_map_app. cbn [flat_map content]. rewrite <- !app_assoc, <- Hb. f_equal. rewrite app_assoc, firstn_skipn. reflexivity. }
  exists (pre ++ rev (length_bytes l (FBytes v))), header, (rest ++ post). rewrite EL', EN, EC. rewrite EL, EB, rev_app_distr in Epage. rewrite EL in Hoff. repeat split.
  - rewrite Epage, <- !app_assoc. reflexivity.
  - unfold zlen in *. rewrite app_length. lia.
  - exact Hhd.
  - rewrite Hoff. unfold zlen. rewrite !app_length, rev_length. lia.
  - apply Forall2_app; [exact F1|]. constructor; [|exact G1]. unfold fits. cbn [l' l_fixed]. unfold zlen in *. rewrite firstn_length_le; lia.
Qed.
Theorem C137_place_partial : forall rt tm page off cols1 c cols2 ls1 l ls2 fs1 v fs2 gs rest table c0 row,
  compact_page page -> compact_at page off (ls1 ++ l :: ls2) (fs1 ++ FBytes v :: fs2) -> 12 <= zlen v ->
  Forall2 describes cols1 ls1 -> geometry c -> c_len c = 12 -> c_null c = l_nullable l -> l_fixed l = None ->
  Forall2 describes cols2 ls2 -> Forall fixed_layout ls2 ->
  Forall2 same_shape fs2 gs -> skipn 12 v ++ body fs2 = body gs ++ rest ->
  Forall2 same_column (cols1 ++ c :: cols2) (t_columns table) -> t_nullcount table = nullable_count (ls1 ++ l :: ls2) ->
  (3 <= List.length (cols1 ++ c :: cols2))%nat -> hd_error cols1 = Some c0 -> mget tm (c_table c0) = Some table -> List.length ls1 = List.length fs1 ->
  row_of rt (skipn (Z.to_nat (off + zlen (body (fs1 ++ FBytes (firstn 12 v) :: gs)))) page) (cols1 ++ c :: cols2)
    (ls1 ++ mkLayout (l_nullable l) (Some 12) false :: ls2) (fs1 ++ FBytes (firstn 12 v) :: gs) row ->
  parsePage_record rt tm page off (cols1 ++ c :: cols2) = (remarks (cols1 ++ c :: cols2) (fs1 ++ FBytes (firstn 12 v) :: gs), Ok (Some row)).
Proof.
  intros rt tm page off cols1 c cols2 ls1 l ls2 fs1 v fs2 gs rest table c0 row Hp Hat Hv HD1 [Hc1 Hc2] Hc3 Hc4 Hl HD2 H2 HS Hb HT Hn H3 H0 Ht Hll HR.
  assert (HD : Forall2 describes (cols1 ++ c :: cols2) (ls1 ++ mkLayout (l_nullable l) (Some 12) false :: ls2)).
  { apply Forall2_app; [exact HD1|]. constructor; [|exact HD2]. split; [exact Hc4|]. cbn [l_fixed]. rewrite Hc1, Hc3. split; [discriminate|]. split; [reflexivity|]. unfold innodb_geometry. cbn. lia. }
  apply (C34_row rt tm page off _ (ls1 ++ mkLayout (l_nullable l) (Some 12) false :: ls2) (fs1 ++ FBytes (firstn 12 v) :: gs) table c0); try assumption.
  - exact (geometry_at _ _ _ _ _ _ _ _ _ _ Hat Hll Hl Hv H2 HS Hb).
  - now apply (same_columns_describe (cols1 ++ c :: cols2)).
  - rewrite Hn. unfold nullable_count. rewrite !filter_app. unfold zlen. rewrite !app_length. cbn [filter l_nullable]. now destruct (l_nullable l).
  - destruct cols1; [discriminate|exact H0].
Qed.
Print Assumptions C137_place_partial.
(** In particular: with the GEOMETRY as the last column all the others are
    read as they are without it. *)
Theorem C137_last_partial : forall rt tm page off cols c ls l fs v table c0 row,
  compact_page page -> compact_at page off (ls ++ [l]) (fs ++ [FBytes v]) -> 12 <= zlen v ->
  Forall2 describes cols ls -> geometry c -> c_len c = 12 -> c_null c = l_nullable l -> l_fixed l = None ->
  Forall2 same_column (cols ++ [c]) (t_columns table) -> t_nullcount table = nullable_count (ls ++ [l]) ->
  (2 <= List.length cols)%nat -> hd_error cols = Some c0 -> mget tm (c_table c0) = Some table ->
  row_of rt (skipn (Z.to_nat (off + zlen (body fs))) page) cols ls fs row ->
  parsePage_record rt tm page off (cols ++ [c]) = (remarks cols fs, Ok (Some (row ++ [set_value c VNil (c_binary c)]))).
Proof.
  intros rt tm page off cols c ls l fs v table c0 row Hp Hat Hv HD Hg Hc3 Hc4 Hl HT Hn H2 H0 Ht HR.
  assert (Hll : List.length ls = List.length fs).
  { destruct Hat as (? & ? & ? & _ & _ & _ & _ & HF). apply forall2_length in HF. rewrite !app_length in HF. cbn in HF. lia. }
  assert (Hlc : List.length cols = List.length fs) by (rewrite (forall2_length _ _ _ HD); exact Hll).
  replace (remarks cols fs) with (remarks (cols ++ [c]) (fs ++ [FBytes (firstn 12 v)])).
  2: { rewrite remarks_app by exact Hlc. cbn [remarks]. unfold remark. destruct Hg as [-> _]. cbn. now rewrite app_nil_r. }
  pose proof (geometry_at _ _ _ _ _ _ _ _ [] (skipn 12 v) Hat Hll Hl Hv (Forall_nil _) (Forall2_nil _) (app_nil_r _)) as Hat'.
  apply (C137_place_partial rt tm page off cols c [] ls l [] fs v [] [] (skipn 12 v) table c0); try assumption; try constructor.
  - apply app_nil_r.
  - rewrite app_length. cbn. lia.
  - apply row_snoc; [discriminate|destruct Hg as [Hg _]; apply nil_value; rewrite Hg; unfold innodb_geometry; cbn; lia|]. cbn [content].
    replace (firstn 12 v ++ _) with (skipn (Z.to_nat (off + zlen (body fs))) page); [exact HR|].
    destruct (compact_skip page off _ _ Hat') as [post' [Hsk [Ho0 _]]].
    assert (Ha : forall k, 0 <= k -> skipn (Z.to_nat (off + k)) page = skipn (Z.to_nat k) (skipn (Z.to_nat off) page)).
    { intros k Hk. rewrite skipn_skipn. f_equal. lia. }
    rewrite !Ha by (unfold zlen; lia). rewrite Hsk. unfold zlen. rewrite !Nat2Z.id.
    rewrite (skipn_app_exact (List.length (body (fs ++ [FBytes (firstn 12 v)])))) by reflexivity.
    unfold body. rewrite flat_map_app, <- app_assoc, skipn_app_exact by reflexivity. cbn [flat_map content]. now rewrite app_nil_r.
Qed.
Print Assumptions C137_last_partial.
(** But a column behind a GEOMETRY is read from the GEOMETRY's own bytes: an
    INT is the number that the 13th to the 16th of them make, whichever number
    [i] is stored for it. *)
Theorem C137_behind_refuted : forall rt tm page off cols c n ls l l2 fs a w b i table c0 row,
  compact_page page -> compact_at page off (ls ++ [l; l2]) (fs ++ [FBytes (a ++ store_int 4 w ++ b); FBytes (store_int 4 i)]) -> zlen a = 12 ->
  - 2 ^ 31 <= w < 2 ^ 31 ->
  Forall2 describes cols ls -> geometry c -> c_len c = 12 -> c_null c = l_nullable l -> l_fixed l = None ->
  describes n l2 -> l_fixed l2 = Some 4 -> c_type n = innodb_int -> c_mysql n = 3 -> c_unsigned n = false ->
  Forall2 same_column (cols ++ [c; n]) (t_columns table) -> t_nullcount table = nullable_count (ls ++ [l; l2]) ->
  (1 <= List.length cols)%nat -> hd_error cols = Some c0 -> mget tm (c_table c0) = Some table ->
  row_of rt (skipn (Z.to_nat (off + zlen (body fs))) page) cols ls fs row ->
  exists g, parsePage_record rt tm page off (cols ++ [c; n]) = (remarks cols fs, Ok (Some (row ++ [set_value c VNil (c_binary c); set_value n g (c_binary n)])))
    /\ (g = VInt w \/ g = VUint w).
Proof.
  intros rt tm page off cols c n ls l l2 fs a w b i table c0 row Hp Hat Ha Hw HD Hg Hc3 Hc4 Hl Hn1 Hn2 Hn3 Hn4 Hn5 HT Hn H2 H0 Ht HR.
  assert (Hll : List.length ls = List.length fs).
  { destruct Hat as (? & ? & ? & _ & _ & _ & _ & HF). apply forall2_length in HF. rewrite !app_length in HF. cbn in HF. lia. }
  assert (Hlc : List.length cols = List.length fs) by (rewrite (forall2_length _ _ _ HD); exact Hll).
  set (v := a ++ store_int 4 w ++ b) in *.
  assert (Ls : forall x, List.length (store_int 4 x) = 4%nat) by (intro x; unfold store_int; cbn; try rewrite be_length; reflexivity).
  assert (Va : firstn 12 v = a) by (unfold v; apply firstn_app_exact; unfold zlen in Ha; lia).
  assert (Vb : skipn 12 v = store_int 4 w ++ b) by (unfold v; apply skipn_app_exact; unfold zlen in Ha; lia).
  assert (Hv : 12 <= zlen v) by (unfold v, zlen in *; rewrite app_length; lia).
  set (gs := [FBytes (store_int 4 w)]). set (rest := b ++ store_int 4 i).
  assert (HS : Forall2 same_shape [FBytes (store_int 4 i)] gs) by (constructor; [unfold same_shape, zlen; now rewrite !Ls|constructor]).
  assert (Hb : skipn 12 v ++ body [FBytes (store_int 4 i)] = body gs ++ rest) by (rewrite Vb; unfold gs, rest; cbn [body flat_map content]; rewrite !app_nil_r, <- app_assoc; reflexivity).
  assert (HX : Forall fixed_layout [l2]) by (constructor; [now exists 4|constructor]).
  pose proof (geometry_at _ _ _ _ _ _ _ _ gs rest Hat Hll Hl Hv HX HS Hb) as Hat'.
  destruct (C09_signed_int rt 3 4 w (skipn (Z.to_nat (off + zlen (body (fs ++ FBytes a :: gs)))) page) (c_binary n)) as [g [Eg [Gg _]]]; [cbn; tauto|discriminate|discriminate|cbn; lia|].
  exists g. split; [|exact Gg].
  replace (remarks cols fs) with (remarks (cols ++ [c; n]) (fs ++ FBytes (firstn 12 v) :: gs)).
  2: { rewrite remarks_app by exact Hlc. unfold gs. cbn [remarks]. unfold remark. destruct Hg as [-> _]. rewrite Hn3. cbn. now rewrite app_nil_r. }
  apply (C137_place_partial rt tm page off cols c [n] ls l [l2] fs v [FBytes (store_int 4 i)] gs rest table c0); try assumption.
  - constructor; [exact Hn1|constructor].
  - rewrite app_length. cbn. lia.
  - rewrite Va in *. unfold gs.
    replace (cols ++ [c; n]) with ((cols ++ [c]) ++ [n]) by (rewrite <- app_assoc; reflexivity).
    replace (ls ++ [mkLayout (l_nullable l) (Some 12) false; l2]) with ((ls ++ [mkLayout (l_nullable l) (Some 12) false]) ++ [l2]) by (rewrite <- app_assoc; reflexivity).
    replace (fs ++ [FBytes a; FBytes (store_int 4 w)]) with ((fs ++ [FBytes a]) ++ [FBytes (store_int 4 w)]) by (rewrite <- app_assoc; reflexivity).
    replace (row ++ [set_value c VNil (c_binary c); set_value n g (c_binary n)]) with ((row ++ [set_value c VNil (c_binary c)]) ++ [set_value n g (c_binary n)]) by (rewrite <- app_assoc; reflexivity).
    apply row_snoc; [discriminate| |].
    + cbn [content]. rewrite Hn2, Hn3, Hn4, Hn5. unfold zlen. rewrite Ls. unfold gs in Eg. rewrite <- app_assoc. exact Eg.
    + apply row_snoc; [discriminate|destruct Hg as [Hg _]; apply nil_value; rewrite Hg; unfold innodb_geometry; cbn; lia|]. cbn [content].
      replace (a ++ _) with (skipn (Z.to_nat (off + zlen (body fs))) page); [exact HR|].
      destruct (compact_skip page off _ _ Hat') as [post' [Hsk [Ho0 _]]].
      assert (HA : forall k, 0 <= k -> skipn (Z.to_nat (off + k)) page = skipn (Z.to_nat k) (skipn (Z.to_nat off) page)).
      { intros k Hk. rewrite skipn_skipn. f_equal. lia. }
      rewrite !HA by (unfold zlen; lia). rewrite Hsk. unfold zlen. rewrite !Nat2Z.id, <- !app_assoc. unfold gs. cbn [app].
      rewrite (skipn_app_exact (List.length (body (fs ++ [FBytes a; FBytes (store_int 4 w)])))) by reflexivity.
      unfold body. rewrite flat_map_app, <- app_assoc, skipn_app_exact by reflexivity. cbn [flat_map content]. rewrite app_nil_r, <- !app_assoc. reflexivity.
Qed.
Print Assumptions C137_behind_refuted.

(** A table with an INT key, a POINT and an INT: the row with 5, the point
    (1, 1) and 7.  A POINT has 25 bytes: 4 for the reference system, one for
    the order, 4 for the kind and 8 for each coordinate. *)
Definition point_value : list Z := [0; 0; 0; 0; 1; 1; 0; 0; 0] ++ [0; 0; 0; 0; 0; 0; 240; 63] ++ [0; 0; 0; 0; 0; 0; 240; 63].
Definition place_cols : list Column := [dcol "id" 6 3 4 false; dcol "DB_TRX_ID" 0 0 6 false; dcol "DB_ROLL_PTR" 0 0 7 false; dcol "p" innodb_geometry field_geometry 12 false; dcol "n" 6 3 4 false].
Definition place_lays : list layout := [fixed 4; fixed 6; fixed 7; varying false true; fixed 4].
Definition place_row : list stored := [FBytes [128; 0; 0; 5]; FBytes (repeat 1 6); FBytes (repeat 2 7); FBytes point_value; FBytes (store_int 4 7)].
Example C137_case : compact_page (page_of 128 (vmiddle place_lays place_row)) /\ compact_at (page_of 128 (vmiddle place_lays place_row)) 106 place_lays place_row
  /\ point_value = [0; 0; 0; 0; 1; 1; 0; 0; 0; 0; 0; 0] ++ store_int 4 (-2147483408) ++ [63; 0; 0; 0; 0; 0; 0; 240; 63]
  /\ (forall rt after, exists row, row_of rt after (firstn 3 place_cols) (firstn 3 place_lays) (firstn 3 place_row) row)
  /\ (forall rt, exists r, parsePage_record rt [(7, mkTable (txt "d") (txt "t") place_cols [] 0 0)] (page_of 128 (vmiddle place_lays place_row)) 106 place_cols = ([], Ok (Some r))
        /\ map c_value r = [VInt 5; VNil; VNil; VNil; VInt (-2147483408)]
        /\ replace_statement rt (txt "t") (txt "d") r = statement (txt "d") (txt "t") [txt "'5'"; txt "NULL"; txt "'-2147483408'"])
  /\ user_columns place_cols = [dcol "id" 6 3 4 false; dcol "p" innodb_geometry field_geometry 12 false; dcol "n" 6 3 4 false]
  /\ geometry (dcol "p" innodb_geometry field_geometry 12 false).
Proof.
  split; [|split; [|split; [|split; [|split; [|split; [reflexivity|split; reflexivity]]]]]].
  - destruct (page_of_image 128 (vmiddle place_lays place_row)) as [H1 H2]; [lia|apply bytes_check; reflexivity|cbv; discriminate|]. split; [exact H1|rewrite H2; lia].
  - apply (vmiddle_at place_lays place_row); [reflexivity|repeat constructor].
  - reflexivity.
  - intros rt after. eexists. cbn [firstn place_cols place_lays place_row]. eapply row_quiet; [discriminate|exact (int_five rt _)|]. do 2 (eapply row_quiet; [discriminate|reflexivity|]). constructor.
  - intro rt. eexists. split; [vm_compute; reflexivity|]. split; reflexivity.
Qed.

(** * Recovered UPDATE statements *)
(** A statement in which every GEOMETRY column is set to NULL *)
Definition null_update (t : Table) (line : list Z) : Prop :=
  exists cvs rest, line = txt "update `" ++ t_db t ++ txt "`.`" ++ t_name t ++ txt "` set "
      ++ SpecRedo.joined (txt " and ") (map (fun cv => txt "`" ++ c_name (fst cv) ++ txt "`=" ++ snd cv) cvs) ++ txt " where " ++ rest
    /\ Forall (fun cv => In (fst cv) (t_columns t) /\ (geometry (fst cv) -> snd cv = txt "NULL")) cvs.
Definition from_table (t : Table) (c : Column) : Prop := exists c0, In c0 (t_columns t) /\ c_name c = c_name c0 /\ (geometry c0 -> c_value c = VNil).
Lemma by_pos t p c : getColumnByPos t p = Some c -> In c (t_columns t).
Proof. unfold getColumnByPos. intro H. repeat match type of H with (if ?b then _ else _) = _ => destruct b; try discriminate end. exact (nth_error_In _ _ H). Qed.
Lemma column_from rt data spare t : pval (fun r => match r with inl c => from_table t c | inr _ => True end) (undoColumn rt data spare t).
Proof.
  unfold undoColumn. apply pv_bind. intros [[p n] [e|]]; [now apply pv_ret|]. apply pv_bind. intros _. destruct (getColumnByPos t p) as [c|] eqn:E; [|now apply pv_ret]. apply by_pos in E.
  apply pv_bind. intros [[fl n2] e2]. apply pv_bind. intros _. apply pv_bind. intro pos. destruct (_ >? _); [apply pv_ret; exists c; auto|]. apply pv_bind. intro d.
  apply pv_bind' with (R := fun vb => geometry c -> fst vb = VNil).
  - intro s. unfold pw, ParseDataCap. destruct (ParseData _ _ _ _ _ _ _ _) as [o [[v b]| |]] eqn:P; try exact I. intros [G _]. rewrite nil_value in P by (rewrite G; unfold innodb_geometry; cbn; lia). now injection P as _ <- _.
  - intros [v b] Hv. apply pv_bind. intros _. apply pv_ret. exists c. repeat split; auto.
Qed.
Lemma columns_from rt data spare t fuel : forall i n, pval (fun r => Forall (from_table t) (fst r)) (undoColumns fuel rt data spare t i n).
Proof.
  induction fuel as [|f IH]; intros i n; cbn [undoColumns]; [intro s; exact I|]. destruct (i <? n); [|apply pv_ret; constructor].
  eapply pv_bind'; [apply column_from|]. intros [c|e] Hc; [|apply pv_ret; constructor]. eapply pv_bind'; [apply IH|]. intros [cs e] Hcs. apply pv_ret. now constructor.
Qed.
Lemma joined_map {A} (f : A -> bytes) l : join_and (map f l) = SpecRedo.joined (txt " and ") (map f l).
Proof. induction l as [|a [|b l] IH]; try reflexivity. change (join_and (map f (a :: b :: l))) with (f a ++ bs " and " ++ join_and (map f (b :: l))). rewrite IH. reflexivity. Qed.
Lemma update_null rt t keys cols : Forall (from_table t) cols -> null_update t (update_statement rt t keys cols).
Proof.
  intro H. assert (K : exists cvs, map (set_value_text rt) cols = map (fun cv => txt "`" ++ c_name (fst cv) ++ txt "`=" ++ snd cv) cvs /\ Forall (fun cv : Column * bytes => In (fst cv) (t_columns t) /\ (geometry (fst cv) -> snd cv = txt "NULL")) cvs).
  { induction H as [|c cols (c0 & H1 & H2 & H3) _ [cvs [E F]]]; [exists []; split; [reflexivity|constructor]|].
    exists ((c0, match c_value c with VNil => txt "NULL" | v => txt "'" ++ fmt_v rt v ++ txt "'" end) :: cvs). cbn [map fst snd]. split.
    - rewrite E. f_equal. unfold set_value_text. rewrite H2. change (bs "`") with (txt "`"). destruct (c_value c); reflexivity.
    - constructor; [|exact F]. split; [exact H1|]. intro G. cbn [fst snd] in *. now rewrite (H3 G). }
  destruct K as [cvs [E F]]. exists cvs, (join_and (map (where_text rt) keys) ++ bs ";"). split; [|exact F]. unfold update_statement. rewrite joined_map, E. reflexivity.
Qed.
Lemma geo_undo (D : bytes -> Prop) rt tm db tb : D decimal_line -> D err_short_compressed -> (forall k t line, mget tm k = Some t -> null_update t line -> D line) ->
  forall data spare, pout D (mlogUndoInsert rt tm db tb data spare).
Proof.
  intros Hd He Hu data spare. assert (KC : forall t fs, pout D (undoKeys rt data spare t fs)) by (intros t fs; now apply po_keys).
  assert (CC : forall t f i n, pout D (undoColumns f rt data spare t i n)) by (intros t f i n; now apply po_cols).
  unfold mlogUndoInsert, mlogUndoInsert_body, getTableByTableID. apply po_bind; [apply po_readat|intro]. apply po_bind; [apply po_advance|intro]. apply po_bind; [apply po_getpos|intro].
  apply po_recover; [|apply po_bind; [apply po_setpos|intro; apply po_ret]]. apply po_bind; [apply po_readat|intro]. apply po_bind; [apply po_advance|intro]. apply po_bind; [apply po_readat|intros [no [e|]]]; [apply po_bind; [apply po_setpos|intro; apply po_ret]|].
  apply po_bind; [apply po_advance|intro]. apply po_bind; [apply po_readat|intros [id [e|]]]; [apply po_bind; [apply po_setpos|intro; apply po_ret]|]. apply po_bind; [apply po_advance|intro].
  apply po_bind. { destruct (negb _); [|apply po_ret]. apply po_bind; [apply po_readat|intro]. apply po_bind; [apply po_advance|intro]. apply po_bind; [now apply po_ull|intro]. apply po_bind; [now apply po_ull|intro]. apply po_ret. }
  intro. destruct (mget tm id) as [t|] eqn:Et; [|apply po_bind; [apply po_setpos|intro; apply po_ret]].
  apply po_bind; [apply KC|intros [keys [e|]]]; [apply po_ret|].
  apply po_bind; [|intros [e|]; [apply po_ret|]; apply po_bind; [apply po_getpos|intro]; apply po_bind; [destruct (negb _); [apply po_setpos|apply po_ret]|intro; apply po_ret]].
  destruct (_ =? _); [|apply po_ret]. apply po_bind; [now apply po_comp|intros [[v n] [e|]]]; [apply po_ret|]. apply po_bind; [apply po_advance|intro].
  eapply po_bind'; [apply CC|apply columns_from|]. intros [cols [e|]] Hc; [apply po_ret|]. apply po_bind; [|intro; apply po_ret]. destruct (redo_filter db tb t); [|apply po_ret]. apply po_pw, wo_say. eapply Hu; [exact Et|]. now apply update_null.
Qed.
Lemma geo_step (D : bytes -> Prop) rt tm db tb : D decimal_line -> D err_short_compressed -> (forall k t line, mget tm k = Some t -> null_update t line -> D line) ->
  forall data spare, pout D (redo_step rt tm db tb data spare).
Proof.
  intros Hd He Hu data spare. assert (S : forall t, pout D (redo_switch rt tm db tb data spare t)).
  { intro t. unfold redo_switch, mlogNBytes, mlogRecSecDeleteMark, mlogUndoInit, mlogUndoHdrReuse, mlogUndoHdrCreate, mlogWriteString, mlogFileOp, mlogRecInsert, mlogRecClustDeleteMark,
      mlogCompRecSecDeleteMark, mlogRecUpdateInPlace, mlogRecDelete, mlogListDelete, mlogListEndCopyCreated, mlogPageReorganize, mlogZipWriteNodePtr, mlogZipWriteHeader, mlogZipPageCompress, mlogZipPageCompressNoData.
    repeat match goal with |- pout D (if ?b then _ else _) => destruct b end; try (apply po_dropped; now apply geo_undo);
      repeat first [ apply po_ret | apply po_lift | apply po_getpos | apply po_setpos | apply po_advance | apply po_readat | now apply po_comp | now apply po_index | now apply po_insert | now apply po_ull | now apply po_update | now apply po_copy
        | apply po_dropped | apply po_andthen | apply po_bind; [|intro] | apply po_recover | match goal with |- pout _ (match ?x with _ => _ end) => destruct x end ]. }
  unfold redo_step. repeat first [ apply S | apply po_ret | apply po_lift | apply po_getpos | apply po_setpos | apply po_advance | apply po_readat | now apply po_comp | now apply po_ull
        | apply po_dropped | apply po_andthen | apply po_bind; [|intro] | apply po_recover | match goal with |- pout _ (match ?x with _ => _ end) => destruct x end ].
Qed.
(** False of the updates too: whatever the log files hold, a statement that
    undoes a change of a GEOMETRY column sets the column to NULL. *)
Theorem C137_update_refuted : forall rt tm want_db want_tb files spare,
  Forall (fun line => line = decimal_message \/ line = compressed_message \/ exists k t, mget tm k = Some t /\ null_update t line) (fst (ParseRedoLogs rt tm want_db want_tb files spare)).
Proof.
  intros rt tm db tb files spare. set (D := fun line => line = decimal_message \/ line = compressed_message \/ exists k t, mget tm k = Some t /\ null_update t line).
  assert (Hs : forall data, pout D (redo_step rt tm db tb data spare)) by (intro data; apply geo_step; [now left|right; now left|intros k t line H1 H2; right; right; eauto]).
  change (wout D (ParseRedoLogs rt tm db tb files spare)). unfold ParseRedoLogs. apply wo_bind; [apply wo_lift|]. intros [data|e] _; [|apply wo_ret]. unfold parseRedoBlockData, wout.
  assert (L : forall fuel, pout D (redo_loop fuel rt tm db tb data spare)).
  { induction fuel as [|f IH]; cbn [redo_loop]; [apply po_lift|]. apply po_bind; [apply po_getpos|intro]. destruct (_ || _); [apply po_ret|]. apply po_bind; [apply Hs|intros [e|]]; [apply po_ret|apply IH]. }
  specialize (L (S (List.length data)) 0). destruct (redo_loop _ _ _ _ _ _ _ 0) as [[o s'] r]. exact L.
Qed.
Print Assumptions C137_update_refuted.
(** An update of the row with 7 that replaced the point *)
Example C137_update_case : forall rt, let c := dcol "p" innodb_geometry field_geometry 12 false in geometry c /\ In c (t_columns (two_columns c))
  /\ ParseRedoLogs rt [(40, two_columns c)] [] [] [Some (PLog.log_events (update_file point_value))] 0 = ([txt "update `d`.`t` set `p`=NULL where `id`='7';"], Ok None).
Proof. intros rt c. split; [split; reflexivity|]. split; [right; left; reflexivity|]. vm_compute. reflexivity. Qed.

(** * REDUNDANT records *)
Lemma check_false os fs : holds os fs -> len (body fs) < 2 ^ 30 ->
  forall cols i rest j c f, skipn i fs = rest -> List.length cols = List.length rest -> nth_error cols j = Some c -> nth_error rest j = Some f ->
  col_fixed c <> 0 -> c_len c <> 0 -> len (content f) <> col_fixed c -> (len (content f) = 0 -> c_null c = false) -> checkFieldSize os (Z.of_nat i) cols = Ok false.
Proof.
  intros Ho Hb. induction cols as [|c0 cols IH]; intros i rest j c f Hs Hl Hc Hf H1 H2 H3 H4; [destruct j; discriminate|].
  destruct rest as [|f0 rest]; [discriminate|]. destruct (skipn_cons_nth fs i f0 rest Hs) as [Hnth Hskip]. cbn [checkFieldSize]. replace (Z.of_nat i + 1) with (Z.of_nat (S i)) by lia.
  rewrite (nth_size os fs i f0 Ho Hnth Hb). cbn [bind]. destruct j as [|j].
  - cbn in Hc, Hf. injection Hc as ->. injection Hf as ->. replace (col_fixed c =? 0) with false by lia. replace ((len (content f) =? 0) && c_null c) with false by (destruct (Z.eqb_spec (len (content f)) 0) as [X|X]; [rewrite (H4 X)|]; reflexivity). replace (c_len c =? 0) with false by lia. replace (len (content f) =? col_fixed c) with false by lia. reflexivity.
  - cbn in Hc, Hf. rewrite (IH (S i) rest j c f Hskip ltac:(now injection Hl) Hc Hf H1 H2 H3 H4). destruct (negb _); [|reflexivity]. destruct (_ && _); [reflexivity|]. destruct (_ && _); reflexivity.
Qed.
(** A REDUNDANT record with a GEOMETRY that is not NULL is not read: it is
    taken for damaged, because a length of 12 is expected.  With it the rest of
    the page is lost. *)
Theorem C137_redundant_refuted : forall rt tm page off wide cols fs i c v,
  redundant_page page -> redundant_at page off wide fs -> List.length cols = List.length fs -> (3 <= List.length cols)%nat ->
  nth_error cols i = Some c -> nth_error fs i = Some (RBytes v) -> geometry c -> c_len c = 12 -> 12 < zlen v ->
  parsePage_record rt tm page off cols = ([], Ok None)
  /\ forall fuel supremum, off < 16378 -> off <> supremum -> parsePage_loop (S fuel) rt tm page supremum off cols = ([], Ok ([], cols)).
Proof.
  intros rt tm page off wide cols fs i c v [Hpi Hcp] Hat Hlf Hn3 Hc Hf [Hg _] Hc12 Hv.
  destruct (redundant_skip page off wide fs Hat) as [post [Hsk [Ho0 [Hle Hpost]]]].
  pose proof Hpi as [Hpl Hpb]. change (zlen page) with (len page) in Hpl.
  assert (Hbl : len (body (map PRec.plain fs)) = len (rbody fs)) by now rewrite body_plain.
  assert (E0 : parsePage_record rt tm page off cols = ([], Ok None)).
  { unfold parsePage_record. rewrite slice_from_ok by (pose proof (len_nonneg (rbody fs)); lia). rewrite wbind_lift.
    destruct (page_format page Hpi) as [_ [E _]]. rewrite E. clear E. rewrite wbind_lift.
    replace (128 <=? nth 42 page 0) with false by lia. change (0 =? 0) with true. cbv iota.
    rewrite Hlf. destruct (offsets_old page off wide fs Hpb Hat) as [x E]; [lia|lia|]. rewrite E. clear E.
    cbn [bind]. rewrite wbind_lift. cbn beta iota. set (os := [0; _; _] ++ _).
    assert (Hos : holds os (map PRec.plain fs)) by (unfold holds, os; eauto).
    assert (Hfx : col_fixed c = 12) by (unfold col_fixed, GetFixedLength; rewrite Hg, Hc12; reflexivity).
    pose proof (check_false os _ Hos ltac:(lia) cols 0 (map PRec.plain fs) i c (FBytes v) eq_refl ltac:(rewrite map_length; exact Hlf) Hc ltac:(rewrite nth_error_map, Hf; reflexivity) ltac:(lia) ltac:(lia)
      ltac:(cbn [content]; change (@len) with (@zlen); lia) ltac:(cbn [content]; change (@len) with (@zlen); lia)) as Hcs. change (Z.of_nat 0) with 0 in Hcs.
    rewrite Hcs. reflexivity. }
  split; [exact E0|]. intros fuel sup H1 H2. cbn [parsePage_loop]. change (16384 - 6) with 16378. replace (off <? 16378) with true by lia. replace (off =? sup) with false by lia. cbn [negb andb]. rewrite E0. reflexivity.
Qed.
Print Assumptions C137_redundant_refuted.
Definition old_place : list rstored := [RBytes [128; 0; 0; 5]; RBytes (repeat 1 6); RBytes (repeat 2 7); RBytes point_value; RBytes (store_int 4 7)].
Example C137_redundant_case : exists page, redundant_page page /\ redundant_at page 111 false old_place
  /\ forall rt tm, parsePage_record rt tm page 111 place_cols = ([], Ok None).
Proof.
  set (m := rev (ends (2 ^ 7) 0 old_place) ++ [0; 0; 0; 1; 0; 0] ++ rbody old_place). exists (page_of 0 m).
  assert (Hp : redundant_page (page_of 0 m)).
  { destruct (page_of_image 0 m) as [H1 H2]; [lia|apply bytes_check; reflexivity|cbv; discriminate|]. split; [exact H1|rewrite H2; lia]. }
  assert (Ha : redundant_at (page_of 0 m) 111 false old_place).
  { exists (repeat 0 42 ++ [0] ++ repeat 0 57), [0; 0; 0; 1; 0; 0], (repeat 0 (Z.to_nat (16284 - zlen m))).
    cbv zeta. split; [unfold page_of, m; rewrite <- !app_assoc; reflexivity|]. repeat split. }
  split; [exact Hp|]. split; [exact Ha|]. intros rt tm.
  apply (C137_redundant_refuted rt tm (page_of 0 m) 111 false place_cols old_place 3 (dcol "p" innodb_geometry field_geometry 12 false) point_value); try assumption; try reflexivity. { cbn; lia. } split; reflexivity.
Qed.

(** * A text behind a GEOMETRY *)
(** It is read with the length of the GEOMETRY (here below 128 bytes, as every
    POINT has), from the GEOMETRY's 13th byte on: the last bytes of the
    GEOMETRY, then the first 12 of the text and of what follows it. *)
Theorem C137_text_refuted : forall rt tm page off cols c d ls l l2 fs v t after table c0 row,
  compact_page page -> compact_at page off (ls ++ [l; l2]) (fs ++ [FBytes v; FBytes t]) -> 12 <= zlen v < 128 ->
  Forall2 describes cols ls -> geometry c -> c_len c = 12 -> c_null c = l_nullable l -> l_fixed l = None ->
  describes d l2 -> l_fixed l2 = None -> c_type d = innodb_varmysql ->
  after = skipn (Z.to_nat (off + zlen (body (fs ++ [FBytes v; FBytes t])))) page -> 12 <= zlen (t ++ after) ->
  Forall2 same_column (cols ++ [c; d]) (t_columns table) -> t_nullcount table = nullable_count (ls ++ [l; l2]) ->
  (1 <= List.length cols)%nat -> hd_error cols = Some c0 -> mget tm (c_table c0) = Some table ->
  row_of rt (v ++ t ++ after) cols ls fs row ->
  let w := skipn 12 v ++ firstn 12 (t ++ after) in
  parsePage_record rt tm page off (cols ++ [c; d]) = (remarks cols fs, Ok (Some (row ++ [set_value c VNil (c_binary c); set_value d (VStr w) (c_binary d)])))
  /\ (w = t -> zlen t = zlen v).
Proof.
  intros rt tm page off cols c d ls l l2 fs v t after table c0 row Hp Hat Hv HD Hg Hc3 Hc4 Hl Hd Hl2 Hd1 Ea Ha HT Hn H1 H0 Ht HR w.
  set (l' := mkLayout (l_nullable l) (Some 12) false). set (gs := [FBytes (firstn 12 v); FBytes w]).
  assert (Lw : zlen w = zlen v) by (unfold w, zlen in *; rewrite app_length, skipn_length, firstn_length_le; lia).
  split; [|intro X; rewrite <- X; exact Lw].
  destruct (compact_skip page off _ _ Hat) as [post0 [Hs0 [Ho0 [_ Hp0]]]]. change (@len) with (@zlen) in Hp0. rewrite <- Hp0 in Ea. subst post0. clear Hp0.
  pose proof Hat as (pre & header & post & Epage & Hpre & Hhd & Hoff & HF).
  assert (Hll : List.length ls = List.length fs) by (apply forall2_length in HF; rewrite !app_length in HF; cbn in HF; lia).
  assert (Hlc : List.length cols = List.length fs) by (rewrite (forall2_length _ _ _ HD); exact Hll).
  assert (F1 : Forall2 fits ls fs).
  { clear - HF Hll. revert fs Hll HF. induction ls as [|x ls IH]; intros [|f fs] Hll HF; try discriminate; [constructor|]. cbn [app] in HF. inversion HF; subst. constructor; [assumption|]. apply IH; [now injection Hll|assumption]. }
  assert (B1 : forall x y, length_bytes l2 (FBytes x) = [y] \/ zlen x <> y \/ 128 <= zlen x).
  { intros x y. destruct (Z.eq_dec (zlen x) y) as [E|E]; [|now right; left]. destruct (Z_lt_le_dec (zlen x) 128); [left|now right; right]. unfold length_bytes. rewrite Hl2. replace (128 <=? zlen x) with false by lia. rewrite andb_false_r. now rewrite E. }
  assert (Bw : length_bytes l2 (FBytes w) = [zlen v]) by (destruct (B1 w (zlen v)) as [X|[X|X]]; [exact X|lia|lia]).
  assert (Bv : length_bytes l (FBytes v) = [zlen v]) by (unfold length_bytes; rewrite Hl; replace (128 <=? zlen v) with false by lia; now rewrite andb_false_r).
  assert (EL : lengths (ls ++ [l; l2]) (fs ++ [FBytes v; FBytes t]) = (lengths ls fs ++ [zlen v]) ++ length_bytes l2 (FBytes t)) by (rewrite lengths_two by exact Hll; cbn [lengths]; rewrite Bv, app_nil_r, <- app_assoc; reflexivity).
  assert (EL' : lengths (ls ++ [l'; l2]) (fs ++ gs) = lengths ls fs ++ [zlen v]) by (rewrite lengths_two by exact Hll; cbn [lengths gs]; rewrite Bw; reflexivity).
  assert (EN : null_flags (ls ++ [l'; l2]) (fs ++ gs) = null_flags (ls ++ [l; l2]) (fs ++ [FBytes v; FBytes t])) by (rewrite !flags_two by exact Hll; reflexivity).
  assert (EC : nullable_count (ls ++ [l'; l2]) = nullable_count (ls ++ [l; l2])) by (unfold nullable_count; rewrite !filter_app; unfold zlen; rewrite !app_length; cbn [filter l' l_nullable]; now destruct (l_nullable l), (l_nullable l2)).
  assert (EP : post = after).
  { rewrite Epage in Hs0. set (bits := be _ _) in *.
    assert (LB : zlen bits = (nullable_count (ls ++ [l; l2]) + 7) / 8).
    { unfold bits, zlen. rewrite be_length, Z2Nat.id; [reflexivity|]. apply Z.div_pos; [|lia]. unfold nullable_count, zlen. lia. }
    set (L := lengths (ls ++ [l; l2]) (fs ++ [FBytes v; FBytes t])) in *. set (B := body (fs ++ [FBytes v; FBytes t])) in *.
    replace (pre ++ rev L ++ bits ++ header ++ B ++ post) with ((pre ++ rev L ++ bits ++ header) ++ B ++ post) in Hs0 by (rewrite <- !app_assoc; reflexivity).
    rewrite skipn_app_exact in Hs0 by (unfold zlen in *; rewrite !app_length, rev_length; lia). now apply app_inv_head in Hs0. }
  subst post. set (rest := skipn 12 (t ++ after)).
  assert (EB : body (fs ++ [FBytes v; FBytes t]) ++ after = body (fs ++ gs) ++ rest).
  { unfold body, gs. rewrite !flat_map_app. cbn [flat_map content]. rewrite !app_nil_r, <- !app_assoc. f_equal. unfold w, rest. rewrite <- !app_assoc, firstn_skipn, (app_assoc (firstn 12 v)), firstn_skipn. reflexivity. }
  assert (Hat' : compact_at page off (ls ++ [l'; l2]) (fs ++ gs)).
  { exists (pre ++ rev (length_bytes l2 (FBytes t))), header, rest. rewrite EL', EN, EC. rewrite EL, EB, rev_app_distr in Epage. rewrite EL in Hoff. repeat split.
    - rewrite Epage, <- !app_assoc. reflexivity.
    - unfold zlen in *. rewrite app_length. lia.
    - exact Hhd.
    - rewrite Hoff. unfold zlen. rewrite !app_length, rev_length. lia.
    - apply Forall2_app; [exact F1|]. constructor; [unfold fits; cbn [l' l_fixed]; unfold zlen in *; rewrite firstn_length_le; lia|]. constructor; [|constructor]. unfold fits. rewrite Hl2, Lw. destruct (l_big l2); lia. }
  replace (remarks cols fs) with (remarks (cols ++ [c; d]) (fs ++ gs)).
  2: { rewrite remarks_app by exact Hlc. unfold gs. cbn [remarks]. unfold remark. destruct Hg as [-> _]. rewrite Hd1. cbn. now rewrite app_nil_r. }
  assert (HDD : Forall2 describes (cols ++ [c; d]) (ls ++ [l'; l2])).
  { apply Forall2_app; [exact HD|]. constructor; [|constructor; [exact Hd|constructor]]. split; [exact Hc4|]. cbn [l' l_fixed]. destruct Hg as [Hg _]. rewrite Hg, Hc3. split; [discriminate|]. split; [reflexivity|]. unfold innodb_geometry. cbn. lia. }
  apply (C34_row rt tm page off _ (ls ++ [l'; l2]) (fs ++ gs) table c0); try assumption.
  - now apply (same_columns_describe (cols ++ [c; d])).
  - now rewrite EC.
  - rewrite app_length. cbn. lia.
  - destruct cols; [discriminate|exact H0].
  - destruct (compact_skip page off _ _ Hat') as [post' [Hs1 [_ [_ Hp1]]]]. change (@len) with (@zlen) in Hp1. rewrite <- Hp1.
    assert (E1 : post' = rest) by (rewrite Hs0, EB in Hs1; now apply app_inv_head in Hs1). rewrite E1. unfold gs.
    change [set_value c VNil (c_binary c); set_value d (VStr w) (c_binary d)] with ([set_value c VNil (c_binary c)] ++ [set_value d (VStr w) (c_binary d)]).
    change [c; d] with ([c] ++ [d]). change [l'; l2] with ([l'] ++ [l2]). change [FBytes (firstn 12 v); FBytes w] with ([FBytes (firstn 12 v)] ++ [FBytes w]). rewrite !app_assoc.
    apply row_snoc; [discriminate| |].
    + cbn [content]. rewrite Hd1, Hl2. apply C19_text_exact. now right; right; left.
    + apply row_snoc; [discriminate|destruct Hg as [Hg _]; apply nil_value; rewrite Hg; unfold innodb_geometry; cbn; lia|]. cbn [content].
      replace (firstn 12 v ++ w ++ rest) with (v ++ t ++ after); [exact HR|]. unfold w, rest. rewrite <- !app_assoc, firstn_skipn, (app_assoc (firstn 12 v)), firstn_skipn. reflexivity.
Qed.
Print Assumptions C137_text_refuted.
(** A table with an INT key, a POINT and a VARCHAR(20): the row with 5, the
    point (1, 1) and hello *)
Definition shop_cols : list Column := firstn 4 place_cols ++ [dcol "name" innodb_varmysql field_varchar 60 false].
Definition shop_lays : list layout := firstn 4 place_lays ++ [varying false false].
Definition shop_row : list stored := firstn 4 place_row ++ [FBytes (txt "hello")].
Example C137_text_case : compact_page (page_of 128 (vmiddle shop_lays shop_row)) /\ compact_at (page_of 128 (vmiddle shop_lays shop_row)) 107 shop_lays shop_row
  /\ Forall2 describes (firstn 3 shop_cols) (firstn 3 shop_lays) /\ describes (dcol "name" innodb_varmysql field_varchar 60 false) (varying false false)
  /\ forall rt, exists r, parsePage_record rt [(7, mkTable (txt "d") (txt "t") shop_cols [] 0 0)] (page_of 128 (vmiddle shop_lays shop_row)) 107 shop_cols = ([], Ok (Some r))
        /\ map c_value r = [VInt 5; VNil; VNil; VNil; VStr ([0; 0; 0; 240; 63; 0; 0; 0; 0; 0; 0; 240; 63] ++ txt "hello" ++ repeat 0 7)].
Proof.
  split; [|split; [|split; [|split]]].
  - destruct (page_of_image 128 (vmiddle shop_lays shop_row)) as [H1 H2]; [lia|apply bytes_check; reflexivity|cbv; discriminate|]. split; [exact H1|rewrite H2; lia].
  - apply (vmiddle_at shop_lays shop_row); [reflexivity|repeat constructor].
  - repeat constructor; cbn; lia.
  - split; [reflexivity|]. cbn. split; [left; tauto|]. split; [discriminate|intros [X|X]; [lia|discriminate X]].
  - intro rt. eexists. split; [vm_compute; reflexivity|reflexivity].
Qed.
