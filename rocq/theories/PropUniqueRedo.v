(** C130: the log, and tables clustered on a unique key that is not a PRIMARY KEY. *)
From Coq Require Import String ZifyBool.
From Verif Require Import GoBase Utils Ibdata Redo Cmd SpecInno SpecText SpecSql SpecRecord SpecRow SpecPage SpecDict SpecTool SpecCmd SpecUnique
  PBase PWire PValue PText PRec PPage PSql POut PFile PDict PMove PropDict SpecRedo PStep PLog PUndo PropRedo PBuild PTool PropTool PMake PropUnique.
Local Open Scope string_scope.
Local Open Scope list_scope.
Local Open Scope Z_scope.

(** * Conditions end with a quote or with NULL *)
Lemma lex_str_ends : forall n t s r, (List.length t <= n)%nat -> lex_str t = Some (s, r) -> exists p, t = p ++ 39 :: r.
Proof.
  induction n as [|n IH]; intros [|c t] s r L H; try discriminate H; [cbn in L; lia|]. cbn [lex_str] in H. cbn [List.length] in L. destruct (Z.eqb_spec c 39) as [->|_].
  - destruct t as [|x t]; [injection H as <- <-; now exists []|]. destruct (Z.eqb_spec x 39) as [->|_]; [|injection H as <- <-; now exists []].
    destruct (lex_str t) as [[v k]|] eqn:E; [|discriminate]. injection H as <- <-. destruct (IH t v k ltac:(cbn [List.length] in L; lia) E) as [p ->]. now exists (39 :: 39 :: p).
  - destruct (c =? 92).
    + destruct t as [|x t]; [discriminate|]. destruct (lex_str t) as [[v k]|] eqn:E; [|discriminate]. injection H as <- <-. destruct (IH t v k ltac:(cbn [List.length] in L; lia) E) as [p ->]. now exists (c :: x :: p).
    + destruct (lex_str t) as [[v k]|] eqn:E; [|discriminate]. injection H as <- <-. destruct (IH t v k ltac:(lia) E) as [p ->]. now exists (c :: p).
Qed.
Lemma lex_ident_ends : forall n t s r, (List.length t <= n)%nat -> lex_ident t = Some (s, r) -> exists p, t = p ++ r.
Proof.
  induction n as [|n IH]; intros [|c t] s r L H; try discriminate H; [cbn in L; lia|]. cbn [lex_ident] in H. cbn [List.length] in L. destruct (c =? 96).
  - destruct t as [|x t]; [injection H as <- <-; now exists [c]|]. destruct (x =? 96); [|injection H as <- <-; now exists [c]].
    destruct (lex_ident t) as [[v k]|] eqn:E; [|discriminate]. injection H as <- <-. destruct (IH t v k ltac:(cbn [List.length] in L; lia) E) as [p ->]. now exists (c :: x :: p).
  - destruct (lex_ident t) as [[v k]|] eqn:E; [|discriminate]. injection H as <- <-. destruct (IH t v k ltac:(lia) E) as [p ->]. now exists (c :: p).
Qed.
Lemma strip_ends p : forall t r, strip p t = Some r -> t = p ++ r.
Proof. induction p as [|a p IH]; intros t r H; cbn [strip] in H; [now injection H as <-|]. destruct t as [|b t]; [discriminate|]. destruct (Z.eqb_spec a b) as [->|_]; [|discriminate]. cbn [app]. now rewrite (IH t r H). Qed.
Lemma read_plain_ends t v r : read_plain t = Some (v, r) -> exists p c, t = p ++ c :: r /\ c <> 32.
Proof.
  unfold read_plain. destruct (strip (txt "NULL") t) as [k|] eqn:E.
  - intro H. injection H as <- <-. apply strip_ends in E as ->. exists [78; 85; 76], 76. split; [reflexivity|lia].
  - destruct (strip (txt "'") t) as [k|] eqn:E2; [|discriminate]. destruct (lex_str k) as [[s k2]|] eqn:E3; [|discriminate]. intro H. injection H as <- <-. apply strip_ends in E2 as ->.
    destruct (lex_str_ends _ _ _ _ (le_n _) E3) as [p ->]. exists (txt "'" ++ p), 39. split; [now rewrite <- app_assoc|lia].
Qed.
Lemma read_eq_ends t n v r : read_eq t = Some (n, v, r) -> exists p c, t = p ++ c :: r /\ c <> 32.
Proof.
  unfold read_eq. destruct (strip (txt "`") t) as [k|] eqn:E; [|discriminate]. destruct (lex_ident k) as [[s k2]|] eqn:E2; [|discriminate]. destruct (strip (txt "=") k2) as [k3|] eqn:E3; [|discriminate].
  destruct (read_plain k3) as [[w k4]|] eqn:E4; [|discriminate]. intro H. injection H as <- <- <-. apply strip_ends in E as ->, E3 as ->. destruct (lex_ident_ends _ _ _ _ (le_n _) E2) as [p ->].
  destruct (read_plain_ends _ _ _ E4) as [q [c [-> Hc]]]. exists (txt "`" ++ p ++ txt "=" ++ q), c. split; [now rewrite <- !app_assoc|exact Hc].
Qed.
Lemma read_conj_ends f : forall t l r, read_conj f t = Some (l, r) -> exists p c, t = p ++ c :: r /\ c <> 32.
Proof.
  induction f as [|f IH]; intros t l r H; [discriminate|]. cbn [read_conj] in H. destruct (read_eq t) as [[[c v] k]|] eqn:E; [|discriminate]. destruct (read_eq_ends _ _ _ _ E) as [p [x [-> Hx]]].
  destruct (strip (txt " and ") k) as [k2|] eqn:E2; [|injection H as <- <-; now exists p, x].
  destruct (read_conj f k2) as [[l2 k3]|] eqn:E3; [|discriminate]. injection H as <- <-. apply strip_ends in E2 as ->. destruct (IH _ _ _ E3) as [q [y [-> Hy]]].
  exists (p ++ x :: txt " and " ++ q), y. split; [now rewrite <- !app_assoc|exact Hy].
Qed.
Lemma last_two (A : Type) (a b : list A) x y z w : a ++ [x; z] = b ++ [y; w] -> x = y.
Proof. intro H. change [x; z] with ([x] ++ [z]) in H. change [y; w] with ([y] ++ [w]) in H. rewrite !app_assoc in H. apply app_inj_tail in H as [H _]. now apply app_inj_tail in H as [_ H]. Qed.
Lemma no_condition pre db tb sets conds : read_update (pre ++ txt " where ;") <> Some (db, tb, sets, conds).
Proof.
  intro H. unfold read_update in H. set (line := pre ++ txt " where ;") in *.
  destruct (strip (txt "update ") line) as [k1|] eqn:E1; [|discriminate]. destruct (read_table k1) as [[[d0 t0] k2]|] eqn:E2; [|discriminate].
  destruct (strip (txt " set ") k2) as [k3|] eqn:E3; [|discriminate]. destruct (read_set (List.length k3) k3) as [[s0 k4]|] eqn:E4; [|discriminate].
  destruct (strip (txt " where ") k4) as [k5|] eqn:E5; [|discriminate]. destruct (read_conj (List.length k5) k5) as [[c0 k6]|] eqn:E6; [|discriminate].
  assert (K : exists z, k6 = [z]) by (destruct k6 as [|z [|? ?]]; [discriminate H|now exists z|exfalso; clear - H; destruct z as [|p|p]; try discriminate H; repeat (destruct p as [p|p|]; try discriminate H)]).
  destruct K as [z ->]. clear H.
  assert (S : exists p, line = p ++ k5).
  { apply strip_ends in E1, E3, E5. unfold read_table in E2.
    destruct (strip (txt "`") k1) as [j1|] eqn:F1; [|discriminate]. destruct (lex_ident j1) as [[i1 j2]|] eqn:F2; [|discriminate]. destruct (strip (txt ".`") j2) as [j3|] eqn:F3; [|discriminate].
    destruct (lex_ident j3) as [[i2 j4]|] eqn:F4; [|discriminate]. injection E2 as _ _ <-. apply strip_ends in F1, F3. apply (lex_ident_ends _ _ _ _ (le_n _)) in F2, F4. destruct F2 as [p2 F2], F4 as [p4 F4].
    assert (S4 : exists p, k3 = p ++ k4).
    { clear - E4. revert k4 s0 E4. generalize (List.length k3) as f. intro f. revert k3. induction f as [|f IH]; intros k3 k4 s0 H; [discriminate|]. cbn [read_set] in H.
      destruct (read_conj (List.length k3) k3) as [[[|[c v] more] r]|] eqn:E; try discriminate. destruct (read_conj_ends _ _ _ _ E) as [p [x [-> _]]].
      destruct (strip (txt ",") r) as [r'|] eqn:E2; [|injection H as _ <-; exists (p ++ [x]); now rewrite <- app_assoc].
      destruct (read_set f r') as [[l k]|] eqn:E3; [|discriminate]. injection H as _ <-. apply strip_ends in E2 as ->. destruct (IH _ _ _ E3) as [q ->]. exists (p ++ x :: txt "," ++ q). now rewrite <- !app_assoc. }
    destruct S4 as [p5 S4]. exists (txt "update " ++ txt "`" ++ p2 ++ txt ".`" ++ p4 ++ txt " set " ++ p5 ++ txt " where "). rewrite E1, F1, F2, F3, F4, E3, S4, E5. now rewrite <- !app_assoc. }
  destruct S as [p S]. destruct (read_conj_ends _ _ _ _ E6) as [q [y [E7 Hy]]]. rewrite E7, app_assoc in S. unfold line in S. change (txt " where ;") with (txt " where" ++ [32; 59]) in S. rewrite app_assoc in S.
  apply last_two in S. now apply Hy.
Qed.

(** * What can be printed *)
Lemma po_pret {A B} (D : bytes -> Prop) (a : A) (k : A -> P B) : pout D (k a) -> pout D (pbind (pret a) k).
Proof. intros H s. specialize (H s). unfold pbind, pret. destruct (k a s) as [[o s'] r]. exact H. Qed.
Lemma keyed_undo (D : bytes -> Prop) rt tm db tb : D decimal_line -> D err_short_compressed ->
  (forall k t keys cols, mget tm k = Some t -> (getPrimaryKey t = [] -> keys = []) -> D (update_statement rt t keys cols)) ->
  forall data spare, pout D (mlogUndoInsert rt tm db tb data spare).
Proof.
  intros Hd He Hu data spare. assert (KC : forall t fs, pout D (undoKeys rt data spare t fs)) by (intros t fs; now apply po_keys).
  assert (CC : forall t f i n, pout D (undoColumns f rt data spare t i n)) by (intros t f i n; now apply po_cols).
  unfold mlogUndoInsert, mlogUndoInsert_body, getTableByTableID. apply po_bind; [apply po_readat|intro]. apply po_bind; [apply po_advance|intro]. apply po_bind; [apply po_getpos|intro].
  apply po_recover; [|apply po_bind; [apply po_setpos|intro; apply po_ret]]. apply po_bind; [apply po_readat|intro]. apply po_bind; [apply po_advance|intro]. apply po_bind; [apply po_readat|intros [no [e|]]]; [apply po_bind; [apply po_setpos|intro; apply po_ret]|].
  apply po_bind; [apply po_advance|intro]. apply po_bind; [apply po_readat|intros [id [e|]]]; [apply po_bind; [apply po_setpos|intro; apply po_ret]|]. apply po_bind; [apply po_advance|intro].
  apply po_bind. { destruct (negb _); [|apply po_ret]. apply po_bind; [apply po_readat|intro]. apply po_bind; [apply po_advance|intro]. apply po_bind; [now apply po_ull|intro]. apply po_bind; [now apply po_ull|intro]. apply po_ret. }
  intro. destruct (mget tm id) as [t|] eqn:Et; [|apply po_bind; [apply po_setpos|intro; apply po_ret]].
  assert (HK : forall keys, (getPrimaryKey t = [] -> keys = []) -> forall (ty : bool), pout D (err <-p (if ty then
             '(columnNum, num, err) <-p compressed_at data ;;
             match err with
             | Some e => pret (Some e)
             | None =>
               _ <-p advance num ;;
               '(columns, err) <-p undoColumns (S (List.length data)) rt data spare t 0 columnNum ;;
               match err with
               | Some e => pret (Some e)
               | None =>
                 _ <-p (if redo_filter db tb t then pw (makeSQL rt t keys columns) else pret tt) ;;
                 pret None
               end
             end
           else pret None) ;;
  match err with
  | Some e => pret (Some e)
  | None =>
    pos <-p getpos ;;
    _ <-p (if negb (u64 (pos - a1) =? a)
           then setpos (u64 (a1 + a)) else pret tt) ;;
    pret None
  end)).
  { intros keys Hk ty. apply po_bind; [|intros [e|]; [apply po_ret|]; apply po_bind; [apply po_getpos|intro]; apply po_bind; [destruct (negb _); [apply po_setpos|apply po_ret]|intro; apply po_ret]].
    destruct ty; [|apply po_ret]. apply po_bind; [now apply po_comp|intros [[v n] [e|]]]; [apply po_ret|]. apply po_bind; [apply po_advance|intro]. apply po_bind; [apply CC|intros [cols [e|]]]; [apply po_ret|].
    apply po_bind; [|intro; apply po_ret]. destruct (redo_filter db tb t); [|apply po_ret]. apply po_pw, wo_say. eapply Hu; eassumption. }
  destruct (getPrimaryKey t) as [|f fs] eqn:Eg.
  - cbn [undoKeys]. apply po_pret. cbv beta iota. apply HK. reflexivity.
  - apply po_bind; [apply KC|intros [keys [e|]]]; [apply po_ret|]. apply HK. discriminate.
Qed.
Lemma keyed_step (D : bytes -> Prop) rt tm db tb : D decimal_line -> D err_short_compressed ->
  (forall k t keys cols, mget tm k = Some t -> (getPrimaryKey t = [] -> keys = []) -> D (update_statement rt t keys cols)) ->
  forall data spare, pout D (redo_step rt tm db tb data spare).
Proof.
  intros Hd He Hu data spare. assert (S : forall t, pout D (redo_switch rt tm db tb data spare t)).
  { intro t. unfold redo_switch, mlogNBytes, mlogRecSecDeleteMark, mlogUndoInit, mlogUndoHdrReuse, mlogUndoHdrCreate, mlogWriteString, mlogFileOp, mlogRecInsert, mlogRecClustDeleteMark,
      mlogCompRecSecDeleteMark, mlogRecUpdateInPlace, mlogRecDelete, mlogListDelete, mlogListEndCopyCreated, mlogPageReorganize, mlogZipWriteNodePtr, mlogZipWriteHeader, mlogZipPageCompress, mlogZipPageCompressNoData.
    repeat match goal with |- pout D (if ?b then _ else _) => destruct b end; try (apply po_dropped; now apply keyed_undo);
      repeat first [ apply po_ret | apply po_lift | apply po_getpos | apply po_setpos | apply po_advance | apply po_readat | now apply po_comp | now apply po_index | now apply po_insert | now apply po_ull | now apply po_update | now apply po_copy
        | apply po_dropped | apply po_andthen | apply po_bind; [|intro] | apply po_recover | match goal with |- pout _ (match ?x with _ => _ end) => destruct x end ]. }
  unfold redo_step. repeat first [ apply S | apply po_ret | apply po_lift | apply po_getpos | apply po_setpos | apply po_advance | apply po_readat | now apply po_comp | now apply po_ull
        | apply po_dropped | apply po_andthen | apply po_bind; [|intro] | apply po_recover | match goal with |- pout _ (match ?x with _ => _ end) => destruct x end ].
Qed.
Lemma keyed_redo (D : bytes -> Prop) rt tm db tb : D decimal_line -> D err_short_compressed ->
  (forall k t keys cols, mget tm k = Some t -> (getPrimaryKey t = [] -> keys = []) -> D (update_statement rt t keys cols)) ->
  forall files spare, wout D (ParseRedoLogs rt tm db tb files spare).
Proof.
  intros Hd He Hu files spare. unfold ParseRedoLogs. apply wo_bind; [apply wo_lift|]. intros [data|e] _; [|apply wo_ret]. unfold parseRedoBlockData, wout.
  assert (L : forall fuel, pout D (redo_loop fuel rt tm db tb data spare)).
  { induction fuel as [|f IH]; cbn [redo_loop]; [apply po_lift|]. apply po_bind; [apply po_getpos|intro]. destruct (_ || _); [apply po_ret|]. apply po_bind; [now apply keyed_step|intros [e|]]; [apply po_ret|apply IH]. }
  specialize (L (S (List.length data)) 0). destruct (redo_loop _ _ _ _ _ _ _ 0) as [[o s'] r]. exact L.
Qed.

(** * The log says nothing about such tables *)
Lemma no_key_found d id e : t_indexes e = map (index_entry d) (indexes_of d id) -> unknown_key d id -> getPrimaryKey e = [].
Proof.
  intros E H. unfold getPrimaryKey. rewrite E. unfold unknown_key in H. revert H. generalize (indexes_of d id) as l. induction l as [|i l IH]; intro H; [reflexivity|]. cbn [map fold_left].
  destruct (H i (or_introl eq_refl)) as [N1 N2]. assert (EI : ix_name (snd (index_entry d i)) = id_name i) by reflexivity. rewrite !EI.
  assert (B1 : beq (trim_space (id_name i)) (bs "PRIMARY") = false) by (apply beq_neq; exact N1).
  assert (B2 : beq (trim_space (id_name i)) (bs "GEN_CLUST_INDEX") = false) by (apply beq_neq; exact N2).
  rewrite B1, B2. cbn [orb]. apply IH. intros j Hj. apply H. now right.
Qed.
(** Whatever the log files hold - updates of such a table, for one -, no line
    is a statement about the table. *)
Theorem C130_never_refuted : forall fuel rt files sys opt want_db want_tb spare d sys_pages t db tb,
  stores_dictionary sys_pages d -> consistent d -> NoDup (map td_name (dd_tables d)) -> Forall (fun t => ~ In 96 (td_name t)) (dd_tables d) ->
  In t (dd_tables d) -> named_as (td_name t) db tb -> db <> [] -> unknown_key d (td_id t) ->
  files sys = Some (map IoBytes sys_pages) -> (Z.to_nat 16384 < fuel)%nat ->
  forall line sets conds, In line (fst (FromRedoFile fuel rt files sys opt want_db want_tb spare)) -> read_update line <> Some (db, tb, sets, conds).
Proof.
  intros fuel rt files sys opt want_db want_tb spare d sys_pages t db tb Hs Hc Hnd Hbq Ht Hnm Hdb Huk F1 Hfuel line sets conds Hin HR.
  destruct (dict_read fuel rt sys_pages d Hs Hc Hfuel) as [tm [Hd HRp]]. unfold FromRedoFile in Hin. rewrite F1, Hd in Hin. cbn [wbind] in Hin.
  set (D := fun l : bytes => read_update l <> Some (db, tb, sets, conds)).
  assert (HD : wout D (ParseRedoLogs rt tm want_db want_tb (map files (redo_files opt)) spare)).
  { apply keyed_redo; [discriminate|discriminate|]. intros k e keys cols Hg Hkeys HX.
    assert (HE : exists t', In t' (dd_tables d) /\ k = td_id t' /\ placed d t' e).
    { destruct HRp as [_ HRp]. specialize (HRp k). destruct (find_table (dd_tables d) k) as [t'|] eqn:Ef; [|congruence]. apply find_table_some in Ef as [H1 H2]. destruct HRp as [e' [E' HP]]. rewrite Hg in E'. injection E' as <-. exists t'. auto. }
    destruct HE as [t' [Ht' [-> HP]]]. pose proof (placed_agrees d tm Hc HRp) as [_ [_ HA]]. destruct (HA t' Ht') as [e2 [Hg2 [Hn2 [_ [_ Hix]]]]]. rewrite Hg in Hg2. injection Hg2 as <-.
    assert (Hq : ~ In 96 (t_db e) /\ ~ In 96 (t_name e)).
    { rewrite Forall_forall in Hbq. specialize (Hbq t' Ht'). destruct Hn2 as [[E _]|[E [E2 _]]]; rewrite E in Hbq; [|rewrite E2; split; [intros []|exact Hbq]].
      split; intro X; apply Hbq; apply in_or_app; [now left|right; now right]. }
    assert (EN : t_db e = db /\ t_name e = tb).
    { assert (ES : update_statement rt e keys cols = txt "update " ++ 96 :: t_db e ++ 96 :: 46 :: 96 :: t_name e ++ 96 :: txt " set " ++ join_and (map (set_value_text rt) cols) ++ txt " where " ++ join_and (map (where_text rt) keys) ++ txt ";").
      { unfold update_statement. change (bs "update `") with (txt "update " ++ [96]). change (bs "`.`") with [96; 46; 96]. change (bs "` set ") with (96 :: txt " set "). rewrite <- app_assoc. reflexivity. }
      rewrite ES in HX. unfold read_update in HX. rewrite strip_app, read_table_plain in HX by (try apply Hq; cbn; lia). rewrite strip_app in HX.
      destruct (read_set _ _) as [[s0 k4]|]; [|discriminate]. destruct (strip (txt " where ") k4) as [k5|]; [|discriminate]. destruct (read_conj _ _) as [[c0 k6]|]; [|discriminate].
      assert (K : Some (t_db e, t_name e, s0, c0) = Some (db, tb, sets, conds)).
      { rewrite <- HX. destruct k6 as [|z [|? ?]]; [discriminate HX| |exfalso; clear - HX; destruct z as [|p|p]; try discriminate HX; repeat (destruct p as [p|p|]; try discriminate HX)].
        destruct z as [|p|p]; try discriminate HX; repeat (destruct p as [p|p|]; try discriminate HX); reflexivity. }
      injection K as -> -> _ _. now split. }
    destruct EN as [E1 E2]. rewrite E1, E2 in Hn2. pose proof (named_back _ _ _ _ Hdb Hnm Hn2) as En.
    assert (t = t').
    { clear - Hnd Ht Ht' En. induction (dd_tables d) as [|x l IH]; [contradiction|]. cbn [map] in Hnd. inversion Hnd as [|? ? N1 N2]; subst.
      destruct Ht as [->|Ht], Ht' as [->|Ht']; [reflexivity| | |now apply IH].
      - exfalso. apply N1. rewrite En. now apply in_map.
      - exfalso. apply N1. rewrite <- En. now apply in_map. }
    subst t'. rewrite (Hkeys (no_key_found d (td_id t) e Hix Huk)) in HX. cbn [map join_and app] in HX.
    assert (EW : update_statement rt e [] cols = (bs "update `" ++ t_db e ++ bs "`.`" ++ t_name e ++ bs "` set " ++ join_and (map (set_value_text rt) cols)) ++ txt " where ;") by (unfold update_statement; cbn [map join_and app]; rewrite <- !app_assoc; reflexivity).
    rewrite EW in HX. exact (no_condition _ _ _ _ _ HX). }
  destruct (ParseRedoLogs rt tm want_db want_tb (map files (redo_files opt)) spare) as [o r]. unfold wout in HD. cbn [fst] in HD. rewrite Forall_forall in HD.
  destruct r as [[e|]| |]; cbn [wbind fst snd say wret] in Hin; rewrite ?app_nil_r in Hin; try (apply HD in Hin; exact (Hin HR)).
  unfold say in Hin. cbn [wbind fst snd] in Hin. change ([] ++ ?x) with x in Hin. apply in_app_or in Hin as [Hin|[<-|[]]]; [apply HD in Hin; exact (Hin HR)|discriminate HR].
Qed.
Print Assumptions C130_never_refuted.
Example C130_case : forall fuel rt files sys opt want_db want_tb spare, let d := dict_u [u_a] [u_b; u_c] in
  files sys = Some (map IoBytes (dict_pages d)) -> (Z.to_nat 16384 < fuel)%nat ->
  forall line sets conds, In line (fst (FromRedoFile fuel rt files sys opt want_db want_tb spare)) -> read_update line <> Some (txt "test", txt "u", sets, conds).
Proof.
  intros fuel rt files sys opt want_db want_tb spare d F Hf.
  destruct (u_dict [u_a] [u_b; u_c]) as [_ [H1 [H2 [H3 [H4 [H5 [H6 _]]]]]]]; [repeat constructor|distinct|discriminate|repeat constructor|vm_compute; reflexivity|reflexivity|ordinary_columns|].
  apply (C130_never_refuted fuel rt files sys opt want_db want_tb spare d (dict_pages d) (mkTableDef (txt "test/u") 71 5) (txt "test") (txt "u")); try assumption.
  - constructor; [cbn; intuition discriminate|constructor].
  - intros i [<-|[]]. split; intro X; discriminate X.
Qed.

(** * The log behind a change of such a table *)
(** Every record of an update of a table without a key known to the tool, whose
    key begins with a text of one to 127 bytes beginning with an ASCII character
    not below the number of columns: the length of the text is taken for the
    number of changed columns and its first character for the position of the
    first. The record is given up there, and the scan goes on in the middle of
    the text. *)
Definition no_known_key (t : Table) : Prop :=
  Forall (fun i => trim_space (ix_name (snd i)) <> txt "PRIMARY" /\ trim_space (ix_name (snd i)) <> txt "GEN_CLUST_INDEX") (t_indexes t).
Lemma no_key t : no_known_key t -> getPrimaryKey t = [].
Proof.
  unfold no_known_key, getPrimaryKey. induction 1 as [|i l [N1 N2] _ IH]; [reflexivity|]. cbn [fold_left].
  assert (B1 : beq (trim_space (ix_name (snd i))) (bs "PRIMARY") = false) by (apply beq_neq; exact N1).
  assert (B2 : beq (trim_space (ix_name (snd i))) (bs "GEN_CLUST_INDEX") = false) by (apply beq_neq; exact N2).
  rewrite B1, B2. cbn [orb]. exact IH.
Qed.
Lemma one_byte n : 0 <= n < 128 -> enc_compressed n = [n].
Proof. intro H. unfold enc_compressed. destruct (Z.ltb_spec n 128); [|lia]. cbn [be app]. f_equal. rewrite ?Z.shiftr_0_r, ?Z.pow_0_r, ?Z.div_1_r. apply Z.mod_small. lia. Qed.
Section Derail.
Variable rt : runtime.
Variable tm : gomap Table.
Variable db tb : bytes.
Variable data : bytes.
Variable spare : nat.
Hypothesis Hb : all_bytes data.
Hypothesis Hs : len data < 2 ^ 32 - 1.
Let Hs' : len data < 2 ^ 62.
Proof. lia. Qed.
Local Notation At := (At data).
Ltac adv H := erewrite pb by (eapply r_advance; [exact Hs'|exact H|lia]); cbv beta; apply At_app in H; rewrite ?len_be in H.
Ltac fc H := match type of H with PStep.At _ _ (enc_compressed ?n ++ _) => pose proof (comp_len n) end;
  erewrite pb by (eapply r_comp; [exact Hb|exact Hs'|exact H|lia]); cbv beta iota; adv H.
Lemma undo_misread u t c k more s d : At s (be 2 (zlen (enc_undo u)) ++ enc_undo u ++ d) -> undo_ok u -> undo_room u (len d) ->
  mget tm (un_table u) = Some t -> un_type u = UNDO_UPDATE -> no_known_key t ->
  un_keys u = (c :: k) :: more -> len (c :: k) < 128 -> len (t_columns t) <= c < 128 ->
  exists err, mlogUndoInsert rt tm db tb data spare s = ([], s + 2 + len (enc_undo_head u) + 2, Ok err).
Proof.
  intros H Hok Hd Hg Hty HN HK Hl Hc. pose proof Hok as Hok2. destruct Hok2 as [_ [_ [_ [_ [_ [_ [_ [Hks [Hch [Hcf Hlen]]]]]]]]]].
  change (@zlen) with (@len) in *. pose proof (len_nonneg (enc_undo u)) as N0. pose proof (len_nonneg (t_columns t)) as Nc. pose proof (len_nonneg k) as Nk.
  unfold mlogUndoInsert. erewrite pb by (eapply r_read2; [exact H|lia]). cbv beta. adv H. change (Z.of_nat 2) with 2 in H.
  erewrite pb by reflexivity. cbv beta. unfold precover.
  destruct (undo_front rt tm db tb data spare Hb Hs u (s + 2) d (s + 2) (len (enc_undo u)) H Hok Hd eq_refl eq_refl) as [s1 [Es1 [H1 ->]]].
  assert (ER : skipn (List.length (enc_undo_head u)) (enc_undo u) = flat_map enc_key (un_keys u) ++ (if (un_type u =? UNDO_UPDATE) || (un_type u =? UNDO_UPDATE_DELETED)
      then enc_compressed (len (un_changes u)) ++ flat_map enc_field (un_changes u) else []) ++ un_more u) by (unfold enc_undo; apply skipn_app_len).
  rewrite ER, HK in H1. cbn [flat_map] in H1. unfold enc_key at 1 in H1. change (@zlen) with (@len) in H1. rewrite <- !app_assoc in H1. clear ER.
  rewrite len_cons in *.
  assert (E1 : enc_compressed (1 + len k) = [1 + len k]) by (apply one_byte; lia).
  assert (E2 : forall x : list Z, (c :: k) ++ x = enc_compressed c ++ k ++ x) by (intro x; rewrite one_byte by lia; reflexivity).
  assert (E3 : len (enc_compressed c) = 1) by (rewrite one_byte by lia; reflexivity).
  rewrite E2 in H1. assert (L1 : len (enc_compressed (1 + len k)) = 1) by now rewrite E1.
  unfold getTableByTableID. rewrite Hg, (no_key t HN). change TRX_UNDO_UPD_EXIST_REC with UNDO_UPDATE.
  rewrite Hty in *. change (UNDO_UPDATE =? UNDO_UPDATE) with true in *. cbn [orb] in H1. cbv iota in H1. cbv iota.
  cbn [undoKeys]. erewrite pb by reflexivity. cbv beta iota.
  assert (X : ('(columnNum, num, err) <-p compressed_at data ;;
             match err with
             | Some e => pret (Some e)
             | None =>
               _ <-p advance num ;;
               '(columns, err) <-p undoColumns (S (List.length data)) rt data spare t 0 columnNum ;;
               match err with
               | Some e => pret (Some e)
               | None =>
                 _ <-p (if redo_filter db tb t
                        then pw (makeSQL rt t [] columns) else pret tt) ;;
                 pret (A := option bytes) None
               end
             end) s1 = ([], s + 2 + len (enc_undo_head u) + 2, Ok (Some err_field))).
  { fc H1. cbn [undoColumns]. destruct (Z.ltb_spec 0 (1 + len k)); [|lia].
    assert (G : getColumnByPos t c = None) by (unfold getColumnByPos; destruct (Z.ltb_spec c (len (t_columns t))); [lia|reflexivity]).
    match type of H1 with PStep.At _ ?s0 _ => assert (E : undoColumn rt data spare t s0 = ([], s0 + len (enc_compressed c), Ok (inr err_field))) by (unfold undoColumn; fc H1; rewrite G; reflexivity) end.
    erewrite pb by (erewrite pb by exact E; cbv beta iota; reflexivity). cbv beta iota. unfold pret. apply trip. lia. }
  erewrite pb by exact X. cbv beta iota. cbn [pret fst snd]. eexists. reflexivity.
Qed.
End Derail.
Theorem C130_position_refuted : forall rt tm want_db want_tb spare pre single space page u d t c k more,
  let e := ERecord single space page (BUndo (enc_undo u)) in
  let data := pre ++ enc_entry e ++ d in
  all_bytes data -> len data < 2 ^ 32 - 1 -> word space -> word page -> undo_ok u -> undo_room u (len d) ->
  mget tm (un_table u) = Some t -> un_type u = UNDO_UPDATE -> no_known_key t ->
  un_keys u = (c :: k) :: more -> len (c :: k) < 128 -> len (t_columns t) <= c < 128 ->
  exists last, redo_step rt tm want_db want_tb data spare (len pre) = ([], len (pre ++ enc_entry e) - len (k ++ last), Ok None)
    /\ enc_undo u = enc_undo_head u ++ [len (c :: k); c] ++ k ++ last.
Proof.
  intros rt tm db tb spare pre single sp pg u d t c k more e data Hb Hs W1 W2 Hu Hr Hg Hty HN HK Hl Hc.
  assert (HA : At data (len pre) (enc_entry e ++ d)) by (exists pre; split; reflexivity).
  assert (Hbo : body_ok (BUndo (enc_undo u))) by (cbn; destruct Hu; tauto).
  destruct (front rt tm db tb data spare Hb ltac:(lia) _ _ _ _ _ _ HA W1 W2 Hbo) as [s' [Es [H' ->]]].
  cbn [enc_body] in H'. rewrite <- app_assoc in H'.
  destruct (undo_misread rt tm db tb data spare Hb Hs u t c k more s' d H' Hu Hr Hg Hty HN HK Hl Hc) as [err E].
  assert (EU : exists last, enc_undo u = enc_undo_head u ++ [len (c :: k); c] ++ k ++ last).
  { eexists. unfold enc_undo. rewrite HK. cbn [flat_map]. unfold enc_key at 1. change (@zlen) with (@len). rewrite <- !app_assoc. f_equal.
    pose proof (len_nonneg k). rewrite len_cons in *. rewrite (one_byte (1 + len k)) by lia. cbn [app]. reflexivity. }
  destruct EU as [last EU]. exists last. split; [|exact EU].
  change (redo_switch rt tm db tb data spare (type_of (BUndo (enc_undo u)))) with (dropped (mlogUndoInsert rt tm db tb data spare)).
  unfold dropped. erewrite pb by exact E. cbn [pret]. apply trip.
  assert (EL : len (enc_undo u) = len (enc_undo_head u) + 2 + len (k ++ last)) by (rewrite EU, !len_app; change (len [len (c :: k); c]) with 2; lia).
  rewrite Es. unfold e. cbn [enc_entry enc_body]. rewrite !len_app, len_cons, !len_app, len_be in *. change (@zlen) with (@len). lia.
Qed.
Print Assumptions C130_position_refuted.
Example C130_position_case rt : forall pre d,
  let t := mkTable (txt "b") (txt "t") [mkColumn (txt "code") 1 15 0 10 VNil false false false 0; uint_col (txt "a")] [(1, mkIndex 1 (txt "code") 1 3 [mkField 0 (txt "code")])] 0 0 in
  let u := mkUndo UNDO_UPDATE 0 false 3 40 0 77 99 [txt "abc"] [(3, Some (store_uint 4 300))] [0; 5] in
  let e := ERecord false 0 0 (BUndo (enc_undo u)) in let data := pre ++ enc_entry e ++ d in
  all_bytes data -> len data < 2 ^ 32 - 1 ->
  redo_step rt [(40, t)] [] [] data 0 (len pre) = ([], len (pre ++ enc_entry e) - 11, Ok None).
Proof.
  intros pre d t u e data Hb Hs.
  destruct (C130_position_refuted rt [(40, t)] [] [] 0 pre false 0 0 u d t 97 (txt "bc") []) as [last [E L]]; try assumption; try (unfold word; lia); try reflexivity.
  - unfold undo_ok. cbn [u un_type un_cmpl un_no un_table un_info un_trx un_roll un_keys un_changes]. split; [cbn; unfold UNDO_INSERT, UNDO_UPDATE; tauto|].
    do 6 (split; [lia|]). split; [constructor; [reflexivity|constructor]|]. split; [reflexivity|].
    split; [repeat (constructor; [unfold field_ok; cbn; unfold zlen; cbn; lia|]); constructor|]. reflexivity.
  - apply update_room; [reflexivity|discriminate|discriminate|cbn; lia|apply len_nonneg].
  - constructor; [split; intro X; discriminate X|constructor].
  - cbn. lia.
  - eapply eq_trans; [exact E|]. apply trip. f_equal.
    assert (L1 : len (enc_undo u) = 27) by reflexivity. assert (L2 : len (enc_undo_head u) = 14) by reflexivity. rewrite L, !len_app, L2 in L1. change (len [len (97 :: txt "bc"); 97]) with 2 in L1. rewrite len_app. lia.
Qed.
