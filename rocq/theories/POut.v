(** What the commands can print, for arbitrary input bytes. *)
From Verif Require Import GoBase Utils Ibdata Redo Cmd SpecText SpecSql PBase PSql.
From Coq Require Import Lia ZifyBool.
Local Open Scope Z_scope.
Local Open Scope list_scope.

(** * The writer *)
Definition wout {A} (D : bytes -> Prop) (m : W A) : Prop := Forall D (fst m).
Section Out.
Variable D : bytes -> Prop.
Lemma wo_ret {A} (a : A) : wout D (wret a).
Proof. constructor. Qed.
Lemma wo_lift {A} (r : res A) : wout D (wlift r).
Proof. constructor. Qed.
Lemma wo_say l : D l -> wout D (say l).
Proof. intro H. constructor; [exact H|constructor]. Qed.
Lemma wo_bind {A B} (m : W A) (k : A -> W B) : wout D m -> (forall a, snd m = Ok a -> wout D (k a)) -> wout D (wbind m k).
Proof.
  destruct m as [o [a| |]]; unfold wout; cbn; intros H1 H2; try exact H1.
  specialize (H2 a eq_refl). destruct (k a) as [o' r]. cbn in *. now apply Forall_app.
Qed.
Lemma wbind_ok {A B} (m : W A) (k : A -> W B) b : snd (wbind m k) = Ok b -> exists a, snd m = Ok a /\ snd (k a) = Ok b.
Proof. destruct m as [o [a| |]]; cbn; try discriminate. intro H. exists a. split; [reflexivity|]. now destruct (k a). Qed.

(** * The cursor *)
Definition pout {A} (m : P A) : Prop := forall s, Forall D (fst (fst (m s))).
Lemma po_ret {A} (a : A) : pout (pret a).
Proof. intro s. constructor. Qed.
Lemma po_lift {A} (r : res A) : pout (plift r).
Proof. intro s. constructor. Qed.
Lemma po_getpos : pout getpos.
Proof. intro s. constructor. Qed.
Lemma po_setpos n : pout (setpos n).
Proof. intro s. constructor. Qed.
Lemma po_advance n : pout (advance n).
Proof. intro s. constructor. Qed.
Lemma po_bind {A B} (m : P A) (k : A -> P B) : pout m -> (forall a, pout (k a)) -> pout (pbind m k).
Proof.
  intros H1 H2 s. unfold pbind. specialize (H1 s). destruct (m s) as [[o s'] [a| |]]; cbn in *; try exact H1.
  specialize (H2 a s'). destruct (k a s') as [[o' s''] r]. cbn in *. now apply Forall_app.
Qed.
Lemma po_pw {A} (m : W A) : wout D m -> pout (pw m).
Proof. intros H s. unfold pw. destruct m as [o r]. exact H. Qed.
Lemma po_recover {A} (m h : P A) : pout m -> pout h -> pout (precover m h).
Proof.
  intros H1 H2 s. unfold precover. specialize (H1 s). destruct (m s) as [[o s'] [a| |]]; cbn in *; try exact H1.
  specialize (H2 s'). destruct (h s') as [[o' s''] r]. cbn in *. now apply Forall_app.
Qed.
Lemma po_readat {A} (rd : bytes -> res A) data : pout (readat rd data).
Proof. apply po_bind; [apply po_getpos|intro; apply po_lift]. Qed.
Lemma po_comp data : pout (compressed_at data).
Proof. apply po_bind; [apply po_getpos|intro; apply po_lift]. Qed.
Lemma po_andthen m k : pout m -> pout k -> pout (andthen m k).
Proof. intros. apply po_bind; [assumption|]. intros [e|]; [apply po_ret|assumption]. Qed.
Lemma po_dropped {A} (m : P A) : pout m -> pout (dropped m).
Proof. intro. apply po_bind; [assumption|]. intro. apply po_ret. Qed.

Hypothesis Hc : D err_short_compressed.
Lemma comp_error data pos v n e : MatchParseCompressed data pos = Ok (v, n, Some e) -> e = err_short_compressed.
Proof.
  unfold MatchParseCompressed. intro H.
  repeat match goal with
  | H : bind ?m _ = Ok _ |- _ => destruct m; cbn [bind] in H; try discriminate
  | H : (if ?b then _ else _) = Ok _ |- _ => destruct b; try discriminate
  end. now injection H as <- <- <-.
Qed.
Lemma wo_err {A} data pos (k : Z -> Z -> W A) : (forall v n, wout D (k v n)) ->
  wout D ('(v, n, err) <-w wlift (MatchParseCompressed data pos) ;; _ <-w (match err with Some e => say e | None => wret tt end) ;; k v n).
Proof.
  intro H. apply wo_bind; [apply wo_lift|]. intros [[v n] [e|]] E; (apply wo_bind; [|intros; apply H]); [|apply wo_ret].
  apply comp_error in E. subst e. now apply wo_say.
Qed.
Lemma wo_insert short data pos : wout D (ParseInsertRecord short data pos).
Proof.
  unfold ParseInsertRecord. apply wo_bind; [apply wo_lift|]. intros p _. apply wo_bind; [apply wo_lift|]. intros [[v n] [e|]] _; [apply wo_ret|].
  destruct (len data <? u64 (p + n)); [apply wo_ret|]. apply wo_bind; [|intros; apply wo_ret].
  destruct (Z.land v 1 =? 0); [apply wo_ret|]. apply wo_bind; [apply wo_lift|]. intros d _. apply wo_bind; [apply wo_lift|]. intros _ _.
  apply wo_err. intros _ n1. apply wo_err. intros _ n2. apply wo_ret.
Qed.
Lemma po_lift_eq {A B} (f : Z -> res A) (k : A -> P B) : (forall pos a, f pos = Ok a -> pout (k a)) -> pout (pos <-p getpos ;; a <-p plift (f pos) ;; k a).
Proof.
  intros H s. unfold pbind at 1, getpos at 1. unfold pbind, plift. destruct (f s) as [a| |] eqn:E; try constructor.
  specialize (H s a E s). destruct (k a s) as [[o s'] r]. exact H.
Qed.
Lemma po_ull data : pout (MatchUllReadComPressed data).
Proof.
  unfold MatchUllReadComPressed. apply po_lift_eq. intros pos [[v n] err] E. apply po_bind; [apply po_advance|]. intros _. apply po_bind.
  { destruct err as [e|]; [|apply po_ret]. apply comp_error in E. subst. now apply po_pw, wo_say. }
  intros _. apply po_bind; [apply po_getpos|]. intro. apply po_bind; [apply po_lift|]. intro. apply po_bind; [apply po_lift|]. intro. apply po_bind; [apply po_lift|]. intro.
  apply po_bind; [apply po_advance|]. intro. apply po_ret.
Qed.
Lemma po_index c data : pout (index_at c data).
Proof.
  apply po_bind; [apply po_getpos|]. intro. apply po_bind; [apply po_lift|]. intros [q [e|]]; [apply po_ret|]. apply po_bind; [apply po_setpos|]. intro. apply po_ret.
Qed.
Lemma po_insert c data : pout (insert_at c data).
Proof.
  apply po_bind; [apply po_getpos|]. intro. apply po_bind; [apply po_pw, wo_insert|]. intros [q [e|]]; [apply po_ret|]. apply po_bind; [apply po_setpos|]. intro. apply po_ret.
Qed.
Ltac po := repeat first
  [ apply po_ret | apply po_lift | apply po_getpos | apply po_setpos | apply po_advance | apply po_readat | apply po_comp | apply po_index | apply po_insert | apply po_ull
  | apply po_dropped | apply po_andthen | apply po_bind; [|intro] | apply po_recover
  | match goal with |- pout (match ?x with _ => _ end) => destruct x end ].
Lemma po_update fuel data : forall i n, pout (updateFields fuel data i n).
Proof. induction fuel as [|f IH]; intros i n; cbn [updateFields]; po. apply IH. Qed.
Lemma po_copy fuel data e : pout (copyRecords fuel data e).
Proof. induction fuel as [|f IH]; cbn [copyRecords]; po. apply IH. Qed.

(** * Column values *)
Definition decimal_line : bytes := bs "test MYSQL_TYPE_NEWDECIMAL".
Lemma wo_data rt ty my data l fx u b : (ty = DATA_FIXBINARY -> my = MYSQL_TYPE_NEWDECIMAL -> D decimal_line) -> wout D (ParseData rt ty my data l fx u b).
Proof.
  intro H. unfold ParseData, wout.
  repeat match goal with |- Forall D (fst (if ?b then _ else _)) => let E := fresh in destruct b eqn:E end; try constructor; try constructor.
  apply H; lia.
Qed.
Lemma wo_data_cap rt ty my data ex l fx u b : (ty = DATA_FIXBINARY -> my = MYSQL_TYPE_NEWDECIMAL -> D decimal_line) -> wout D (ParseDataCap rt ty my data ex l fx u b).
Proof. unfold ParseDataCap. apply wo_data. Qed.

Section Redo.
Variable rt : runtime.
Variable tm : gomap Table.
Variable db tb : bytes.
Hypothesis Hd : D decimal_line.
Hypothesis Hu : forall k t keys cols, mget tm k = Some t -> redo_filter db tb t = true -> D (update_statement rt t keys cols).
Lemma po_keys data spare t fs : pout (undoKeys rt data spare t fs).
Proof. induction fs as [|f fs IH]; cbn [undoKeys]; po; [apply po_pw, wo_data_cap; auto|apply IH]. Qed.
Lemma po_cols fuel data spare t : forall i n, pout (undoColumns fuel rt data spare t i n).
Proof.
  induction fuel as [|f IH]; intros i n; cbn [undoColumns]; po; [|apply IH]. unfold undoColumn. po. apply po_pw, wo_data_cap; auto.
Qed.
Lemma po_undo data spare : pout (mlogUndoInsert rt tm db tb data spare).
Proof.
  unfold mlogUndoInsert, mlogUndoInsert_body, getTableByTableID. apply po_bind; [apply po_readat|intro]. apply po_bind; [apply po_advance|intro]. apply po_bind; [apply po_getpos|intro].
  apply po_recover; [|po]. apply po_bind; [apply po_readat|intro]. apply po_bind; [apply po_advance|intro]. apply po_bind; [apply po_readat|intros [no [e|]]]; [po|].
  apply po_bind; [apply po_advance|intro]. apply po_bind; [apply po_readat|intros [id [e|]]]; [po|]. apply po_bind; [apply po_advance|intro]. apply po_bind; [po|intro].
  destruct (mget tm id) as [t|] eqn:Et; [|po]. apply po_bind; [apply po_keys|intros [keys [e|]]]; [po|]. apply po_bind; [|intros [e|]; po].
  destruct (_ =? TRX_UNDO_UPD_EXIST_REC); [|po]. apply po_bind; [apply po_comp|intros [[v n] [e|]]]; [po|]. apply po_bind; [po|intro]. apply po_bind; [apply po_cols|intros [cols [e|]]]; [po|].
  apply po_bind; [|intro; po]. destruct (redo_filter db tb t) eqn:Ef; [|po]. apply po_pw, wo_say. eapply Hu; eassumption.
Qed.
Lemma po_step data spare : pout (redo_step rt tm db tb data spare).
Proof.
  assert (S : forall t, pout (redo_switch rt tm db tb data spare t)).
  { intro t. unfold redo_switch, mlogNBytes, mlogRecSecDeleteMark, mlogUndoInit, mlogUndoHdrReuse, mlogUndoHdrCreate, mlogWriteString, mlogFileOp, mlogRecInsert, mlogRecClustDeleteMark,
      mlogCompRecSecDeleteMark, mlogRecUpdateInPlace, mlogRecDelete, mlogListDelete, mlogListEndCopyCreated, mlogPageReorganize, mlogZipWriteNodePtr, mlogZipWriteHeader, mlogZipPageCompress, mlogZipPageCompressNoData.
    repeat match goal with |- pout (if ?b then _ else _) => destruct b end; try (apply po_dropped, po_undo); po; try apply po_update; apply po_copy. }
  unfold redo_step. po; apply S.
Qed.
Lemma po_loop data spare fuel : pout (redo_loop fuel rt tm db tb data spare).
Proof. induction fuel as [|f IH]; cbn [redo_loop]; [apply po_lift|].
  apply po_bind; [apply po_getpos|intro]. destruct (_ || _); [apply po_ret|]. apply po_bind; [apply po_step|intros [e|]]; [apply po_ret|apply IH].
Qed.
Lemma wo_redo files spare : wout D (ParseRedoLogs rt tm db tb files spare).
Proof.
  unfold ParseRedoLogs. apply wo_bind; [apply wo_lift|]. intros [data|e] _; [|apply wo_ret]. unfold parseRedoBlockData, wout.
  pose proof (po_loop data spare (S (List.length data)) 0) as H. destruct (redo_loop _ _ _ _ _ _ _ 0) as [[o s'] r]. exact H.
Qed.
End Redo.

(** * Data files *)
Section Data.
Variable rt : runtime.
(** A column never changes its type *)
Definition quiet (c : Column) : Prop := c_type c = DATA_FIXBINARY -> c_mysql c = MYSQL_TYPE_NEWDECIMAL -> D decimal_line.
Lemma wo_field o offs i c : quiet c -> wout D (parseField rt o offs i c) /\ (forall c', snd (parseField rt o offs i c) = Ok c' -> quiet c').
Proof.
  intro H. unfold parseField. split.
  - apply wo_bind; [apply wo_lift|]. intros [d n] _. destruct (len d <? n); [destruct (n =? 4294967295); apply wo_ret|]. apply wo_bind; [apply wo_data, H|]. intros [v b] _. apply wo_ret.
  - intros c' E. apply wbind_ok in E as [[d n] [_ E]]. destruct (len d <? n).
    + destruct (n =? 4294967295); injection E as <-; exact H.
    + apply wbind_ok in E as [[v b] [_ E]]. injection E as <-. exact H.
Qed.
Lemma wo_fields o offs cs : forall i, Forall quiet cs -> wout D (parseFields rt o offs i cs) /\ (forall cs', snd (parseFields rt o offs i cs) = Ok cs' -> Forall quiet cs').
Proof.
  induction cs as [|c cs IH]; intros i H; cbn [parseFields].
  - split; [apply wo_ret|]. intros cs' E. injection E as <-. constructor.
  - inversion H as [|? ? H1 H2]; subst. destruct (wo_field o offs i c H1) as [F1 F2]. destruct (IH (i + 1) H2) as [G1 G2]. split.
    + apply wo_bind; [exact F1|]. intros c' _. apply wo_bind; [exact G1|]. intros cs' _. apply wo_ret.
    + intros cs'' E. apply wbind_ok in E as [c' [E1 E]]. apply wbind_ok in E as [cs' [E2 E]]. injection E as <-. constructor; auto.
Qed.
Lemma wo_record tm data off cs : Forall quiet cs ->
  wout D (parsePage_record rt tm data off cs) /\ (forall cs', snd (parsePage_record rt tm data off cs) = Ok (Some cs') -> Forall quiet cs').
Proof.
  intro H. unfold parsePage_record, parseRecords. split.
  - apply wo_bind; [apply wo_lift|]. intros origin _. apply wo_bind; [apply wo_lift|]. intros cp _. apply wo_bind; [apply wo_lift|]. intros [offs|] _; [|apply wo_ret].
    apply wo_bind; [apply wo_lift|]. intros [] _; [|apply wo_ret]. apply wo_bind; [|intros; apply wo_bind; [apply wo_lift|intros; apply wo_ret]].
    apply wo_bind; [apply wo_fields, H|]. intros. apply wo_bind; [apply wo_lift|]. intros. apply wo_ret.
  - intros cs' E. apply wbind_ok in E as [origin [_ E]]. apply wbind_ok in E as [cp [_ E]]. apply wbind_ok in E as [[offs|] [_ E]]; [|discriminate].
    apply wbind_ok in E as [[] [_ E]]; [|discriminate]. apply wbind_ok in E as [c [E1 E]]. apply wbind_ok in E as [? [_ E]]. injection E as <-.
    apply wbind_ok in E1 as [c1 [E1 E]]. apply wbind_ok in E as [? [_ E]]. injection E as <-. exact (proj2 (wo_fields _ _ _ _ H) _ E1).
Qed.
Lemma wo_loop tm data sup fuel : forall off cs, Forall quiet cs ->
  wout D (parsePage_loop fuel rt tm data sup off cs) /\ (forall rows cs', snd (parsePage_loop fuel rt tm data sup off cs) = Ok (rows, cs') -> Forall quiet cs').
Proof.
  induction fuel as [|f IH]; intros off cs H; cbn [parsePage_loop]; [split; [apply wo_lift|intros ? ? E; discriminate E]|].
  destruct ((off <? 16384 - 6) && negb (off =? sup)).
  - destruct (wo_record tm data off cs H) as [F1 F2]. split.
    + apply wo_bind; [exact F1|]. intros [c|] E; [|apply wo_ret]. apply wo_bind; [apply wo_lift|]. intros [off'|] _; [|apply wo_ret].
      apply wo_bind; [apply IH, F2, E|]. intros [rows cs'] _. apply wo_ret.
    + intros rows cs' E. apply wbind_ok in E as [[c|] [E1 E]]; [|injection E as <- <-; exact H]. specialize (F2 c E1). apply wbind_ok in E as [[off'|] [_ E]]; [|injection E as <- <-; exact F2].
      apply wbind_ok in E as [[rows' cs''] [E2 E]]. injection E as <- <-. exact (proj2 (IH off' c F2) _ _ E2).
  - split; [apply wo_bind; [apply wo_lift|]; intros; apply wo_ret|]. intros rows cs' E. apply wbind_ok in E as [? [_ E]]. injection E as <- <-. exact H.
Qed.
Lemma wo_page fuel tm data cs r free : Forall quiet cs ->
  wout D (parsePage fuel rt tm data cs r free) /\ (forall rows cs', snd (parsePage fuel rt tm data cs r free) = Ok (rows, cs') -> Forall quiet cs').
Proof.
  intro H. unfold parsePage. split.
  - apply wo_bind; [apply wo_lift|]. intros cp _. cbv zeta. apply wo_bind; [apply wo_lift|]. intros b _. apply wo_loop, H.
  - intros rows cs' E. apply wbind_ok in E as [cp [_ E]]. apply wbind_ok in E as [b [_ E]]. exact (proj2 (wo_loop _ _ _ _ _ _ H) _ _ E).
Qed.
Lemma wo_pages fuel tm db tb r : (forall row, D (replace_statement rt tb db row)) -> forall pages cs, Forall quiet cs -> wout D (dataPages_loop fuel rt tm pages db tb r cs).
Proof.
  intros HR. induction pages as [|p ps IH]; intros cs H; cbn [dataPages_loop]; [apply wo_ret|]. apply wo_bind; [apply wo_lift|]. intros ph _.
  destruct (page_selected p ph r); [|apply IH, H]. destruct (wo_page fuel tm (pg_orig p) cs r (ph_free ph) H) as [F1 F2]. apply wo_bind; [exact F1|]. intros [rows cs'] E.
  apply wo_bind; [|intros _ _; eapply IH, F2, E]. destruct (Nat.eqb (List.length rows) 0); [apply wo_ret|]. unfold makeReplaceIntoStatement, wout. cbn [fst].
  apply Forall_forall. intros l Hl. apply in_map_iff in Hl as [row [<- _]]. apply HR.
Qed.
Lemma wo_dataPage fuel tm file db tb r : (forall row, D (replace_statement rt tb db row)) -> Forall quiet (getTableColumnsFromDict tm db tb) -> wout D (ParseDataPage fuel rt tm file db tb r).
Proof.
  intros HR H. unfold ParseDataPage. apply wo_bind; [apply wo_lift|]. intros [pages [e|]] _; [apply wo_ret|]. apply wo_bind; [apply wo_pages; assumption|]. intros _ _. apply wo_ret.
Qed.
End Data.
End Out.

(** * The dictionary prints nothing *)
Section Dict.
Variable rt : runtime.
Let D : bytes -> Prop := fun _ => False.
Lemma silent {A} (m : W A) : wout D m -> fst m = [].
Proof. unfold wout. destruct (fst m) as [|l ls]; [reflexivity|]. intro H. inversion H as [|? ? X]. destruct X. Qed.
Lemma sys_quiet c : c_type c <> DATA_FIXBINARY -> quiet D c.
Proof. intros H E. contradiction. Qed.
Lemma wo_rows fuel tm pages : forall cs, Forall (quiet D) cs -> wout D (dictRows fuel rt tm pages cs).
Proof.
  induction pages as [|d ds IH]; intros cs H; cbn [dictRows]; [apply wo_ret|]. destruct (wo_page D rt fuel tm d cs false 0 H) as [F1 F2].
  apply wo_bind; [exact F1|]. intros [rows cs'] E. apply wo_bind; [eapply IH, F2, E|]. intros. apply wo_ret.
Qed.
Lemma wo_tables fuel pages : forall tm cs, Forall (quiet D) cs -> wout D (getAllTables_loop fuel rt tm pages cs).
Proof.
  induction pages as [|d ds IH]; intros tm cs H; cbn [getAllTables_loop]; [apply wo_ret|]. destruct (wo_page D rt fuel tm d cs false 0 H) as [F1 F2].
  apply wo_bind; [exact F1|]. intros [rows cs'] E. apply wo_bind; [apply wo_lift|]. intros. eapply IH, F2, E.
Qed.
Lemma wo_dict fuel file : wout D (ParseDictPage fuel rt file).
Proof.
  assert (Q : Forall (quiet D) makeSysTablesColumns /\ Forall (quiet D) makeSysColumnsColumns /\ Forall (quiet D) makeSysIndexesColumns /\ Forall (quiet D) makeSysFieldsColumns).
  { repeat split; repeat (apply Forall_cons; [apply sys_quiet; discriminate|]); apply Forall_nil. }
  destruct Q as [Q1 [Q2 [Q3 Q4]]].
  unfold ParseDictPage. apply wo_bind; [apply wo_lift|]. intros [pages [e|]] _; [apply wo_ret|].
  apply wo_bind; [apply wo_lift|]. intros sp _. apply wo_bind; [apply wo_lift|]. intros DP _.
  apply wo_bind. { unfold getAllTables. destruct (mget DP SysTablesIdx); [|apply wo_ret]. apply wo_bind; [apply wo_tables, Q1|]. intros. apply wo_ret. }
  intros [tm [e|]] _; [apply wo_ret|]. apply wo_bind. { unfold getAllColumns. destruct (mget DP SysColumnsIdx); [|apply wo_ret]. apply wo_bind; [apply wo_rows, Q2|]. intros. apply wo_bind; [apply wo_lift|]. intros. apply wo_ret. }
  intros [tm1 [e|]] _; [apply wo_ret|]. apply wo_bind. { unfold getAllIndexes. destruct (mget DP SysIndexesIdx); [|apply wo_ret]. apply wo_bind; [apply wo_rows, Q3|]. intros. apply wo_lift. }
  intros [tm2 [e|]] _; [apply wo_ret|]. apply wo_bind. { unfold getAllFields. destruct (mget DP SysFieldsIdx); [|apply wo_ret]. apply wo_bind; [apply wo_rows, Q4|]. intros. apply wo_bind; [apply wo_lift|]. intros. apply wo_ret. }
  intros [tm3 [e|]] _; [apply wo_ret|]. apply wo_bind; [apply wo_lift|]. intros. apply wo_ret.
Qed.
Lemma dict_silent fuel file : fst (ParseDictPage fuel rt file) = [].
Proof. apply silent, wo_dict. Qed.
End Dict.
