(** Proofs about reading a whole dictionary and about the tool as a whole. *)
From Coq Require Import ZifyBool Permutation.
From Verif Require Import GoBase Utils Ibdata SpecInno SpecText SpecSql SpecRecord SpecRow SpecPage SpecDict SpecTool PBase PWire PValue PText PRec PPage PSql PFile PNode PDict PropValue PropRec PropFile PropDict Cmd SpecCmd PropCmd.
Local Open Scope list_scope.
Ltac Zify.zify_post_hook ::= Z.div_mod_to_equations.

(** * Records *)
Lemma redundant_bytes page off wide fs : page_image page -> redundant_at page off wide fs -> Forall (fun f => all_bytes (rcontent f)) fs.
Proof.
  intros [_ Hb] (pre & header & post & H). cbv zeta in H. destruct H as [-> _].
  apply Forall_app in Hb as [_ Hb]. apply Forall_app in Hb as [_ Hb]. apply Forall_app in Hb as [_ Hb]. apply Forall_app in Hb as [Hb _].
  unfold rbody in Hb. clear - Hb. induction fs as [|f fs IH]; constructor; cbn [flat_map] in Hb; apply Forall_app in Hb as [H1 H2]; [exact H1|now apply IH].
Qed.

(** * Reading the columns of a dictionary record *)
Definition reads (rt : runtime) (c : Column) (l : layout) (p : rstored -> Prop) (ok : gval -> Prop) : Prop :=
  forall f rest, p f -> all_bytes (rcontent f) -> rfits l f /\ exists v bin,
    ParseData rt (c_type c) (c_mysql c) (rcontent f ++ rest) (len (rcontent f)) (match l_fixed l with Some n => n | None => 0 end) (c_unsigned c) (c_binary c)
    = ([], Ok (v, bin)) /\ ok v.
Inductive reads_all (rt : runtime) : list Column -> list layout -> list (rstored -> Prop) -> list (gval -> Prop) -> Prop :=
| ra_nil : reads_all rt [] [] [] []
| ra_cons c cs l ls p ps ok oks : reads rt c l p ok -> reads_all rt cs ls ps oks -> reads_all rt (c :: cs) (l :: ls) (p :: ps) (ok :: oks).
Lemma reads_row rt after cols ls ps oks : reads_all rt cols ls ps oks -> forall fs, Forall2 (fun (p : rstored -> Prop) f => p f) ps fs ->
  Forall (fun f => all_bytes (rcontent f)) fs ->
  Forall2 rfits ls fs /\ exists row, row_of rt after cols ls (map plain fs) row /\ Forall2 (fun (ok : gval -> Prop) c => ok (c_value c)) oks row
  /\ remarks cols (map plain fs) = [].
Proof.
  induction 1 as [|c cs l ls p ps ok oks H _ IH]; intros fs HF HB; inversion HF as [|? f ? fs' Hp HF']; subst.
  - split; [constructor|]. exists []. split; [constructor|]. split; constructor.
  - inversion HB as [|? ? Hb HB']; subst. destruct (IH fs' HF' HB') as [H1 [row [H2 [H3 H4]]]].
    destruct (H f (body (map plain fs') ++ after) Hp Hb) as [Hr [v [bin [E Hv]]]].
    split; [constructor; assumption|]. eexists. split; [cbn [map]; eapply row_quiet; [discriminate|exact E|exact H2]|].
    split; [constructor; [exact Hv|exact H3]|]. cbn [map plain remarks]. rewrite H4, <- (parse_remark _ _ _ _ _ _ _ _ _ _ E). reflexivity.
Qed.
Definition holds_all (oks : list (gval -> Prop)) (row : list Column) : Prop := Forall2 (fun ok c => ok (c_value c)) oks row.
Lemma decoded_values oks r0 r : Forall2 as_decoded r0 r -> holds_all oks r0 -> holds_all oks r.
Proof.
  intro H. revert oks. induction H as [|c0 c r0 r Hc _ IH]; intros oks HO; inversion HO; subst; constructor; [|now apply IH].
  destruct Hc as [->|[E ->]]; [assumption|]. cbn. assumption.
Qed.
Lemma records_decoded {D} rt tm page cols ls (record : D -> list (rstored -> Prop)) (oks : D -> list (gval -> Prop)) :
  redundant_page page -> Forall2 describes cols ls -> (3 <= List.length cols)%nat ->
  (forall d, reads_all rt cols ls (record d) (oks d)) -> forall offs defs,
  Forall2 (fun off d => user_origin off /\ exists wide fs, redundant_at page off wide fs /\ matches (record d) fs) offs defs ->
  forall cols', Forall2 moved cols cols' -> exists rows colsE, decoded rt tm page cols' offs rows [] colsE
    /\ Forall2 (fun d row => holds_all (oks d) row) defs rows /\ Forall2 moved cols colsE.
Proof.
  intros Hp HD H3 HR. induction 1 as [|off d offs defs [Hu [wide [fs [Hat [front [extra [-> HF]]]]]]] _ IH]; intros cols' HM.
  - exists [], cols'. repeat split; [constructor|constructor|exact HM].
  - apply redundant_prefix in Hat. pose proof (redundant_bytes _ _ _ _ (proj1 Hp) Hat) as HB.
    destruct (reads_row rt (skipn (Z.to_nat (off + len (rbody front))) page) _ _ _ _ (HR d) front HF HB) as [Hfit [row0 [R0 [R1 Rq]]]].
    destruct (row_moved _ _ _ _ _ _ R0 cols' HM) as [r [Q1 [Q2 Q3]]].
    destruct (IH r Q3) as [rows' [colsE [D1 [D2 D3]]]]. exists (r :: rows'), colsE.
    split; [|split; [constructor; [now apply (decoded_values _ row0)|exact D2]|exact D3]].
    change ([] : list bytes) with ([] ++ [] : list bytes). apply dec_cons; [|exact D1].
    rewrite (record_redundant rt tm page off wide cols' ls front); [rewrite (row_of_values _ _ _ _ _ _ Q1), <- (moved_remarks _ _ HM), Rq; reflexivity|exact Hp|exact Hat| |exact Hfit|].
    + now apply (moved_describes cols).
    + now rewrite <- (forall2_length _ _ _ HM).
Qed.
Lemma page_records {D} rt tm page cols ls (record : D -> list (rstored -> Prop)) (oks : D -> list (gval -> Prop)) defs fuel :
  holds_records record page defs -> Forall2 describes cols ls -> (3 <= List.length cols)%nat ->
  (forall d, reads_all rt cols ls (record d) (oks d)) -> (Z.to_nat 16384 < fuel)%nat -> forall cols', Forall2 moved cols cols' ->
  exists rows colsE, parsePage fuel rt tm page cols' false 0 = ([], Ok (rows, colsE)) /\ Forall2 (fun d row => holds_all (oks d) row) defs rows
    /\ Forall2 moved cols colsE.
Proof.
  intros [Hp [offs [Hc HF]]] HD H3 HR Hfuel cols' HM.
  destruct (records_decoded rt tm page cols ls record oks Hp HD H3 HR offs defs HF cols' HM) as [rows [colsE [D1 [D2 D3]]]].
  exists rows, colsE. split; [|split; [exact D2|exact D3]].
  assert (Hu : Forall user_origin offs) by (clear - HF; induction HF as [|o d offs defs [H _] _ IH]; constructor; assumption).
  assert (Hall : forall f, (List.length offs < f)%nat -> parsePage f rt tm page cols' false 0 = walked [] rows colsE)
    by (intros f Hff; now apply (page_live rt tm page false offs rows [] cols' colsE f)).
  apply Hall. pose proof (Hall (S (List.length offs)) ltac:(lia)) as E. unfold walked in E.
  rewrite (parsePage_start _ rt tm page cols' false) in E by exact Hp.
  pose proof (decoded_length _ _ _ _ _ _ _ _ D1) as Hl.
  destruct (walk_rows rt tm page _ cols (proj1 Hp) _ _ _ _ _ _ HM E) as [k [Hlife Hk2]].
  pose proof (life_bound _ 16378 k _ (fun y => step_range rt tm page _ cols y) Hlife). lia.
Qed.

(** * The pages of a tree *)
(** node pointers have the child's number, 4 bytes, where the columns have the
    transaction id, 6 bytes *)
Definition key_of (key : list (rstored -> Prop)) (ls : list layout) : Prop :=
  exists lk n lrest, ls = lk ++ mkLayout false (Some n) false :: lrest /\ n <> 4
    /\ forall fs, Forall2 (fun (p : rstored -> Prop) f => p f) key fs -> Forall2 rfits lk fs.
Lemma page_pointers rt tm page cols ls key fuel : holds_pointers key page -> Forall2 describes cols ls -> (3 <= List.length cols <= 50)%nat ->
  key_of key ls -> (0 < fuel)%nat -> forall cols', Forall2 moved cols cols' -> parsePage fuel rt tm page cols' false 0 = ([], Ok ([], cols')).
Proof.
  intros [Hp [off [offs [Hc HF]]]] HD H3 [lk [n [lrest [-> [Hn Hk]]]]] Hfuel cols' HM. inversion HF as [|? ? [Hu [wide [fs [child [Hat [Hfs Hch]]]]]] _]; subst.
  inversion Hc as [|? ? ? ? Hl _]; subst. apply (page_rejected rt tm page cols' off fuel Hp Hu Hl); [|exact Hfuel].
  specialize (Hk fs Hfs). pose proof (forall2_length _ _ _ Hk) as Hkl. pose proof (forall2_length _ _ _ HD) as Hdl. rewrite app_length in Hdl. cbn [List.length] in Hdl.
  pose proof (forall2_length _ _ _ HM) as Hml.
  apply (record_rejected rt tm page off wide cols' lk (mkLayout false (Some n) false) lrest fs child []); try assumption; try reflexivity.
  - now apply (moved_describes cols).
  - exists n. split; [reflexivity|]. unfold is_wide in Hch. change (@zlen) with (@len) in Hch. lia.
  - rewrite app_length. cbn [List.length]. lia.
  - lia.
Qed.
Lemma tree_pages {D} rt cols ls (record : D -> list (rstored -> Prop)) key (oks : D -> list (gval -> Prop)) fuel tm page defs :
  tree_page record key page defs -> Forall2 describes cols ls -> (3 <= List.length cols <= 50)%nat ->
  (forall d, reads_all rt cols ls (record d) (oks d)) -> key_of key ls -> (Z.to_nat 16384 < fuel)%nat -> forall cols', Forall2 moved cols cols' ->
  exists rows colsE, parsePage fuel rt tm page cols' false 0 = ([], Ok (rows, colsE)) /\ Forall2 (fun d row => holds_all (oks d) row) defs rows
    /\ Forall2 moved cols colsE.
Proof.
  intros HT HD H3 HR HK Hfuel cols' HM. destruct HT as [defs H|H].
  - now apply (page_records rt tm page cols ls record oks defs fuel H HD ltac:(lia) HR Hfuel).
  - exists [], cols'. split; [apply (page_pointers rt tm page cols ls key fuel H HD H3 HK ltac:(lia) cols' HM)|]. split; [constructor|exact HM].
Qed.
Lemma tree_rows {D} rt tm cols ls (record : D -> list (rstored -> Prop)) key (oks : D -> list (gval -> Prop)) fuel pages contents :
  Forall2 (tree_page record key) pages contents -> Forall2 describes cols ls -> (3 <= List.length cols <= 50)%nat ->
  (forall d, reads_all rt cols ls (record d) (oks d)) -> key_of key ls -> (Z.to_nat 16384 < fuel)%nat -> forall cols', Forall2 moved cols cols' ->
  exists rows, dictRows fuel rt tm pages cols' = ([], Ok rows) /\ Forall2 (fun d row => holds_all (oks d) row) (List.concat contents) rows.
Proof.
  intros HT HD H3 HR HK Hfuel. induction HT as [|page defs pages contents Hp _ IH]; intros cols' HM; [exists []; split; [reflexivity|constructor]|].
  destruct (tree_pages rt cols ls record key oks fuel tm page defs Hp HD H3 HR HK Hfuel cols' HM) as [rows [colsE [E1 [E2 E3]]]].
  destruct (IH colsE E3) as [rest [E4 E5]]. exists (rows ++ rest). cbn [dictRows List.concat]. rewrite E1, wbind_nil, E4, wbind_nil. split; [reflexivity|]. now apply Forall2_app.
Qed.
Lemma add_tables_app a : forall tm b, addTables tm (a ++ b) = (tm' <- addTables tm a ;; addTables tm' b).
Proof. induction a as [|r a IH]; intros tm b; [reflexivity|]. cbn [app addTables]. destruct (addTable tm r); cbn [bind]; [apply IH|reflexivity|reflexivity]. Qed.
Lemma tree_tables rt ls key (oks : table_def -> list (gval -> Prop)) record fuel pages contents : let cols := makeSysTablesColumns in
  Forall2 (tree_page record key) pages contents -> Forall2 describes cols ls ->
  (forall d, reads_all rt cols ls (record d) (oks d)) -> key_of key ls -> (Z.to_nat 16384 < fuel)%nat -> forall cols' tm, Forall2 moved cols cols' ->
  exists rows, getAllTables_loop fuel rt tm pages cols' = wlift (addTables tm rows) /\ Forall2 (fun d row => holds_all (oks d) row) (List.concat contents) rows.
Proof.
  intros cols HT HD HR HK Hfuel. induction HT as [|page defs pages contents Hp _ IH]; intros cols' tm HM; [exists []; split; [reflexivity|constructor]|].
  destruct (tree_pages rt cols ls record key oks fuel tm page defs Hp HD ltac:(cbn; lia) HR HK Hfuel cols' HM) as [rows [colsE [E1 [E2 E3]]]].
  cbn [getAllTables_loop]. rewrite E1, wbind_nil. destruct (addTables tm rows) as [tm'| |] eqn:Ea.
  - destruct (IH colsE tm' E3) as [rest [E4 E5]]. exists (rows ++ rest). rewrite wbind_lift, E4, add_tables_app, Ea. split; [reflexivity|now apply Forall2_app].
  - destruct (IH colsE tm E3) as [rest [E4 E5]]. exists (rows ++ rest). rewrite add_tables_app, Ea. split; [reflexivity|now apply Forall2_app].
  - destruct (IH colsE tm E3) as [rest [E4 E5]]. exists (rows ++ rest). rewrite add_tables_app, Ea. split; [reflexivity|now apply Forall2_app].
Qed.

(** * The four tables *)
Definition fixed_lay (n : Z) : layout := mkLayout false (Some n) false.
Definition var_lay : layout := mkLayout false None false.
Definition whatever (v : gval) : Prop := True.
Lemma slice_whole (b rest : bytes) : slice_to (b ++ rest) (len b) = Ok b.
Proof. now apply slice_to_app. Qed.
Lemma be_of_val l : all_bytes l -> be (List.length l) (be_val l) = l.
Proof.
  induction l as [|b l IH] using rev_ind; intro H; [reflexivity|]. apply Forall_app in H as [H1 H2]. inversion H2 as [|? ? Hb _]; subst. unfold is_byte in Hb.
  rewrite app_length, Nat.add_1_r, be_val_snoc. cbn [be]. replace ((be_val l * 256 + b) / 256) with (be_val l) by lia.
  rewrite IH by exact H1. f_equal. f_equal. lia.
Qed.
Lemma reads_sys rt name pos n : reads rt (sysCol name 1 pos n false) (fixed_lay n) (is_wide n) whatever.
Proof.
  intros f rest Hp Hb. split; [exact Hp|]. unfold is_wide in Hp. cbn [sysCol c_type c_mysql c_unsigned c_binary fixed_lay l_fixed].
  unfold ParseData. cbn [Z.eqb Pos.eqb DATA_VARCHAR]. rewrite slice_whole. cbn [bind]. eexists _, _. split; [reflexivity|exact I].
Qed.
Lemma reads_text rt name pos s : reads rt (sysCol name 4 pos 0 false) var_lay (is_text s) (eq (VStr s)).
Proof.
  intros f rest Hp Hb. unfold is_text in Hp. subst f. split; [exact I|]. cbn [sysCol c_type c_mysql c_unsigned c_binary var_lay l_fixed rcontent].
  unfold ParseData. cbn [Z.eqb Pos.eqb DATA_VARCHAR DATA_CHAR DATA_FIXBINARY DATA_BINARY MYSQL_TYPE_VARCHAR negb]. rewrite slice_whole. cbn [bind].
  eexists _, _. split; reflexivity.
Qed.
Lemma reads_any rt name pos : reads rt (sysCol name 4 pos 0 false) var_lay is_any whatever.
Proof.
  intros f rest Hp Hb. split; [exact I|]. cbn [sysCol c_type c_mysql c_unsigned c_binary var_lay l_fixed].
  unfold ParseData. cbn [Z.eqb Pos.eqb DATA_VARCHAR DATA_CHAR DATA_FIXBINARY DATA_BINARY MYSQL_TYPE_VARCHAR negb]. rewrite slice_whole. cbn [bind].
  eexists _, _. split; [reflexivity|exact I].
Qed.
Lemma reads_id rt name pos n : reads rt (sysCol name 4 pos 8 false) (fixed_lay 8) (is_num 8 n) (fun v => v = VUint n /\ 0 <= n < 2 ^ 64).
Proof.
  intros f rest [Hn ->] Hb. split; [reflexivity|]. cbn [sysCol c_type c_mysql c_unsigned c_binary fixed_lay l_fixed rcontent].
  unfold ParseData. cbn [Z.eqb Pos.eqb DATA_VARCHAR DATA_CHAR DATA_FIXBINARY DATA_BINARY MYSQL_TYPE_VARCHAR negb]. rewrite slice_whole. cbn [bind].
  pose proof (get_uint 8 n ltac:(cbn; tauto) Hn) as E. unfold store_uint in E. change (Z.of_nat 8) with 8 in E. rewrite E. cbn [bind].
  eexists _, _. split; [reflexivity|]. split; [reflexivity|exact Hn].
Qed.
Lemma reads_num rt name pos n : reads rt (sysCol name 6 pos 4 true) (fixed_lay 4) (is_num 4 n) (fun v => v = VUint n /\ 0 <= n < 2 ^ 32).
Proof.
  intros f rest [Hn ->] Hb. split; [reflexivity|]. cbn [sysCol c_type c_mysql c_unsigned c_binary fixed_lay l_fixed rcontent].
  unfold ParseData. cbn [Z.eqb Pos.eqb DATA_VARCHAR DATA_CHAR DATA_FIXBINARY DATA_BINARY DATA_INT MYSQL_TYPE_DATE MYSQL_TYPE_YEAR]. rewrite slice_whole. cbn [bind].
  pose proof (get_uint 4 n ltac:(cbn; tauto) Hn) as E. unfold store_uint in E. change (Z.of_nat 4) with 4 in E. rewrite E. cbn [bind].
  eexists _, _. split; [reflexivity|]. split; [reflexivity|exact Hn].
Qed.
Lemma reads_wide4 rt name pos u : reads rt (sysCol name 6 pos 4 u) (fixed_lay 4) (is_wide 4) whatever.
Proof.
  intros f rest Hp Hb. split; [exact Hp|]. unfold is_wide in Hp. cbn [sysCol c_type c_mysql c_unsigned c_binary fixed_lay l_fixed].
  assert (Hl : List.length (rcontent f) = 4%nat) by (unfold zlen in Hp; lia).
  pose proof (be_of_val _ Hb) as E. rewrite Hl in E. pose proof (be_val_bound _ Hb) as HV. unfold len in HV. rewrite Hl in HV.
  unfold ParseData. cbn [Z.eqb Pos.eqb DATA_VARCHAR DATA_CHAR DATA_FIXBINARY DATA_BINARY DATA_INT MYSQL_TYPE_DATE MYSQL_TYPE_YEAR]. rewrite slice_whole. cbn [bind].
  destruct u.
  - pose proof (get_uint 4 (be_val (rcontent f)) ltac:(cbn; tauto) HV) as E2. unfold store_uint in E2. rewrite E in E2. change (Z.of_nat 4) with 4 in E2. rewrite E2. cbn [bind].
    eexists _, _. split; [reflexivity|exact I].
  - destruct (get_int 4 (be_val (rcontent f) - 2 ^ 31) ltac:(cbn; tauto)) as [g [E2 _]].
    { change (8 * Z.of_nat 4 - 1) with 31. change (256 ^ Z.of_nat 4) with (2 ^ 32) in HV. lia. }
    unfold store_int in E2. change (8 * Z.of_nat 4 - 1) with 31 in E2. rewrite Z.sub_add, E in E2. change (Z.of_nat 4) with 4 in E2. rewrite E2. cbn [bind].
    eexists _, _. split; [reflexivity|exact I].
Qed.

Definition tables_lays : list layout := [var_lay; fixed_lay 6; fixed_lay 7; fixed_lay 8; fixed_lay 4; fixed_lay 4; var_lay; fixed_lay 4; var_lay; fixed_lay 4].
Definition tables_oks (d : table_def) : list (gval -> Prop) :=
  [eq (VStr (td_name d)); whatever; whatever; (fun v => v = VUint (td_id d) /\ 0 <= td_id d < 2 ^ 64); whatever; whatever; whatever; whatever; whatever;
   (fun v => v = VUint (td_space d) /\ 0 <= td_space d < 2 ^ 32)].
Lemma tables_reads rt d : reads_all rt makeSysTablesColumns tables_lays (tables_record d) (tables_oks d).
Proof.
  unfold makeSysTablesColumns, tables_lays, tables_record, tables_oks.
  repeat (apply ra_cons; [first [apply reads_sys|apply reads_text|apply reads_id|apply reads_num|apply reads_wide4|apply reads_any]|]). constructor.
Qed.
Definition columns_lays : list layout := [fixed_lay 8; fixed_lay 4; fixed_lay 6; fixed_lay 7; var_lay; fixed_lay 4; fixed_lay 4; fixed_lay 4; fixed_lay 4].
Definition num_ok (k n : Z) (v : gval) : Prop := v = VUint n /\ 0 <= n < 2 ^ k.
Definition columns_oks (d : column_def) : list (gval -> Prop) :=
  [num_ok 64 (cd_table d); num_ok 32 (cd_pos d); whatever; whatever; eq (VStr (cd_name d)); num_ok 32 (cd_mtype d); num_ok 32 (cd_prtype d); num_ok 32 (cd_len d); whatever].
Lemma columns_reads rt d : reads_all rt makeSysColumnsColumns columns_lays (columns_record d) (columns_oks d).
Proof.
  unfold makeSysColumnsColumns, columns_lays, columns_record, columns_oks.
  repeat (apply ra_cons; [first [apply reads_sys|apply reads_text|apply reads_id|apply reads_num|apply reads_wide4|apply reads_any]|]). constructor.
Qed.
Definition indexes_oks (d : index_def) : list (gval -> Prop) :=
  [num_ok 64 (id_table d); num_ok 64 (id_id d); whatever; whatever; eq (VStr (id_name d)); num_ok 32 (id_nfields d); num_ok 32 (id_type d); whatever; whatever].
Definition indexes_lays : list layout := [fixed_lay 8; fixed_lay 8; fixed_lay 6; fixed_lay 7; var_lay; fixed_lay 4; fixed_lay 4; fixed_lay 4; fixed_lay 4].
Lemma indexes_reads rt d : reads_all rt makeSysIndexesColumns indexes_lays (indexes_record d) (indexes_oks d).
Proof.
  unfold makeSysIndexesColumns, indexes_lays, indexes_record, indexes_oks.
  repeat (apply ra_cons; [first [apply reads_sys|apply reads_text|apply reads_id|apply reads_num|apply reads_wide4|apply reads_any]|]). constructor.
Qed.
Definition fields_oks (d : field_def) : list (gval -> Prop) :=
  [num_ok 64 (fd_index d); num_ok 32 (fd_position d); whatever; whatever; eq (VStr (fd_column d))].
Definition fields_lays : list layout := [fixed_lay 8; fixed_lay 4; fixed_lay 6; fixed_lay 7; var_lay].
Lemma fields_reads rt d : reads_all rt makeSysFieldsColumns fields_lays (fields_record d) (fields_oks d).
Proof.
  unfold makeSysFieldsColumns, fields_lays, fields_record, fields_oks.
  repeat (apply ra_cons; [first [apply reads_sys|apply reads_text|apply reads_id|apply reads_num|apply reads_wide4|apply reads_any]|]). constructor.
Qed.
Ltac described := repeat (constructor; [unfold describes; cbn; intuition (first [discriminate|lia])|]); constructor.
Lemma tables_described : Forall2 describes makeSysTablesColumns tables_lays. Proof. described. Qed.
Lemma columns_described : Forall2 describes makeSysColumnsColumns columns_lays. Proof. described. Qed.
Lemma indexes_described : Forall2 describes makeSysIndexesColumns indexes_lays. Proof. described. Qed.
Lemma fields_described : Forall2 describes makeSysFieldsColumns fields_lays. Proof. described. Qed.
Ltac keyed n lays := exists (firstn n lays), 6, (skipn (S n) lays); split; [reflexivity|]; split; [lia|]; intros fs H; unfold tables_key, columns_key, indexes_key, fields_key in H;
  repeat match goal with H : Forall2 _ (_ :: _) _ |- _ => inversion H; subst; clear H | H : Forall2 _ [] _ |- _ => inversion H; subst; clear H end;
  repeat (constructor; [first [assumption|exact I]|]); constructor.
Lemma tables_keyed : key_of tables_key tables_lays. Proof. keyed 1%nat tables_lays. Qed.
Lemma columns_keyed : key_of columns_key columns_lays. Proof. keyed 2%nat columns_lays. Qed.
Lemma indexes_keyed : key_of indexes_key indexes_lays. Proof. keyed 2%nat indexes_lays. Qed.
Lemma fields_keyed : key_of fields_key fields_lays. Proof. keyed 2%nat fields_lays. Qed.

Ltac rows_of H := repeat match goal with
  | H : holds_all (_ :: _) _ |- _ => let c := fresh "c" in let r := fresh "r" in inversion H as [|? c ? r ? ?]; subst; clear H
  | H : Forall2 _ (_ :: _) _ |- _ => let c := fresh "c" in let r := fresh "r" in inversion H as [|? c ? r ? ?]; subst; clear H
  end.
Lemma tables_held d row : holds_all (tables_oks d) row -> tables_row row (td_name d) (td_id d) (td_space d).
Proof.
  unfold holds_all, tables_oks. intro H. rows_of H. unfold tables_row, holds_value. cbn [nth_error option_map].
  repeat match goal with H : _ /\ _ |- _ => destruct H as [? ?] end. repeat split; congruence.
Qed.
Lemma columns_held d row : holds_all (columns_oks d) row -> columns_row row d.
Proof.
  unfold holds_all, columns_oks, num_ok. intro H. rows_of H. unfold columns_row, holds_value. cbn [nth_error option_map].
  repeat match goal with H : _ /\ _ |- _ => destruct H as [? ?] end. repeat split; congruence.
Qed.
Lemma indexes_held d row : holds_all (indexes_oks d) row -> indexes_row row d /\ 0 <= id_nfields d < 2 ^ 32.
Proof.
  unfold holds_all, indexes_oks, num_ok. intro H. rows_of H. unfold indexes_row, holds_value. cbn [nth_error option_map].
  repeat match goal with H : _ /\ _ |- _ => destruct H as [? ?] end. repeat split; congruence || lia.
Qed.
Lemma fields_held d row : holds_all (fields_oks d) row -> fields_row row d.
Proof.
  unfold holds_all, fields_oks, num_ok. intro H. rows_of H. unfold fields_row, holds_value. cbn [nth_error option_map].
  repeat match goal with H : _ /\ _ |- _ => destruct H as [? ?] end. repeat split; congruence.
Qed.

(** * Filling the table map *)
Lemma forall2_flip {A B} (R : A -> B -> Prop) l m : Forall2 R l m -> Forall2 (fun b a => R a b) m l.
Proof. induction 1; constructor; assumption. Qed.
Definition base_table (t : table_def) (e : Table) : Prop :=
  exists db tb, named_as (td_name t) db tb /\ e = mkTable db tb [] [] 0 (td_space t).
Definition find_table (ts : list table_def) (id : Z) : option table_def := find (fun t => td_id t =? id) ts.
Lemma find_table_in ts t : NoDup (map td_id ts) -> In t ts -> find_table ts (td_id t) = Some t.
Proof.
  unfold find_table. induction ts as [|x ts IH]; intros Hd Hi; [contradiction|]. cbn [map] in Hd. inversion Hd as [|? ? Hx Hd']; subst. cbn [find].
  destruct Hi as [->|Hi]; [now rewrite Z.eqb_refl|]. destruct (Z.eqb_spec (td_id x) (td_id t)) as [E|]; [|now apply IH].
  exfalso. apply Hx. rewrite E. now apply in_map.
Qed.
Lemma find_table_some ts id t : find_table ts id = Some t -> In t ts /\ td_id t = id.
Proof. intro H. apply find_some in H as [H1 H2]. split; [exact H1|lia]. Qed.
Lemma find_table_none ts id : find_table ts id = None <-> ~ In id (map td_id ts).
Proof.
  unfold find_table. split.
  - intros H Hi. apply in_map_iff in Hi as [t [E Hi]]. pose proof (find_none _ _ H t Hi) as X. cbv beta in X. lia.
  - intro H. destruct (find _ ts) as [t|] eqn:E; [|reflexivity]. exfalso. apply H. apply find_some in E as [E1 E2]. apply in_map_iff. exists t. split; [lia|exact E1].
Qed.
Definition represents (ts : list table_def) (P : table_def -> Table -> Prop) (tm : gomap Table) : Prop :=
  NoDup (map fst tm) /\ forall id, match find_table ts id with Some t => exists e, mget tm id = Some e /\ P t e | None => mget tm id = None end.
Lemma add_tables ts : NoDup (map td_id ts) -> (forall t, In t ts -> exists db tb, named_as (td_name t) db tb) ->
  forall rows, Forall2 (fun t row => tables_row row (td_name t) (td_id t) (td_space t)) ts rows ->
  forall tm, NoDup (map fst tm) -> exists tm', addTables tm rows = Ok tm' /\ NoDup (map fst tm')
    /\ forall id, match find_table ts id with Some t => exists e, mget tm' id = Some e /\ base_table t e | None => mget tm' id = mget tm id end.
Proof.
  induction ts as [|t ts IH]; intros Hd Hn rows HF tm Ht; inversion HF as [|? row ? rows' Hr HF']; subst; cbn [addTables].
  - exists tm. split; [reflexivity|]. split; [exact Ht|]. intro id. reflexivity.
  - cbn [map] in Hd. inversion Hd as [|? ? Hx Hd']; subst. destruct (Hn t (or_introl eq_refl)) as [db [tb Hnm]].
    rewrite (add_table tm row (td_name t) (td_id t) (td_space t) db tb Hr Hnm). cbn [bind].
    destruct (IH Hd' (fun t' H => Hn t' (or_intror H)) rows' HF' _ (mset_nodup tm (td_id t) (mkTable db tb [] [] 0 (td_space t)) Ht)) as [tm' [E1 [E2 E3]]].
    exists tm'. split; [exact E1|]. split; [exact E2|]. intro id. specialize (E3 id). unfold find_table in *. cbn [find].
    destruct (Z.eqb_spec (td_id t) id) as [<-|N].
    + destruct (find (fun t0 => td_id t0 =? td_id t) ts) as [t'|] eqn:Ef.
      { exfalso. apply find_some in Ef as [Hi E]. apply Hx. apply in_map_iff. exists t'. split; [lia|exact Hi]. }
      rewrite E3, mget_mset, Z.eqb_refl. eexists. split; [reflexivity|]. exists db, tb. split; [exact Hnm|reflexivity].
    + destruct (find (fun t0 => td_id t0 =? id) ts) as [t'|]; [exact E3|]. rewrite E3, mget_mset. now replace (id =? td_id t) with false by lia.
Qed.
Lemma add_column_keys tm row tm' : addColumn tm row = Ok tm' -> NoDup (map fst tm) -> NoDup (map fst tm').
Proof.
  intros H Hd. destruct (add_column_shape tm row tm' H) as [->|X]; [exact Hd|]. destruct X as [id [t [c [_ ->]]]]. now apply mset_nodup.
Qed.
Lemma add_columns_keys rows : forall tm tm', addAllColumns tm rows = Ok tm' -> NoDup (map fst tm) -> NoDup (map fst tm').
Proof.
  induction rows as [|r rows IH]; intros tm tm' H Hd; cbn [addAllColumns] in H; [now injection H as <-|].
  destruct (addColumn tm r) as [tm1| |] eqn:E; cbn [bind] in H; try discriminate. eapply IH; [exact H|]. eapply add_column_keys; eauto.
Qed.
Definition raw_index (i : index_def) : Index := mkIndex (id_id i) (id_name i) (id_nfields i) (id_type i) [].
Definition with_index (t : Table) (i : index_def) : Table :=
  mkTable (t_db t) (t_name t) (t_columns t) (mset (t_indexes t) (id_id i) (raw_index i)) (t_nullcount t) (t_space t).
Fixpoint with_indexes (t : Table) (is : list index_def) : Table :=
  match is with [] => t | i :: is' => with_indexes (with_index t i) is' end.
Lemma add_index tm row i t : indexes_row row i -> mget tm (id_table i) = Some t ->
  addIndex tm row = Ok (mset tm (id_table i) (with_index t i), None).
Proof.
  intros [H0 [H1 [H4 [H5 H6]]]] Hg. unfold addIndex. apply as_uint_value in H0, H1, H5, H6. apply as_str_value in H4.
  change (Z.of_nat 0) with 0 in H0. change (Z.of_nat 1) with 1 in H1. change (Z.of_nat 4) with 4 in H4. change (Z.of_nat 5) with 5 in H5. change (Z.of_nat 6) with 6 in H6.
  rewrite H0. cbn [bind]. rewrite Hg, H1. cbn [bind]. rewrite H4. cbn [bind]. rewrite H6. cbn [bind]. rewrite H5. reflexivity.
Qed.
Lemma add_indexes rows is : Forall2 indexes_row rows is -> forall tm, (forall i, In i is -> mget tm (id_table i) <> None) -> NoDup (map fst tm) ->
  exists tm', addIndexes tm None rows = Ok (tm', None) /\ NoDup (map fst tm')
  /\ forall id, mget tm' id = option_map (fun t => with_indexes t (filter (fun i => id_table i =? id) is)) (mget tm id).
Proof.
  induction 1 as [|r i rows is Hr _ IH]; intros tm Hk Hd; cbn [addIndexes].
  - exists tm. split; [reflexivity|]. split; [exact Hd|]. intro id. cbn. now destruct (mget tm id).
  - destruct (mget tm (id_table i)) as [t|] eqn:Et; [|exfalso; now apply (Hk i (or_introl eq_refl))].
    rewrite (add_index tm r i t Hr Et). cbn [bind].
    destruct (IH (mset tm (id_table i) (with_index t i))) as [tm' [E1 [E2 E3]]].
    + intros j Hj. rewrite mget_mset. destruct (id_table j =? id_table i); [discriminate|]. apply Hk. now right.
    + now apply mset_nodup.
    + exists tm'. split; [exact E1|]. split; [exact E2|]. intro id. rewrite E3, mget_mset. cbn [filter].
      destruct (Z.eqb_spec (id_table i) id) as [<-|N].
      * rewrite Z.eqb_refl, Et. reflexivity.
      * replace (id =? id_table i) with false by lia. reflexivity.
Qed.
Lemma mset_fresh {V} (m : gomap V) k v : ~ In k (map fst m) -> mset m k v = m ++ [(k, v)].
Proof.
  induction m as [|[a w] m IH]; intro H; [reflexivity|]. cbn [mset map fst] in *. destruct (Z.eqb_spec k a) as [->|N]; [exfalso; apply H; now left|].
  cbn [app]. f_equal. apply IH. intro X. apply H. now right.
Qed.
Lemma with_indexes_spec is : forall t, NoDup (map id_id is) -> (forall i, In i is -> ~ In (id_id i) (map fst (t_indexes t))) ->
  with_indexes t is = mkTable (t_db t) (t_name t) (t_columns t) (t_indexes t ++ map (fun i => (id_id i, raw_index i)) is) (t_nullcount t) (t_space t).
Proof.
  induction is as [|i is IH]; intros t Hd Hf; cbn [with_indexes map]; [rewrite app_nil_r; now destruct t|].
  cbn [map] in Hd. inversion Hd as [|? ? Hx Hd']; subst. rewrite IH.
  - unfold with_index. cbn [t_db t_name t_columns t_indexes t_nullcount t_space]. rewrite mset_fresh by (apply Hf; now left). rewrite <- app_assoc. reflexivity.
  - exact Hd'.
  - intros j Hj. unfold with_index. cbn [t_indexes]. rewrite mset_fresh by (apply Hf; now left). rewrite map_app, in_app_iff. cbn. intros [X|[X|[]]].
    + revert X. apply Hf. now right.
    + apply Hx. rewrite X. now apply in_map.
Qed.
Definition to_field (f : field_def) : Field := mkField (fd_position f) (fd_column f).
Lemma add_fields rows fs : Forall2 fields_row rows fs -> forall m, exists m', addFields m rows = Ok m' /\ forall k,
  match mget m' k with Some v => v | None => [] end = match mget m k with Some v => v | None => [] end ++ map to_field (filter (fun f => fd_index f =? k) fs).
Proof.
  induction 1 as [|r f rows fs Hr _ IH]; intro m; cbn [addFields].
  - exists m. split; [reflexivity|]. intro k. cbn. now rewrite app_nil_r.
  - assert (E : addField m r = Ok (mset m (fd_index f) (match mget m (fd_index f) with Some v => v | None => [] end ++ [to_field f]))).
    { destruct Hr as [H0 [H1 H4]]. unfold addField. apply as_uint_value in H0, H1. apply as_str_value in H4.
      change (Z.of_nat 0) with 0 in H0. change (Z.of_nat 1) with 1 in H1. change (Z.of_nat 4) with 4 in H4.
      rewrite H0. cbn [bind]. rewrite H1. cbn [bind]. rewrite H4. reflexivity. }
    rewrite E. cbn [bind]. destruct (IH (mset m (fd_index f) (match mget m (fd_index f) with Some v => v | None => [] end ++ [to_field f]))) as [m' [E1 E2]].
    exists m'. split; [exact E1|]. intro k. rewrite E2, mget_mset. cbn [filter].
    destruct (Z.eqb_spec (fd_index f) k) as [<-|N].
    + rewrite Z.eqb_refl. cbn [map]. now rewrite <- app_assoc.
    + now replace (k =? fd_index f) with false by lia.
Qed.
Lemma attach_get m tm id : mget (attachFields m tm) id = option_map (fun t => mkTable (t_db t) (t_name t) (t_columns t) (map (set_fields m) (t_indexes t)) (t_nullcount t) (t_space t)) (mget tm id).
Proof.
  unfold attachFields. induction tm as [|[k t] tm IH]; [reflexivity|]. cbn [map mget fst snd]. destruct (id =? k); [reflexivity|exact IH].
Qed.
Lemma attach_keys m tm : map fst (attachFields m tm) = map fst tm.
Proof. unfold attachFields. rewrite map_map. reflexivity. Qed.
Lemma growns_null ds : forall t, t_nullcount (growns t ds) = t_nullcount t + zlen (filter (fun c => negb (Z.testbit (cd_prtype c) 8)) ds).
Proof.
  induction ds as [|d ds IH]; intro t; cbn [growns filter]; [unfold zlen; cbn; lia|]. rewrite IH. unfold grown. cbn [t_nullcount new_column c_null].
  destruct (negb (Z.testbit (cd_prtype d) 8)); [unfold zlen; cbn [List.length]; lia|lia].
Qed.

(** * The loaded map before the columns are put in order *)
Definition loaded (d : dictionary) (t : table_def) (e : Table) : Prop :=
  named_as (td_name t) (t_db e) (t_name e) /\ t_columns e = map descriptor (columns_of d (td_id t))
  /\ t_indexes e = map (index_entry d) (indexes_of d (td_id t))
  /\ t_nullcount e = zlen (filter (fun c => negb (Z.testbit (cd_prtype c) 8)) (columns_of d (td_id t))) /\ t_space e = td_space t.
Lemma nodup_filter {A B} (g : A -> B) (f : A -> bool) l : NoDup (map g l) -> NoDup (map g (filter f l)).
Proof.
  induction l as [|x l IH]; intro H; [constructor|]. cbn [map] in H. inversion H as [|? ? Hx H']; subst. cbn [filter]. destruct (f x); [|now apply IH].
  cbn [map]. constructor; [|now apply IH]. intro X. apply Hx. apply in_map_iff in X as [y [E Hy]]. apply filter_In in Hy as [Hy _]. rewrite <- E. now apply in_map.
Qed.
Lemma tree_filter rts k ps : forall ds, fold_left (tree_step rts k) ps ds = fold_left (tree_step rts k) (filter (fun p => index_of p =? k) ps) ds.
Proof.
  induction ps as [|p ps IH]; intro ds; [reflexivity|]. cbn [fold_left filter]. destruct (index_of p =? k) eqn:E; [cbn [fold_left]; apply IH|].
  rewrite <- IH. f_equal. unfold tree_step. now rewrite E.
Qed.
Lemma tree_rest rts k ps : (forall p, In p ps -> index_of p = k /\ ~ In (page_number p) rts) -> forall ds, fold_left (tree_step rts k) ps (Some ds) = Some (ds ++ ps).
Proof.
  induction ps as [|p ps IH]; intros H ds; [now rewrite app_nil_r|]. cbn [fold_left]. destruct (H p (or_introl eq_refl)) as [H1 H2].
  unfold tree_step at 2. rewrite H1, Z.eqb_refl. destruct (is_root rts p) eqn:E; [exfalso; now apply H2, is_root_in|]. cbn [option_map].
  rewrite IH by (intros q Hq; apply H; now right). now rewrite <- app_assoc.
Qed.
Lemma tree_whole rts k ps page others : filter (fun p => index_of p =? k) ps = page :: others -> In (page_number page) rts -> NoDup (map page_number ps) ->
  (forall r, In r rts -> exists p, In p ps /\ page_number p = r /\ (index_of p = k -> p = page)) -> fold_left (tree_step rts k) ps None = Some (page :: others).
Proof.
  intros HF Hr Hd Hall. rewrite tree_filter, HF. cbn [fold_left].
  assert (Hin : forall q, In q (page :: others) -> In q ps /\ index_of q = k) by (intros q Hq; rewrite <- HF in Hq; apply filter_In in Hq as [H1 H2]; split; [exact H1|lia]).
  destruct (Hin page (or_introl eq_refl)) as [_ Hk]. unfold tree_step at 2. rewrite Hk, Z.eqb_refl, (proj2 (is_root_in rts page) Hr).
  rewrite tree_rest; [reflexivity|]. intros q Hq. destruct (Hin q (or_intror Hq)) as [Hq1 Hq2]. split; [exact Hq2|]. intro Hqr.
  destruct (Hall _ Hqr) as [p [P1 [P2 P3]]].
  assert (Eq : p = q).
  { clear - Hd P1 Hq1 P2. induction ps as [|x ps IH]; [destruct P1|]. cbn [map] in Hd. inversion Hd as [|? ? Hx Hd']; subst. destruct P1 as [->|P1], Hq1 as [->|Hq1].
    - reflexivity.
    - exfalso. apply Hx. rewrite P2. now apply in_map.
    - exfalso. apply Hx. rewrite <- P2. now apply in_map.
    - now apply IH. }
  subst q. pose proof (P3 Hq2) as ->. pose proof (nodup_filter page_number (fun p => index_of p =? k) ps Hd) as HN. rewrite HF in HN. cbn [map] in HN.
  inversion HN as [|? ? HX _]; subst. apply HX. now apply in_map.
Qed.
Lemma set_field_entry m i v : match mget m (id_id i) with Some v => v | None => [] end = v ->
  set_fields m (id_id i, raw_index i) = (id_id i, mkIndex (id_id i) (id_name i) (id_nfields i) (id_type i) v).
Proof. intro H. unfold set_fields. destruct (mget m (id_id i)); subst; reflexivity. Qed.

(** Everything up to the index rows, which are about to be recorded *)
Lemma dict_front fuel rt pages d : stores_dictionary pages d -> NoDup (map td_id (dd_tables d)) -> (forall t, In t (dd_tables d) -> exists db tb, named_as (td_name t) db tb) ->
  (Z.to_nat 16384 < fuel)%nat ->
  exists D tree contents tm1 tm2 rows, ParseDictPage fuel rt (Some (map IoBytes pages))
    = ('(tm, err) <-w wlift (addIndexes tm2 None rows) ;;
       match err with Some e => wret (tm, Some e) | None =>
       '(tm, err) <-w getAllFields fuel rt tm D ;;
       match err with Some e => wret (tm, Some e) | None =>
       tm <-w wlift (finishDict tm) ;;
       wret (tm, None)
       end end)
  /\ Forall2 indexes_row rows (dd_indexes d) /\ Forall (fun i => 0 <= id_nfields i < 2 ^ 32) (dd_indexes d)
  /\ NoDup (map fst tm2) /\ (forall id, mget tm2 id = option_map (fun t => growns t (of_table id (dd_columns d))) (mget tm1 id))
  /\ (forall id, match find_table (dd_tables d) id with Some t => exists e, mget tm1 id = Some e /\ base_table t e | None => mget tm1 id = None end)
  /\ mget D 4 = Some tree /\ Forall2 (tree_page fields_record fields_key) tree contents /\ List.concat contents = dd_fields d.
Proof.
  intros [Hp [r1 [r2 [r3 [r4 [Hr [T1 [T2 [T3 T4]]]]]]]]] C1 C3 Hfuel.
  destruct (dict_run fuel rt pages Hp) as [D [-> HD]].
  assert (Hr0 : roots0 (firsts pages) = [r1; r2; r3; r4]).
  { rewrite <- Hr. unfold roots0, roots in *. destruct (find _ (firsts pages)); [reflexivity|discriminate]. }
  destruct T1 as [p1 [o1 [cs1 [F1 [N1 [G1 D1]]]]]]. destruct T2 as [p2 [o2 [cs2 [F2 [N2 [G2 D2]]]]]].
  destruct T3 as [p3 [o3 [cs3 [F3 [N3 [G3 D3]]]]]]. destruct T4 as [p4 [o4 [cs4 [F4 [N4 [G4 D4]]]]]].
  assert (HI : forall k p o, filter (fun p => index_of p =? k) (firsts pages) = p :: o -> In p (firsts pages) /\ index_of p = k).
  { intros k p o HF. assert (X : In p (p :: o)) by now left. rewrite <- HF in X. apply filter_In in X as [X1 X2]. split; [exact X1|lia]. }
  pose proof (HI _ _ _ F1) as [P1 K1]. pose proof (HI _ _ _ F2) as [P2 K2]. pose proof (HI _ _ _ F3) as [P3 K3]. pose proof (HI _ _ _ F4) as [P4 K4].
  assert (ND : NoDup (map page_number (firsts pages))) by apply numbers_distinct.
  assert (HW : forall k p o, filter (fun p => index_of p =? k) (firsts pages) = p :: o -> In p [p1; p2; p3; p4] -> mget D k = Some (p :: o)).
  { intros k p o HF Hp0. pose proof (HI _ _ _ HF) as [_ Hk]. rewrite HD, Hr0. apply tree_whole; [exact HF| |exact ND|].
    - rewrite <- N1, <- N2, <- N3, <- N4. change [page_number p1; page_number p2; page_number p3; page_number p4] with (map page_number [p1; p2; p3; p4]). now apply in_map.
    - intros r [<-|[<-|[<-|[<-|[]]]]].
      + exists p1. split; [exact P1|]. split; [exact N1|]. intro X. destruct Hp0 as [<-|[<-|[<-|[<-|[]]]]]; congruence.
      + exists p2. split; [exact P2|]. split; [exact N2|]. intro X. destruct Hp0 as [<-|[<-|[<-|[<-|[]]]]]; congruence.
      + exists p3. split; [exact P3|]. split; [exact N3|]. intro X. destruct Hp0 as [<-|[<-|[<-|[<-|[]]]]]; congruence.
      + exists p4. split; [exact P4|]. split; [exact N4|]. intro X. destruct Hp0 as [<-|[<-|[<-|[<-|[]]]]]; congruence. }
  assert (M1 : mget D 1 = Some (p1 :: o1)) by (apply HW; [exact F1|cbn; tauto]).
  assert (M2 : mget D 2 = Some (p2 :: o2)) by (apply HW; [exact F2|cbn; tauto]).
  assert (M3 : mget D 3 = Some (p3 :: o3)) by (apply HW; [exact F3|cbn; tauto]).
  assert (M4 : mget D 4 = Some (p4 :: o4)) by (apply HW; [exact F4|cbn; tauto]).
  unfold dict_rest.
  (* SYS_TABLES *)
  unfold getAllTables. change SysTablesIdx with 1. rewrite M1.
  destruct (tree_tables rt _ tables_key tables_oks tables_record fuel _ _ G1 tables_described (tables_reads rt) tables_keyed Hfuel _ [] (moved_refls _)) as [rows1 [E1 R1]].
  rewrite E1. rewrite D1 in R1.
  destruct (add_tables (dd_tables d) C1 C3 rows1) with (tm := @nil (Z * Table)) as [tm1 [A1 [A2 A3]]].
  { clear - R1. induction R1 as [|t row ts rows H _ IH]; constructor; [now apply tables_held|exact IH]. }
  { constructor. }
  rewrite A1, !wbind_lift, !wbind_ret. cbv beta iota.
  (* SYS_COLUMNS *)
  unfold getAllColumns. change SysColumnsIdx with 2. rewrite M2.
  destruct (tree_rows rt tm1 _ _ columns_record columns_key columns_oks fuel _ _ G2 columns_described ltac:(cbn; lia) (columns_reads rt) columns_keyed Hfuel _ (moved_refls _)) as [rows2 [E2 R2]].
  rewrite E2, wbind_nil. rewrite D2 in R2.
  assert (R2' : Forall2 columns_row rows2 (dd_columns d)).
  { apply forall2_flip. clear - R2. induction R2 as [|t row ts rows H _ IH]; constructor; [now apply columns_held|exact IH]. }
  destruct (add_all rows2 (dd_columns d) R2' tm1) as [tm2 [B1 B2]]. pose proof (add_columns_keys _ _ _ B1 A2) as B3.
  rewrite B1, !wbind_lift, !wbind_ret. cbv beta iota.
  (* SYS_INDEXES *)
  unfold getAllIndexes. change SysIndexesIdx with 3. rewrite M3.
  destruct (tree_rows rt tm2 _ _ indexes_record indexes_key indexes_oks fuel _ _ G3 indexes_described ltac:(cbn; lia) (indexes_reads rt) indexes_keyed Hfuel _ (moved_refls _)) as [rows3 [E3 R3]].
  rewrite E3, wbind_nil. rewrite D3 in R3.
  assert (R3' : Forall2 indexes_row rows3 (dd_indexes d)).
  { apply forall2_flip. clear - R3. induction R3 as [|t row ts rows H _ IH]; constructor; [now apply indexes_held|exact IH]. }
  assert (R3n : Forall (fun i => 0 <= id_nfields i < 2 ^ 32) (dd_indexes d)).
  { clear - R3. induction R3 as [|t row ts rows H _ IH]; constructor; [now apply (indexes_held t row)|exact IH]. }
  exists D, (p4 :: o4), cs4, tm1, tm2, rows3. split; [reflexivity|]. split; [exact R3'|]. split; [exact R3n|]. split; [exact B3|]. split; [exact B2|]. split; [exact A3|].
  split; [exact M4|]. split; [exact G4|exact D4].
Qed.
Lemma dict_filled fuel rt pages d : stores_dictionary pages d -> consistent d -> (Z.to_nat 16384 < fuel)%nat ->
  exists tm, ParseDictPage fuel rt (Some (map IoBytes pages)) = (tm <-w wlift (finishDict tm) ;; wret (tm, None))
  /\ represents (dd_tables d) (loaded d) tm /\ Forall (fun i => 0 <= id_nfields i < 2 ^ 32) (dd_indexes d).
Proof.
  intros Hs [C1 [C2 [C3 [C4 _]]]] Hfuel. destruct (dict_front fuel rt pages d Hs C1 C3 Hfuel) as [D [tree [cs4 [tm1 [tm2 [rows3 [-> [R3' [R3n [B3 [B2 [A3 [M4 [G4 D4]]]]]]]]]]]]]].
  destruct (add_indexes rows3 (dd_indexes d) R3' tm2) as [tm3 [I1 [I2 I3]]].
  { intros i Hi. rewrite B2. specialize (A3 (id_table i)). destruct (find_table (dd_tables d) (id_table i)) as [t|] eqn:Ef.
    - destruct A3 as [e [-> _]]. discriminate.
    - apply find_table_none in Ef. exfalso. apply Ef. now apply C4. }
  { exact B3. }
  rewrite I1, wbind_lift. cbv beta iota.
  (* SYS_FIELDS *)
  unfold getAllFields. change SysFieldsIdx with 4. rewrite M4.
  destruct (tree_rows rt tm3 _ _ fields_record fields_key fields_oks fuel _ _ G4 fields_described ltac:(cbn; lia) (fields_reads rt) fields_keyed Hfuel _ (moved_refls _)) as [rows4 [E4 R4]].
  rewrite E4, wbind_nil. rewrite D4 in R4.
  assert (R4' : Forall2 fields_row rows4 (dd_fields d)).
  { apply forall2_flip. clear - R4. induction R4 as [|t row ts rows H _ IH]; constructor; [now apply fields_held|exact IH]. }
  destruct (add_fields rows4 (dd_fields d) R4' []) as [m [J1 J2]].
  rewrite J1, !wbind_lift, !wbind_ret. cbv beta iota.
  exists (attachFields m tm3). split; [reflexivity|]. split; [|exact R3n].
  split; [rewrite attach_keys; exact I2|]. intro id. rewrite attach_get, I3, B2. specialize (A3 id).
  destruct (find_table (dd_tables d) id) as [t|] eqn:Ef; [|now rewrite A3].
  apply find_table_some in Ef as [Ht <-]. destruct A3 as [e [-> [db [tb [Hn ->]]]]]. cbn [option_map]. eexists. split; [reflexivity|].
  fold (of_table (td_id t) (dd_columns d)). set (g := growns _ _).
  destruct (growns_spec (of_table (td_id t) (dd_columns d)) (mkTable db tb [] [] 0 (td_space t))) as [S1 [S2 [S3 [S4 S5]]]]. fold g in S1, S2, S3, S4, S5.
  pose proof (growns_null (of_table (td_id t) (dd_columns d)) (mkTable db tb [] [] 0 (td_space t))) as S6. fold g in S6. cbn [t_columns t_db t_name t_indexes t_space t_nullcount app] in *.
  rewrite with_indexes_spec.
  - unfold loaded. cbn [t_columns t_db t_name t_indexes t_space t_nullcount]. rewrite S1, S2, S3, S4, S5, S6. split; [exact Hn|]. split; [reflexivity|]. split; [|split; [reflexivity|reflexivity]].
    cbn [app]. rewrite map_map. apply map_ext. intro i. unfold index_entry. apply set_field_entry. exact (J2 (id_id i)).
  - now apply nodup_filter.
  - intros i _. rewrite S4. intros [].
Qed.

(** An index of a table that SYS_TABLES does not have *)
Lemma add_stray rows is : Forall2 indexes_row rows is -> forall tm err, exists tm', addIndexes tm err rows
  = Ok (tm', fold_left (fun e i => match mget tm (id_table i) with Some _ => e | None => Some (bs "Table ID have not found " ++ fmt_d (id_table i)) end) is err).
Proof.
  induction 1 as [|r i rows is Hr _ IH]; intros tm err; cbn [addIndexes fold_left].
  - exists tm. reflexivity.
  - destruct (mget tm (id_table i)) as [t|] eqn:Et.
    + rewrite (add_index tm r i t Hr Et). cbn [bind]. destruct (IH (mset tm (id_table i) (with_index t i)) err) as [tm' E]. exists tm'. rewrite E. do 2 f_equal. clear - Et.
      revert err. induction is as [|j is IH]; intro err; [reflexivity|]. cbn [fold_left]. rewrite IH. f_equal. rewrite mget_mset. destruct (Z.eqb_spec (id_table j) (id_table i)) as [->|]; [now rewrite Et|reflexivity].
    + assert (EA : addIndex tm r = Ok (tm, Some (bs "Table ID have not found " ++ fmt_d (id_table i)))).
      { unfold addIndex. destruct Hr as [H1 _]. apply as_uint_value in H1. change (Z.of_nat 0) with 0 in H1. rewrite H1. cbn [bind]. now rewrite Et. }
      rewrite EA. cbn [bind]. apply IH.
Qed.


(** * Putting the columns in order *)
Lemma inner_total fields : forall j i cols, (i < List.length cols)%nat -> (j + List.length fields <= List.length cols)%nat ->
  exists r, move_inner fields j i cols = Ok r /\ List.length r = List.length cols.
Proof.
  induction fields as [|f fields IH]; intros j i cols Hi Hj; cbn [move_inner]; [exists cols; split; reflexivity|]. cbn [List.length] in Hj.
  destruct (nth_error cols i) as [c|] eqn:E; [|apply nth_error_None in E; lia]. rewrite (index_nth _ _ _ E). cbn [bind].
  destruct (beq (fd_name f) (c_name c)); [|cbn [bind]; apply IH; lia].
  replace (j <? List.length cols)%nat with true by lia. cbn [bind].
  assert (Hl : List.length (c :: firstn j cols ++ skipn (S j) cols) = List.length cols).
  { cbn [List.length]. rewrite app_length, firstn_length_le, skipn_length by lia. lia. }
  destruct (IH (S j) i (c :: firstn j cols ++ skipn (S j) cols)) as [r [E1 E2]]; [lia|lia|]. exists r. split; [exact E1|lia].
Qed.
Lemma outer_total fields n : forall i cols, (i + n = List.length cols)%nat -> (List.length fields <= List.length cols)%nat ->
  exists r, move_outer n i fields cols = Ok r /\ List.length r = List.length cols.
Proof.
  induction n as [|n IH]; intros i cols Hi Hf; cbn [move_outer]; [exists cols; split; reflexivity|].
  destruct (inner_total fields 0 i cols) as [r [E1 E2]]; [lia|lia|]. rewrite E1. cbn [bind].
  destruct (IH (S i) r) as [r2 [E3 E4]]; [lia|lia|]. exists r2. split; [exact E3|lia].
Qed.
Lemma move_total fields cols : (List.length fields <= List.length cols)%nat -> exists r, moveColumns2First fields cols = Ok r /\ List.length r = List.length cols.
Proof. intro H. now apply outer_total. Qed.
Lemma one_map {A B} (g : A -> B) (P : B -> Prop) l : at_most_one (fun x => P (g x)) l -> at_most_one P (map g l).
Proof.
  intros H l1 x l2 y l3 E Hx Hy. apply map_eq_app in E as [a1 [a2 [-> [E1 E2]]]]. apply map_eq_cons in E2 as [u [a3 [-> [E3 E4]]]].
  apply map_eq_app in E4 as [b1 [b2 [-> [E5 E6]]]]. apply map_eq_cons in E6 as [w [b3 [-> [E7 E8]]]]. subst x y.
  apply (H a1 u b1 w b3 eq_refl Hx Hy).
Qed.
Lemma entries_one d id : consistent d -> at_most_one (fun x => clustered (snd x)) (map (index_entry d) (indexes_of d id)).
Proof. intros [_ [_ [_ [_ [H _]]]]]. apply one_map. exact (H id). Qed.
Lemma key_fits d i : consistent d -> In i (dd_indexes d) -> primary i ->
  (List.length (fields_of d (id_id i)) <= List.length (columns_of d (id_table i)))%nat /\ id_nfields i = zlen (fields_of d (id_id i)).
Proof.
  intros [_ [_ [_ [_ [_ [_ H]]]]]] Hi Hp. destruct (H i Hi Hp) as [H1 [H2 H3]]. split; [|exact H3].
  rewrite <- (map_length fd_column), <- (map_length cd_name). now apply NoDup_incl_length.
Qed.
Lemma in_indexes d id i : In i (indexes_of d id) -> In i (dd_indexes d) /\ id_table i = id.
Proof. unfold indexes_of. rewrite filter_In. intros [H1 H2]. split; [exact H1|lia]. Qed.
Lemma table_moves d id : consistent d -> exists cs, movePK_table (map (index_entry d) (indexes_of d id)) (map descriptor (columns_of d id)) = Ok cs
  /\ List.length cs = List.length (columns_of d id).
Proof.
  intro Hc. pose proof (one_weaken _ (fun x => is_primary (snd x)) _ (fun x H => or_introl H) (entries_one d id Hc)) as Ho.
  destruct (class_dec is_primary _ beq_primary (map (index_entry d) (indexes_of d id))) as [[k [ix [Hi Hp]]]|Hn].
  - pose proof Hi as Hi2. apply in_map_iff in Hi as [i [E Hi]]. apply in_indexes in Hi as [Hi Ht]. injection E as <- <-.
    destruct (key_fits d i Hc Hi Hp) as [Hl _]. rewrite Ht in Hl.
    destruct (move_total (map to_field (fields_of d (id_id i))) (map descriptor (columns_of d id))) as [r [E1 E2]]; [rewrite !map_length; exact Hl|].
    exists r. rewrite map_length in E2. split; [|exact E2]. eapply pk_one; [exact Ho|exact Hi2|exact Hp|exact E1].
  - rewrite pk_others by exact Hn. eexists. split; [reflexivity|apply map_length].
Qed.
Lemma each_total f tm : (forall id t, In (id, t) tm -> exists cs, f id t = Ok cs) -> exists tm', each f tm = Ok tm'.
Proof.
  induction tm as [|[id t] tm IH]; intro H; [exists []; reflexivity|]. destruct (H id t (or_introl eq_refl)) as [cs E].
  destruct IH as [tm' E']; [intros i u Hi; apply H; now right|]. cbn [each]. rewrite E. cbn [bind]. rewrite E'. eexists. reflexivity.
Qed.
Lemma forall2_keys {A} (R : Z * A -> Z * A -> Prop) l m : (forall x y, R x y -> fst y = fst x) -> Forall2 R l m -> map fst m = map fst l.
Proof. intros H. induction 1 as [|x y l m Hr _ IH]; [reflexivity|]. cbn [map]. now rewrite IH, (H _ _ Hr). Qed.
Lemma forall2_get {A} (R : Z * A -> Z * A -> Prop) l m : (forall x y, R x y -> fst y = fst x) -> Forall2 R l m ->
  forall k a, mget l k = Some a -> exists b, mget m k = Some b /\ R (k, a) (k, b).
Proof.
  intros H. induction 1 as [|[x a] [y b] l m Hr _ IH]; intros k c E; [discriminate|]. pose proof (H _ _ Hr) as Hk. cbn [fst] in Hk. subst y.
  cbn [mget] in *. destruct (Z.eqb_spec k x) as [->|]; [injection E as <-; eauto|now apply IH].
Qed.
Definition placed (d : dictionary) (t : table_def) (e : Table) : Prop :=
  exists e1 cs, loaded d t e1 /\ movePK_table (map (index_entry d) (indexes_of d (td_id t))) (map descriptor (columns_of d (td_id t))) = Ok cs
    /\ with_internal (td_id t) (with_columns e1 cs) e.
Lemma dict_read fuel rt pages d : stores_dictionary pages d -> consistent d -> (Z.to_nat 16384 < fuel)%nat ->
  exists tm, ParseDictPage fuel rt (Some (map IoBytes pages)) = ([], Ok (tm, None)) /\ represents (dd_tables d) (placed d) tm.
Proof.
  intros Hs Hc Hfuel. destruct (dict_filled fuel rt pages d Hs Hc Hfuel) as [tm [-> [[Hk Hr] Hnf]]].
  assert (Hin : forall id e, In (id, e) tm -> exists t, In t (dd_tables d) /\ id = td_id t /\ loaded d t e).
  { intros id e Hi. apply (in_mget tm id e Hk) in Hi. specialize (Hr id). destruct (find_table (dd_tables d) id) as [t|] eqn:Ef; [|congruence].
    apply find_table_some in Ef as [H1 H2]. destruct Hr as [e' [E HL]]. rewrite Hi in E. injection E as <-. exists t. split; [exact H1|]. split; [now rewrite H2|exact HL]. }
  assert (E1 : exists tm1, movePrimaryKeyFirst tm = Ok tm1).
  { rewrite each_move. apply each_total. intros id e Hi. destruct (Hin id e Hi) as [t [_ [_ [_ [L2 [L3 _]]]]]].
    rewrite L2, L3. destruct (table_moves d (td_id t) Hc) as [cs [E _]]. eauto. }
  destruct E1 as [tm1 E1]. pose proof E1 as F1. rewrite each_move in F1. apply each_spec in F1.
  assert (Hup : forall x y, updated (fun _ t => movePK_table (t_indexes t) (t_columns t)) x y -> fst y = fst x) by (intros x y [cs [_ ->]]; reflexivity).
  destruct (C56_placed tm1) as [tm2 [E2 F2]].
  { intros id e Hi. assert (Hk1 : NoDup (map fst tm1)) by (now rewrite (forall2_keys _ _ _ Hup F1)).
    assert (HX : exists e0 cs, In (id, e0) tm /\ movePK_table (t_indexes e0) (t_columns e0) = Ok cs /\ e = with_columns e0 cs).
    { clear - F1 Hi. induction F1 as [|[i0 e0] y a b [cs [E ->]] _ IH]; [contradiction|]. destruct Hi as [Hi|Hi].
      - cbn [fst snd] in *. injection Hi as <- <-. exists e0, cs. split; [now left|]. split; [exact E|reflexivity].
      - destruct (IH Hi) as [e1 [c1 [H1 H2]]]. exists e1, c1. split; [now right|exact H2]. }
    destruct HX as [e0 [cs [Hi0 [Em ->]]]]. destruct (Hin id e0 Hi0) as [t [Ht [-> [_ [L2 [L3 _]]]]]]. cbn [with_columns t_indexes t_columns].
    rewrite L3 in *. rewrite L2 in Em. split; [now apply entries_one|]. intros k ix Hx Hp. apply in_map_iff in Hx as [i [E Hx]]. injection E as <- <-.
    apply in_indexes in Hx as [Hx Hxt]. destruct (table_moves d (td_id t) Hc) as [cs' [Em' Hl]]. rewrite Em in Em'. injection Em' as <-.
    destruct (key_fits d i Hc Hx Hp) as [Hlen Hn]. rewrite Hxt in Hlen. cbn [ix_nfields]. rewrite Forall_forall in Hnf. pose proof (Hnf i Hx). unfold zlen in *. split; lia. }
  exists tm2. unfold finishDict, sortColumns. rewrite E1. cbn [bind]. rewrite E2, wbind_lift. split; [reflexivity|].
  assert (Hup2 : forall x y : Z * Table, fst y = fst x /\ with_internal (fst x) (snd x) (snd y) -> fst y = fst x) by tauto.
  pose proof (forall2_keys _ _ _ Hup F1) as K1. pose proof (forall2_keys _ _ _ Hup2 F2) as K2.
  split; [rewrite K2, K1; exact Hk|]. intro id. specialize (Hr id). destruct (find_table (dd_tables d) id) as [t|] eqn:Ef.
  - apply find_table_some in Ef as [Ht <-]. destruct Hr as [e0 [G0 HL]]. destruct (forall2_get _ _ _ Hup F1 _ _ G0) as [e1 [G1 [cs [Em Ee]]]].
    destruct (forall2_get _ _ _ Hup2 F2 _ _ G1) as [e2 [G2 [_ HW]]]. cbn [fst snd] in *. injection Ee as ->.
    exists e2. split; [exact G2|]. exists e0, cs. pose proof HL as [_ [L2 [L3 _]]]. rewrite L2, L3 in Em. split; [exact HL|]. split; [exact Em|exact HW].
  - apply mget_none. rewrite K2, K1. now apply mget_none.
Qed.
Lemma represents_in d P tm t : consistent d -> represents (dd_tables d) P tm -> In t (dd_tables d) -> exists e, mget tm (td_id t) = Some e /\ P t e.
Proof. intros [Hd _] [_ H] Hi. specialize (H (td_id t)). now rewrite (find_table_in _ _ Hd Hi) in H. Qed.
Lemma placed_agrees d tm : consistent d -> represents (dd_tables d) (placed d) tm -> agrees d tm.
Proof.
  intros Hc HR. pose proof HR as [Hk Hr]. split; [exact Hk|]. split.
  - intro id. specialize (Hr id). destruct (find_table (dd_tables d) id) as [t|] eqn:Ef.
    + apply find_table_some in Ef as [Ht <-]. destruct Hr as [e [E _]]. split; intros _; [now apply in_map|]. apply mget_in in E. apply (in_map fst) in E. exact E.
    + apply find_table_none in Ef. apply mget_none in Hr. tauto.
  - intros t Ht. destruct (represents_in d _ tm t Hc HR Ht) as [e [E [e1 [cs [[L1 [L2 [L3 [L4 L5]]]] [_ [W1 [W2 [W3 [W4 [W5 _]]]]]]]]]]].
    exists e. cbn [with_columns t_db t_name t_indexes t_nullcount t_space] in *. rewrite W1, W2, W3, W4, W5. tauto.
Qed.
Lemma placed_generated d t e : consistent d -> placed d t e -> has_no_key d (td_id t) -> t_columns e = without_key (td_id t) (columns_of d (td_id t)).
Proof.
  intros Hc [e1 [cs [HL [Em HW]]]] [i [Hi Hg]]. pose proof HL as [_ [_ [L3 _]]].
  pose proof (in_map (index_entry d) _ _ Hi) as Hx.
  rewrite pk_others in Em.
  - injection Em as <-. destruct HW as [_ [_ [_ [_ [_ [_ [HG _]]]]]]]. cbn [with_columns t_indexes t_columns] in HG. rewrite L3 in HG.
    exact (HG _ _ Hx Hg).
  - intros k ix Hk Hp. pose proof (entries_one d (td_id t) Hc) as Ho.
    assert (Hne : index_entry d i <> (k, ix)) by (intro E; apply (primary_not_generated ix Hp); change ix with (snd (k, ix)); rewrite <- E; exact Hg).
    destruct (in_split _ _ Hx) as [l1 [l2 El]]. rewrite El in Hk, Ho. apply in_app_or in Hk as [X|[X|X]].
    + apply in_split in X as [a [b ->]]. apply (Ho a (k, ix) b (index_entry d i) l2); [rewrite <- app_assoc; reflexivity|now left|now right].
    + contradiction.
    + apply in_split in X as [a [b ->]]. apply (Ho l1 (index_entry d i) a (k, ix) b); [reflexivity|now right|now left].
Qed.
Lemma placed_leading d t e key rest : consistent d -> placed d t e -> columns_of d (td_id t) = key ++ rest ->
  (exists i, In i (indexes_of d (td_id t)) /\ primary i /\ map cd_name key = map fd_column (fields_of d (id_id i))) ->
  t_columns e = map descriptor (rev key) ++ [internal_column (td_id t) "DB_TRX_ID" (zlen key) 6; internal_column (td_id t) "DB_ROLL_PTR" (zlen key + 1) 7] ++ map descriptor rest.
Proof.
  intros Hc [e1 [cs [HL [Em HW]]]] HE [i [Hi [Hp HK]]]. pose proof HL as [_ [_ [L3 _]]].
  pose proof (in_map (index_entry d) _ _ Hi) as Hx. pose proof (entries_one d (td_id t) Hc) as Ho.
  pose proof (one_weaken _ (fun x => is_primary (snd x)) _ (fun x H => or_introl H) Ho) as Ho1.
  rewrite HE, map_app in Em. assert (Em2 := fun A B => pk_one _ _ _ _ _ Ho1 Hx Hp (move_prefix (map descriptor key) (map descriptor rest) (map to_field (fields_of d (id_id i))) A B)). rewrite Em2 in Em.
  - injection Em as <-. destruct HW as [_ [_ [_ [_ [_ [HP _]]]]]]. cbn [with_columns t_indexes t_columns] in HP. rewrite L3 in HP.
    rewrite (HP _ _ Hx Hp). cbn [ix_nfields index_entry snd]. apply in_indexes in Hi as [Hi Ht]. destruct (key_fits d i Hc Hi Hp) as [_ Hn].
    assert (Hlen : id_nfields i = zlen key) by (rewrite Hn; unfold zlen; f_equal; rewrite <- (map_length fd_column), <- HK; apply map_length).
    rewrite Hlen. rewrite <- map_rev. assert (Hl : Z.to_nat (zlen key) = List.length (map descriptor (rev key))) by (rewrite map_length, rev_length; unfold zlen; lia).
    rewrite Hl, firstn_app, skipn_app, Nat.sub_diag, firstn_all, skipn_all. cbn [firstn skipn]. rewrite app_nil_r. reflexivity.
  - destruct Hc as [_ [_ [_ [_ [_ [Hnd _]]]]]]. specialize (Hnd (td_id t)). rewrite HE in Hnd. rewrite <- map_app, map_map. exact Hnd.
  - rewrite !map_map. symmetry. exact HK.
Qed.

(** * Users' rows *)
Definition slot_column (s : slot) (c : Column) : Prop :=
  match s with
  | Own n => internal c /\ c_type c = 0 /\ c_len c = n /\ c_null c = false /\ 0 < n
  | User d => c = descriptor d /\ ordinary d /\ readable_column d
  end.
Lemma dec_widen n t : 1000 <= n <= 9999 -> dec_text 4 n t -> dec_text 2 n t.
Proof.
  intros Hn [H1 [H2 [H3 [H4 H5]]]]. split; [exact H1|]. split; [exact H2|]. split; [exact H3|]. split; [lia|]. right.
  destruct H5 as [H5|H5]; [|exact H5]. destruct t as [|c t]; [cbn in H3; lia|]. cbn [hd]. intros ->.
  inversion H1 as [|? ? _ Ht]; subst. pose proof (dec_val_bound t Ht) as Hb. cbn in H5. unfold len in Hb. injection H5 as H5.
  rewrite H5 in Hb. assert (E : dec_val (48 :: t) = dec_val t) by reflexivity. rewrite E in Hn. change (10 ^ Z.of_nat 3) with 1000 in Hb. lia.
Qed.
Lemma column_described d : readable_column d -> describes (descriptor d) (column_layout d).
Proof.
  unfold readable_column, describes, descriptor, column_layout, inno_layout. cbn [c_null l_nullable l_fixed l_big c_len c_type]. intro H. split; [reflexivity|].
  destruct H as [[E [_ H]]|[[E [_ H]]|[[E [_ H]]|[[E [_ H]]|[[E H]|[[E H]|[[E H]|[E [_ H]]]]]]]]]; rewrite E; cbn [existsb Z.eqb Pos.eqb orb andb In] in *.
  1-4: repeat split; lia.
  all: split; [tauto || lia|]; rewrite ?orb_true_iff; try lia.
Qed.
Lemma slot_described s c : slot_column s c -> describes c (slot_layout s).
Proof.
  destruct s as [n|d]; cbn [slot_column slot_layout].
  - intros [_ [H1 [H2 [H3 H4]]]]. split; [exact H3|]. cbn [l_fixed]. rewrite H1. split; [lia|]. split; [exact H2|]. cbn. lia.
  - intros [-> [_ H]]. now apply column_described.
Qed.
Ltac not_in := let H := fresh in intro H; repeat (destruct H as [H|H]; [discriminate H|]); exact H.
Lemma type_parts (n a : Z) l : In n l -> ~ In a l -> n <> a. Proof. now intros H1 H2 ->. Qed.
Definition holding (d : column_def) (v : gval) (bin : bool) : Column :=
  mkColumn (cd_name d) (cd_mtype d) (cd_prtype d mod 256) (cd_pos d) (if cd_mtype d =? 4 then 0 else cd_len d) v
    (negb (Z.testbit (cd_prtype d) 8)) bin (Z.testbit (cd_prtype d) 9) (cd_table d).
Lemma not_bit d v b a : mysql_type d = a -> a <> 16 -> ~ is_bit (holding d v b).
Proof. unfold is_bit, holding, mysql_type. cbn [c_mysql]. intros -> H. exact H. Qed.
Lemma not_bit_in d v b l : In (mysql_type d) l -> ~ In 16 l -> ~ is_bit (holding d v b).
Proof. unfold is_bit, holding, mysql_type. cbn [c_mysql]. intros H1 H2 E. rewrite E in H1. contradiction. Qed.
Lemma value_decoded rt d v f rest : encodes rt d v f -> f <> FNull -> (mysql_type d = 12 -> all_bytes rest /\ 3 <= len rest) ->
  exists g bin, ParseData rt (cd_mtype d) (cd_prtype d mod 256) (content f ++ rest) (zlen (content f))
      (match l_fixed (column_layout d) with Some n => n | None => 0 end) (Z.testbit (cd_prtype d) 9) ((cd_mtype d =? 5) && Z.testbit (cd_prtype d) 10)
    = ([], Ok (g, bin)) /\ stands_for rt (holding d g bin) v.
Proof.
  change (cd_prtype d mod 256) with (mysql_type d). change (Z.testbit (cd_prtype d) 9) with (is_unsigned d). change (Z.testbit (cd_prtype d) 10) with (is_binary d).
  unfold column_layout, inno_layout. cbn [l_fixed]. change (@zlen) with (@len).
  intros HE Hf Hr. destruct HE as [H1 H2|k v t E1 E2 E3 E4 Hk Hv Ht|k v t E1 E2 E3 E4 Hk Hv H3 Ht|b t E1 E2 E3 Hv Ht|y m dd t E1 E2 E3 Hy Hm Hd Ht
    |neg h m s t E1 E2 E3 Hh Hm Hs Hp Ht|y mo dd h mi s t1 t2 E1 E2 E3 Hy Hmo Hd Hh Hmi Hs Ht1 Ht2|bits E1 E2 E3 Hv|bits E1 E2 E3 Hv|n E1 E2 E3 Hv
    |s E1 E2 Hl1 Hl2|s E1 E2 E3 Hl|s n E1 E2 Hby Ht Hl1 Hl2|s E1 E2 E3 Hl Hby|s E1 E2 E3 Hl Hby|s E1 E2 E3 Hl Hby]; [contradiction|..]; rewrite E1; cbn [content existsb Z.eqb Pos.eqb orb andb] in *.
  - rewrite E4, E3. destruct (C09_signed_int rt (mysql_type d) k v rest false Hk) as [g [E [Hg Hx]]]; [apply (type_parts _ _ _ E2); not_in|apply (type_parts _ _ _ E2); not_in|exact Hv|].
    exists g, false. split; [|apply st_text; [|apply (not_bit_in _ _ _ _ E2); not_in|reflexivity]].
    + replace (len (store_int k v)) with (Z.of_nat k); [exact E|]. unfold store_int. now rewrite len_be.
    + destruct Hg as [-> | ->]; now constructor.
  - assert (E : ParseData rt innodb_int (mysql_type d) (store_uint k v ++ rest) (Z.of_nat k) (Z.of_nat k) true false = ([], Ok (VUint v, false))).
    { rewrite uint_column; [|apply (type_parts _ _ _ E2); not_in|apply (type_parts _ _ _ E2); not_in].
      assert (C : k = 3%nat \/ In k [1; 2; 4; 8]%nat) by (cbn [In] in Hk |- *; destruct Hk as [X|[X|[X|[X|[X|[]]]]]]; auto 8).
      destruct C as [->|C]; [change (Z.of_nat 3) with 3; rewrite get_uint3, Z.mod_small by (specialize (H3 eq_refl); lia); reflexivity|rewrite get_uint by assumption; reflexivity]. }
    rewrite E4, E3.
    exists (VUint v), false. split; [|apply st_text; [now constructor|apply (not_bit_in _ _ _ _ E2); not_in|reflexivity]].
    replace (len (store_uint k v)) with (Z.of_nat k); [exact E|]. unfold store_uint. now rewrite len_be.
  - rewrite E2. cbn [app]. change 6 with innodb_int. change 13 with field_year. rewrite C18_year_partial by lia.
    exists (VUint (year_of_byte b)), false. split; [reflexivity|]. apply st_text; [|exact (not_bit _ _ _ _ E2 ltac:(discriminate))|reflexivity].
    constructor. unfold year_of_byte. destruct (Z.eqb_spec b 0); [lia|exact Ht].
  - rewrite E2. change 6 with innodb_int. change 10 with field_date. destruct (C13_date rt y m dd rest (len (store_date y m dd)) (cd_len d) (is_unsigned d) false) as [ty [tm [td [E [F1 [F2 F3]]]]]]; try lia.
    exists (VStr (ty ++ [45] ++ tm ++ [45] ++ td)), false. split; [exact E|]. destruct Ht as [a [b [c [-> [A [B C]]]]]].
    apply st_text; [|exact (not_bit _ _ _ _ E2 ltac:(discriminate))|reflexivity]. apply dec_widen in A; [|lia].
    rewrite (dec_text_unique _ _ _ _ A F1), (dec_text_unique _ _ _ _ B F2), (dec_text_unique _ _ _ _ C F3). constructor.
  - rewrite E2. change 3 with innodb_fixbinary at 1. change 11 with field_time. destruct (C14_time rt neg h m s rest (len (store_time neg h m s)) (cd_len d) (is_unsigned d) false) as [th [tm [ts [E [F1 [F2 F3]]]]]]; try lia.
    assert (Hz : negb ((h =? 0) && (m =? 0) && (s =? 0)) = true) by lia. rewrite Hz, andb_true_r in E.
    exists (VStr ((if neg then [45] else []) ++ th ++ [58] ++ tm ++ [58] ++ ts)), false. split; [exact E|]. destruct Ht as [a [b [c [-> [A [B C]]]]]].
    apply st_text; [|exact (not_bit _ _ _ _ E2 ltac:(discriminate))|reflexivity].
    rewrite (dec_text_unique _ _ _ _ A F1), (dec_text_unique _ _ _ _ B F2), (dec_text_unique _ _ _ _ C F3). constructor.
  - destruct (Hr E2) as [Hb Hr3]. rewrite E2. change 3 with innodb_fixbinary at 1. change 12 with field_datetime.
    destruct (C15_datetime_partial rt y mo dd h mi s (firstn 3 rest) (skipn 3 rest) (len (store_datetime y mo dd h mi s)) (cd_len d) (is_unsigned d) false) as [ty [tmo [td [th [tmi [ts [E [F1 [F2 [F3 [F4 [F5 F6]]]]]]]]]]]]; try lia.
    { apply Forall_forall. intros x Hx. unfold all_bytes in Hb. rewrite Forall_forall in Hb. apply Hb. rewrite <- (firstn_skipn 3 rest). apply in_or_app. now left. }
    { unfold len in *. rewrite firstn_length. lia. }
    rewrite firstn_skipn in E.
    exists (VStr (ty ++ [45] ++ tmo ++ [45] ++ td ++ [32] ++ th ++ [58] ++ tmi ++ [58] ++ ts)), false. split; [exact E|].
    destruct Ht1 as [a [b [c [-> [A [B C]]]]]]. destruct Ht2 as [a2 [b2 [c2 [-> [A2 [B2 C2]]]]]].
    apply st_text; [|exact (not_bit _ _ _ _ E2 ltac:(discriminate))|reflexivity]. apply dec_widen in A; [|lia].
    rewrite (dec_text_unique _ _ _ _ A F1), (dec_text_unique _ _ _ _ B F2), (dec_text_unique _ _ _ _ C F3), (dec_text_unique _ _ _ _ A2 F4), (dec_text_unique _ _ _ _ B2 F5), (dec_text_unique _ _ _ _ C2 F6).
    replace ((ty ++ txt "-" ++ tmo ++ txt "-" ++ td) ++ txt " " ++ th ++ txt ":" ++ tmi ++ txt ":" ++ ts) with (ty ++ [45] ++ tmo ++ [45] ++ td ++ [32] ++ th ++ [58] ++ tmi ++ [58] ++ ts); [constructor|].
    rewrite <- !app_assoc. reflexivity.
  - change 9 with innodb_float. rewrite (proj1 (C22_float_bits rt (mysql_type d) bits rest _ _ _ _) Hv). eexists _, _. split; [reflexivity|].
    apply st_text; [constructor|exact (not_bit _ _ _ _ E2 ltac:(discriminate))|reflexivity].
  - change 10 with innodb_double. rewrite (proj2 (C22_float_bits rt (mysql_type d) bits rest _ _ _ _) Hv). eexists _, _. split; [reflexivity|].
    apply st_text; [constructor|exact (not_bit _ _ _ _ E2 ltac:(discriminate))|reflexivity].
  - rewrite E2, E3. change 3 with innodb_fixbinary. change 16 with field_bit. exists (VUint n), false.
    assert (E : [n] = store_uint 1 n) by (unfold store_uint, be; cbn; rewrite Z.mod_small by lia; reflexivity).
    assert (X : ParseData rt innodb_fixbinary field_bit ([n] ++ rest) 1 1 (is_unsigned d) false = ([], Ok (VUint n, false))).
    { rewrite E. apply (C12_bit_partial rt 1 n rest (is_unsigned d) false). left. split; [cbn; tauto|]. change (256 ^ Z.of_nat 1) with 256. lia. }
    split; [exact X|]. apply st_bits; [reflexivity|exact E2|reflexivity].
  - rewrite C19_text_exact by (right; right; left; reflexivity). eexists _, _. split; [reflexivity|]. apply st_text; [constructor|exact (not_bit _ _ _ _ E2 ltac:(discriminate))|reflexivity].
  - rewrite E3. rewrite C19_text_exact by (right; right; right; left; split; reflexivity). eexists _, _. split; [reflexivity|]. apply st_text; [constructor|apply (not_bit_in _ _ _ _ E2); not_in|reflexivity].
  - change 13 with innodb_mysql. rewrite C20_char_exact_partial.
    + eexists _, _. split; [reflexivity|]. apply st_text; [constructor|exact (not_bit _ _ _ _ E2 ltac:(discriminate))|reflexivity].
    + exact Hby.
    + exact Ht.
  - rewrite E3. destruct (C21_binary_hex rt 5 (mysql_type d) s rest 0 (is_unsigned d) true Hby) as [t [E Hx]]; [left; split; reflexivity|].
    exists (VStr t), true. split; [exact E|]. apply (st_bytes _ _ t); [reflexivity|exact Hx|apply (not_bit_in _ _ _ _ E2); not_in|reflexivity].
  - rewrite E2. destruct (C21_binary_hex rt 3 254 s rest (cd_len d) (is_unsigned d) false Hby) as [t [E Hx]]; [right; right; split; reflexivity|].
    exists (VStr t), true. split; [exact E|]. apply (st_bytes _ _ t); [reflexivity|exact Hx|exact (not_bit _ _ _ _ E2 ltac:(discriminate))|reflexivity].
  - rewrite E2. destruct (C21_binary_hex rt 4 15 s rest 0 (is_unsigned d) false Hby) as [t [E Hx]]; [right; left; split; reflexivity|].
    exists (VStr t), true. split; [exact E|]. apply (st_bytes _ _ t); [reflexivity|exact Hx|exact (not_bit _ _ _ _ E2 ltac:(discriminate))|reflexivity].
Qed.
Lemma row_decoded rt ss vs fs : row_encodes rt ss vs fs -> forall cols after, Forall2 slot_column ss cols -> all_bytes (body fs ++ after) -> 3 <= len after ->
  exists row, row_of rt after cols (map slot_layout ss) fs row /\ shows rt row vs /\ remarks cols fs = [].
Proof.
  induction 1 as [|n ss vs b fs Hn _ IH|d ss v vs f fs He Hp _ IH]; intros cols after HS Hb Ha; inversion HS as [|? c ? cs Hc HS']; subst.
  - exists []. split; [constructor|]. split; constructor.
  - change (body (FBytes b :: fs)) with (b ++ body fs) in Hb. rewrite <- app_assoc in Hb.
    pose proof Hb as Hb2. apply Forall_app in Hb2 as [_ Hb2]. destruct (IH cs after HS' Hb2 Ha) as [row [H1 [H2 Hq]]].
    eexists. split.
    + cbn [map]. apply row_quiet with (v := VNil) (bin := c_binary c); [discriminate| |exact H1]. destruct Hc as [_ [-> _]]. reflexivity.
    + split; [apply shows_internal; [|exact H2]; destruct Hc as [Hc _]; exact Hc|].
      cbn [remarks]. unfold remark. destruct Hc as [_ [-> _]]. exact Hq.
  - change (body (f :: fs)) with (content f ++ body fs) in Hb. rewrite <- app_assoc in Hb.
    pose proof Hb as Hb2. apply Forall_app in Hb2 as [_ Hb2]. destruct (IH cs after HS' Hb2 Ha) as [row [H1 [H2 Hq]]].
    destruct Hc as [-> [Ho Hr]].
    assert (Hi : forall g bin, ~ internal (holding d g bin)) by (intros g bin [X|[X|X]]; apply Ho; cbn [holding c_name] in X; rewrite X; cbn; tauto).
    destruct f as [|b|b].
    + eexists. split; [cbn [map]; apply row_null; exact H1|]. split; [|exact Hq]. apply shows_user; [apply Hi| |exact Hp|exact H2].
      inversion He; subst. apply st_null; [now right|assumption].
    + destruct (value_decoded rt d v (FBytes b) (body fs ++ after) He) as [g [bin [E Hst]]]; [discriminate|intros _; split; [exact Hb2|rewrite len_app; pose proof (len_nonneg (body fs)); lia]|].
      eexists. split; [cbn [map]; apply row_quiet with (v := g) (bin := bin); [discriminate|exact E|exact H1]|]. split; [apply shows_user; [apply Hi|exact Hst|exact Hp|exact H2]|].
      cbn [remarks]. rewrite <- (parse_remark _ (descriptor d) _ _ _ _ _ _ _ _ E). exact Hq.
    + inversion He.
Qed.
Lemma stored_skip compact page off ls fs : stored_at compact page off ls fs ->
  skipn (Z.to_nat off) page = body fs ++ skipn (Z.to_nat (off + zlen (body fs))) page.
Proof.
  change (@zlen) with (@len). destruct compact; cbn [stored_at].
  - intro H. destruct (compact_skip _ _ _ _ H) as [post [H1 [_ [_ ->]]]]. exact H1.
  - intros [wide [vs [-> [H _]]]]. destruct (redundant_skip _ _ _ _ H) as [post [H1 [_ [_ ->]]]].
    assert (E : rbody (map RBytes vs) = body (map FBytes vs)) by (unfold rbody, body; rewrite !flat_map_concat_map, !map_map; reflexivity). rewrite E in H1. exact H1.
Qed.
(** What is read of a page and of a file. *)
Definition page_cut (rt : runtime) (deleted : bool) (ss : list slot) (page : list Z) (rows : list (list sqlval)) : Prop :=
  exists compact offs, in_format compact page
    /\ (if deleted then (free_chain compact page offs /\ hd_error offs = Some (field page 44 2))
           \/ exists z, 16378 <= z < 65536 /\ match offs with [] => z = field page 44 2 | o :: offs' => o = field page 44 2 /\ chain compact page o offs' z end
        else exists z, stops compact z /\ chain compact page (infimum compact) offs z)
    /\ Forall2 (fun off vs => user_origin off /\ exists fs, stored_at compact page off (map slot_layout ss) fs
         /\ off + zlen (body fs) <= 16384 - 8 /\ row_encodes rt ss vs fs) offs rows.
Definition file_cut (rt : runtime) (deleted : bool) (ss : list slot) (pages : list (list Z)) (rows : list (list sqlval)) : Prop :=
  Forall page_image pages /\ exists contents, Forall2 (page_cut rt deleted ss) (filter (eligible deleted) (firsts pages)) contents /\ List.concat contents = rows.
Lemma holds_cut rt deleted ss pages rows : file_holds rt deleted ss pages rows -> file_cut rt deleted ss pages rows.
Proof.
  intros [HI [cs [HC HE]]]. split; [exact HI|]. exists cs. split; [|exact HE]. clear - HC. induction HC as [|p rs ps cs [compact [offs [A [B C]]]] _ IH]; constructor; [|exact IH].
  exists compact, offs. split; [exact A|]. split; [|exact C]. destruct deleted; [now left|]. exists (supremum compact). split; [now left|exact B].
Qed.
Lemma page_held rt tm deleted ss cols page rows : Forall2 slot_column ss cols -> known tm cols (map slot_layout ss) ->
  page_cut rt deleted ss page rows -> exists content, cut_content rt tm deleted cols (map slot_layout ss) page ([], content) /\ Forall2 (shows rt) content rows.
Proof.
  intros HS Hk [compact [offs [Hf [Hc HR]]]].
  assert (HX : exists content, page_rows rt compact page cols (map slot_layout ss) offs content [] /\ Forall2 (shows rt) content rows).
  { clear Hc. assert (Himg : page_image page) by (destruct compact; apply Hf). destruct Himg as [Hlen Hby].
    induction HR as [|off vs offs rows [Hu [fs [Hst [Hend Hre]]]] _ IH].
    - exists []. split; constructor.
    - destruct IH as [content [I1 I2]]. pose proof (stored_skip _ _ _ _ _ Hst) as Hsk.
      destruct (row_decoded rt ss vs fs Hre cols (skipn (Z.to_nat (off + zlen (body fs))) page) HS) as [row [R1 [R2 R3]]].
      + rewrite <- Hsk. apply Forall_forall. intros x Hx. rewrite Forall_forall in Hby. apply Hby. rewrite <- (firstn_skipn (Z.to_nat off) page). apply in_or_app. now right.
      + unfold user_origin in Hu. unfold len, zlen in *. rewrite skipn_length. lia.
      + exists (row :: content). split; [|now constructor]. now apply (rows_quiet _ _ _ _ _ off offs fs). }
  destruct HX as [content [H1 H2]]. exists content. split; [|exact H2]. exists compact, offs. split; [exact Hf|]. split; [intros _; exact Hk|]. split; [exact Hc|exact H1].
Qed.
Lemma row_some rt ss vs fs d : row_encodes rt ss vs fs -> In (User d) ss -> vs <> [].
Proof. induction 1; intro Hi; [contradiction|destruct Hi as [E|Hi]; [discriminate E|auto]|discriminate]. Qed.
Lemma named_unique name db tb db' tb' : named_as name db tb -> named_as name db' tb' -> db = db' /\ tb = tb'.
Proof.
  assert (Hx : forall p q x y : list Z, ~ In 47 p -> ~ In 47 q -> p ++ 47 :: x = q ++ 47 :: y -> p = q /\ x = y).
  { induction p as [|c p IH]; destruct q as [|e q]; cbn; intros x y Np Nq E; injection E; intros; subst; try tauto.
    destruct (IH q x y) as [-> ->]; try tauto. }
  intros [[-> [A B]]|[-> [-> B]]] [[E [A' B']]|[E [-> B']]].
  - now apply Hx.
  - exfalso. apply B'. rewrite <- E. apply in_elt.
  - exfalso. apply B. rewrite E. apply in_elt.
  - split; [reflexivity|exact E].
Qed.
Lemma named_back name name' db tb : db <> [] -> named_as name db tb -> named_as name' db tb -> name = name'.
Proof. intros Hd [[E _]|[_ [E _]]] [[E' _]|[_ [E' _]]]; try contradiction. now rewrite E, E'. Qed.
Lemma slots_known d tm t ss cols : consistent d -> agrees d tm -> In t (dd_tables d) -> Forall2 slot_column ss cols ->
  (exists e, mget tm (td_id t) = Some e /\ t_columns e = cols) -> Forall (fun c => c_table c = td_id t) cols -> cols <> [] ->
  zlen (filter (fun c => negb (Z.testbit (cd_prtype c) 8)) (columns_of d (td_id t))) = nullable_count (map slot_layout ss) ->
  known tm cols (map slot_layout ss).
Proof.
  intros Hc HA Ht HS [e [Hg He]] Hid Hne Hn. destruct cols as [|c0 cols]; [contradiction|]. exists c0, e. split; [reflexivity|].
  inversion Hid as [|? ? H0 _]; subst. split; [now rewrite H0|]. split.
  - rewrite He. clear - HS. revert HS. generalize (c0 :: cols) as cs. induction ss as [|s ss IH]; intros cs HS; inversion HS; subst; constructor; [now apply slot_described|now apply IH].
  - destruct HA as [_ [_ HA]]. destruct (HA t Ht) as [e' [Hg' [_ [_ [Hnc _]]]]]. rewrite Hg in Hg'. injection Hg' as <-. rewrite Hnc. exact Hn.
Qed.
Lemma tool_prints fuel rt d tm t e db tb ss cols pages rows deleted : consistent d -> NoDup (map td_name (dd_tables d)) -> represents (dd_tables d) (placed d) tm ->
  In t (dd_tables d) -> named_as (td_name t) db tb -> db <> [] -> mget tm (td_id t) = Some e -> t_columns e = cols ->
  Forall2 slot_column ss cols -> known tm cols (map slot_layout ss) -> (3 <= List.length cols)%nat -> (exists c, In (User c) ss) ->
  file_cut rt deleted ss pages rows -> ~ In 96 db -> ~ In 96 tb -> (Z.to_nat 16384 < fuel)%nat ->
  exists lines, ParseDataPage fuel rt tm (Some (map IoBytes pages)) db tb deleted = (lines, Ok None)
    /\ Forall2 (said rt db tb) rows lines.
Proof.
  intros Hc Hnd HR Ht Hnm Hdb Hg He HS Hk H3 [c Hu] [Hi [contents [HP Erows]]] Hb1 Hb2 Hfuel.
  pose proof (placed_agrees d tm Hc HR) as [Hkeys [Hids HA]].
  assert (HT : is_table tm db tb cols).
  { split.
    - exists (td_id t), e. destruct (HA t Ht) as [e' [Hg' [Hn' _]]]. rewrite Hg in Hg'. injection Hg' as <-.
      destruct (named_unique _ _ _ _ _ Hnm Hn') as [<- <-]. split; [now apply mget_in|split; reflexivity].
    - intros id e' Hin E1 E2. apply (in_mget tm id e' Hkeys) in Hin. assert (Hid : In id (map td_id (dd_tables d))) by (apply Hids; apply mget_in in Hin; now apply (in_map fst) in Hin).
      apply in_map_iff in Hid as [t' [<- Ht']]. destruct (HA t' Ht') as [e2 [Hg2 [Hn2 _]]]. rewrite Hin in Hg2. injection Hg2 as <-. rewrite E1, E2 in Hn2.
      pose proof (named_back _ _ _ _ Hdb Hnm Hn2) as En.
      assert (t = t').
      { clear - Hnd Ht Ht' En. induction (dd_tables d) as [|x l IH]; [contradiction|]. cbn [map] in Hnd. inversion Hnd as [|? ? N1 N2]; subst.
        destruct Ht as [->|Ht], Ht' as [->|Ht']; [reflexivity| | |now apply IH].
        - exfalso. apply N1. rewrite En. now apply in_map.
        - exfalso. apply N1. rewrite <- En. now apply in_map. }
      subst t'. rewrite Hg in Hin. injection Hin as <-. exact He. }
  assert (HX : exists cts, Forall2 (cut_content rt tm deleted cols (map slot_layout ss)) (filter (eligible deleted) (firsts pages)) cts /\ Forall (fun content => fst content = []) cts /\ Forall2 (fun row vs => shows rt row vs /\ vs <> []) (List.concat (map snd cts)) rows).
  { subst rows. clear Hi. induction HP as [|p rs ps cs Hp _ IH]; [exists []; split; [constructor|split; constructor]|]. destruct IH as [cts [I1 [Iq I2]]].
    destruct (page_held rt tm deleted ss cols p rs HS Hk Hp) as [content [P1 P2]]. exists (([], content) :: cts). split; [now constructor|]. split; [now constructor|]. cbn [map snd List.concat]. apply Forall2_app; [|exact I2].
    assert (HN : Forall (fun vs => vs <> []) rs).
    { destruct Hp as [? [offs [_ [_ HRR]]]]. clear - HRR Hu. induction HRR as [|? ? ? ? [_ [fs [_ [_ Hre]]]] _ IH]; constructor; [now apply (row_some _ _ _ _ _ Hre Hu)|exact IH]. }
    clear - P2 HN. induction P2; constructor; inversion HN; subst; auto. }
  destruct HX as [cts [X1 [Xq X2]]].
  apply (cut_said rt tm pages db tb deleted cols (map slot_layout ss) cts rows fuel); try assumption.
  clear - HS. induction HS; cbn [map]; constructor; [now apply slot_described|assumption].
Qed.

(** * The tool *)
Lemma own_trx id n : slot_column (Own 6) (internal_column id "DB_TRX_ID" n 6).
Proof. split; [now right; left|]. repeat split; lia. Qed.
Lemma own_roll id n : slot_column (Own 7) (internal_column id "DB_ROLL_PTR" n 7).
Proof. split; [now right; right|]. repeat split; lia. Qed.
Lemma own_row id n : slot_column (Own 6) (internal_column id "DB_ROW_ID" n 6).
Proof. split; [now left|]. repeat split; lia. Qed.
Lemma user_columns cs : Forall (fun c => ordinary c /\ readable_column c) cs -> Forall2 slot_column (map User cs) (map descriptor cs).
Proof. induction 1 as [|c cs [H1 H2] _ IH]; cbn [map]; constructor; [split; [reflexivity|split; assumption]|exact IH]. Qed.
Lemma leading_slots id key rest n m : Forall (fun c => ordinary c /\ readable_column c) key -> Forall (fun c => ordinary c /\ readable_column c) rest ->
  Forall2 slot_column (key_slots key rest) (map descriptor key ++ [internal_column id "DB_TRX_ID" n 6; internal_column id "DB_ROLL_PTR" m 7] ++ map descriptor rest).
Proof.
  intros Hk Hr. unfold key_slots. apply Forall2_app; [now apply user_columns|]. constructor; [apply own_trx|]. constructor; [apply own_roll|]. now apply user_columns.
Qed.
Lemma generated_slots id cs : Forall (fun c => ordinary c /\ readable_column c) cs -> Forall2 slot_column (no_key_slots cs) (without_key id cs).
Proof. intro H. constructor; [apply own_row|]. constructor; [apply own_trx|]. constructor; [apply own_roll|]. now apply user_columns. Qed.
Lemma nullable_users cs : nullable_count (map slot_layout (map User cs)) = zlen (filter (fun c => negb (Z.testbit (cd_prtype c) 8)) cs).
Proof.
  unfold nullable_count, zlen. f_equal. induction cs as [|c cs IH]; [reflexivity|]. cbn [map filter slot_layout column_layout inno_layout l_nullable].
  destruct (negb (Z.testbit (cd_prtype c) 8)); cbn [List.length]; now rewrite IH.
Qed.
Lemma nullable_app a b : nullable_count (a ++ b) = nullable_count a + nullable_count b.
Proof. unfold nullable_count, zlen. rewrite filter_app, app_length. lia. Qed.
Lemma count_rev {A} (f : A -> bool) l : zlen (filter f (rev l)) = zlen (filter f l).
Proof.
  unfold zlen. f_equal. induction l as [|x l IH]; [reflexivity|]. cbn [rev filter]. rewrite filter_app, app_length, IH. cbn [filter].
  destruct (f x); cbn [List.length]; lia.
Qed.
Lemma table_ids d id : Forall (fun c => cd_table c = id) (columns_of d id).
Proof. apply Forall_forall. intros c Hc. apply filter_In in Hc as [_ Hc]. lia. Qed.
Lemma users_app a b : users (a ++ b) = users a ++ users b. Proof. apply flat_map_app. Qed.
Lemma users_user cs : users (map User cs) = cs.
Proof. unfold users. induction cs as [|c cs IH]; [reflexivity|]. cbn [map flat_map app]. now rewrite IH. Qed.
Lemma users_keyed key rest : users (key_slots key rest) = key ++ rest.
Proof. unfold key_slots. rewrite !users_app, !users_user. reflexivity. Qed.
Lemma users_keyless cs : users (no_key_slots cs) = cs.
Proof. unfold no_key_slots. rewrite users_app, users_user. reflexivity. Qed.

Lemma tool_with_cut fuel rt files op sys tfile d pages t e db tb ss dpages rows tm : consistent d -> NoDup (map td_name (dd_tables d)) ->
  files sys = Some (map IoBytes pages) -> files tfile = Some (map IoBytes dpages) -> (Z.to_nat 16384 < fuel)%nat ->
  ParseDictPage fuel rt (Some (map IoBytes pages)) = ([], Ok (tm, None)) -> represents (dd_tables d) (placed d) tm ->
  In t (dd_tables d) -> named_as (td_name t) db tb -> db <> [] -> ~ In 96 db -> ~ In 96 tb ->
  mget tm (td_id t) = Some e -> Forall2 slot_column ss (t_columns e) -> Forall (fun c => c_table c = td_id t) (t_columns e) ->
  zlen (filter (fun c => negb (Z.testbit (cd_prtype c) 8)) (columns_of d (td_id t))) = nullable_count (map slot_layout ss) ->
  (3 <= List.length (t_columns e))%nat -> (exists c, In (User c) ss) ->
  file_cut rt (if list_eq_dec Z.eq_dec op (txt "RecoveryData") then true else false) ss dpages rows ->
  exists lines, FromDataFile fuel rt files op sys tfile db tb = (lines, Ok tt) /\ Forall2 (said rt db tb) rows lines.
Proof.
  intros Hc Hnd F1 F2 Hfuel Hd HR Ht Hnm Hdb Hb1 Hb2 Hg HS Hid Hn H3 Hu HF.
  assert (Hk : known tm (t_columns e) (map slot_layout ss)).
  { apply (slots_known d tm t ss (t_columns e) Hc (placed_agrees d tm Hc HR) Ht HS); [exists e; split; [exact Hg|reflexivity]|exact Hid| |exact Hn].
    intro E. rewrite E in H3. cbn in H3. lia. }
  destruct (tool_prints fuel rt d tm t e db tb ss (t_columns e) dpages rows _ Hc Hnd HR Ht Hnm Hdb Hg eq_refl HS Hk H3 Hu HF Hb1 Hb2 Hfuel) as [lines [E HL]].
  exists lines. split; [|exact HL]. rewrite C73_mode, F1, Hd. cbn [wbind]. rewrite F2, E. cbn [wbind wret app]. now rewrite app_nil_r.
Qed.
Lemma tool_with fuel rt files op sys tfile d pages t e db tb ss dpages rows tm : consistent d -> NoDup (map td_name (dd_tables d)) ->
  files sys = Some (map IoBytes pages) -> files tfile = Some (map IoBytes dpages) -> (Z.to_nat 16384 < fuel)%nat ->
  ParseDictPage fuel rt (Some (map IoBytes pages)) = ([], Ok (tm, None)) -> represents (dd_tables d) (placed d) tm ->
  In t (dd_tables d) -> named_as (td_name t) db tb -> db <> [] -> ~ In 96 db -> ~ In 96 tb ->
  mget tm (td_id t) = Some e -> Forall2 slot_column ss (t_columns e) -> Forall (fun c => c_table c = td_id t) (t_columns e) ->
  zlen (filter (fun c => negb (Z.testbit (cd_prtype c) 8)) (columns_of d (td_id t))) = nullable_count (map slot_layout ss) ->
  (3 <= List.length (t_columns e))%nat -> (exists c, In (User c) ss) ->
  file_holds rt (if list_eq_dec Z.eq_dec op (txt "RecoveryData") then true else false) ss dpages rows ->
  exists lines, FromDataFile fuel rt files op sys tfile db tb = (lines, Ok tt) /\ Forall2 (fun vs line => read_replace line = Some (db, tb, vs)) rows lines.
Proof.
  intros. assert (HX : exists lines, FromDataFile fuel rt files op sys tfile db tb = (lines, Ok tt) /\ Forall2 (said rt db tb) rows lines) by (eapply tool_with_cut; try eassumption; now apply holds_cut).
  destruct HX as [lines [E HL]]. exists lines. split; [exact E|now apply (said_reads rt)].
Qed.
Lemma tool_leading_cut fuel rt files op sys tfile d pages t db tb key rest dpages rows : stores_dictionary pages d -> consistent d -> NoDup (map td_name (dd_tables d)) ->
  files sys = Some (map IoBytes pages) -> files tfile = Some (map IoBytes dpages) -> (Z.to_nat 16384 < fuel)%nat ->
  In t (dd_tables d) -> named_as (td_name t) db tb -> db <> [] -> ~ In 96 db -> ~ In 96 tb ->
  columns_of d (td_id t) = key ++ rest -> key <> [] -> Forall (fun c => ordinary c /\ readable_column c) (columns_of d (td_id t)) ->
  (exists i, In i (indexes_of d (td_id t)) /\ primary i /\ map cd_name key = map fd_column (fields_of d (id_id i))) ->
  file_cut rt (if list_eq_dec Z.eq_dec op (txt "RecoveryData") then true else false) (key_slots (rev key) rest) dpages rows ->
  exists lines, FromDataFile fuel rt files op sys tfile db tb = (lines, Ok tt) /\ Forall2 (said rt db tb) rows lines.
Proof.
  intros Hs Hc Hnd F1 F2 Hfuel Ht Hnm Hdb Hb1 Hb2 HE Hne Hro Hix HF.
  destruct (dict_read fuel rt pages d Hs Hc Hfuel) as [tm [Hd HR]]. destruct (represents_in d _ tm t Hc HR Ht) as [e [Hg HP]].
  pose proof (placed_leading d t e key rest Hc HP HE Hix) as Ec. pose proof (table_ids d (td_id t)) as Hids. rewrite HE in Hro, Hids.
  apply Forall_app in Hro as [Hro1 Hro2]. apply Forall_app in Hids as [Hi1 Hi2].
  assert (Hrev : forall P : column_def -> Prop, Forall P key -> Forall P (rev key)) by (intros P H; apply Forall_forall; intros x Hx; apply in_rev in Hx; rewrite Forall_forall in H; now apply H).
  assert (Hmap : forall cs, Forall (fun c => cd_table c = td_id t) cs -> Forall (fun c => c_table c = td_id t) (map descriptor cs)) by (intros cs H; apply Forall_map; exact H).
  apply (tool_with_cut fuel rt files op sys tfile d pages t e db tb (key_slots (rev key) rest) dpages rows tm); try assumption; try rewrite Ec.
  - apply leading_slots; [now apply Hrev|exact Hro2].
  - apply Forall_app. split; [apply Hmap; now apply Hrev|]. constructor; [reflexivity|]. constructor; [reflexivity|]. now apply Hmap.
  - rewrite HE, filter_app. unfold key_slots. rewrite !map_app, !nullable_app, !nullable_users, count_rev. unfold nullable_count, zlen. rewrite app_length. cbn [map filter slot_layout l_nullable List.length]. lia.
  - rewrite !app_length, map_length, rev_length. destruct key; [contradiction|]. cbn [List.length]. lia.
  - destruct key as [|c key]; [contradiction|]. exists c. unfold key_slots. apply in_or_app. left. apply in_map. rewrite <- in_rev. now left.
Qed.
Lemma tool_leading fuel rt files op sys tfile d pages t db tb key rest dpages rows : stores_dictionary pages d -> consistent d -> NoDup (map td_name (dd_tables d)) ->
  files sys = Some (map IoBytes pages) -> files tfile = Some (map IoBytes dpages) -> (Z.to_nat 16384 < fuel)%nat ->
  In t (dd_tables d) -> named_as (td_name t) db tb -> db <> [] -> ~ In 96 db -> ~ In 96 tb ->
  columns_of d (td_id t) = key ++ rest -> key <> [] -> Forall (fun c => ordinary c /\ readable_column c) (columns_of d (td_id t)) ->
  (exists i, In i (indexes_of d (td_id t)) /\ primary i /\ map cd_name key = map fd_column (fields_of d (id_id i))) ->
  file_holds rt (if list_eq_dec Z.eq_dec op (txt "RecoveryData") then true else false) (key_slots (rev key) rest) dpages rows ->
  exists lines, FromDataFile fuel rt files op sys tfile db tb = (lines, Ok tt) /\ Forall2 (fun vs line => read_replace line = Some (db, tb, vs)) rows lines.
Proof.
  intros. assert (HX : exists lines, FromDataFile fuel rt files op sys tfile db tb = (lines, Ok tt) /\ Forall2 (said rt db tb) rows lines) by (eapply tool_leading_cut; try eassumption; now apply holds_cut).
  destruct HX as [lines [E HL]]. exists lines. split; [exact E|now apply (said_reads rt)].
Qed.
Lemma tool_keyless_cut fuel rt files op sys tfile d pages t db tb dpages rows : stores_dictionary pages d -> consistent d -> NoDup (map td_name (dd_tables d)) ->
  files sys = Some (map IoBytes pages) -> files tfile = Some (map IoBytes dpages) -> (Z.to_nat 16384 < fuel)%nat ->
  In t (dd_tables d) -> named_as (td_name t) db tb -> db <> [] -> ~ In 96 db -> ~ In 96 tb ->
  columns_of d (td_id t) <> [] -> Forall (fun c => ordinary c /\ readable_column c) (columns_of d (td_id t)) -> has_no_key d (td_id t) ->
  file_cut rt (if list_eq_dec Z.eq_dec op (txt "RecoveryData") then true else false) (no_key_slots (columns_of d (td_id t))) dpages rows ->
  exists lines, FromDataFile fuel rt files op sys tfile db tb = (lines, Ok tt) /\ Forall2 (said rt db tb) rows lines.
Proof.
  intros Hs Hc Hnd F1 F2 Hfuel Ht Hnm Hdb Hb1 Hb2 Hne Hro Hix HF.
  destruct (dict_read fuel rt pages d Hs Hc Hfuel) as [tm [Hd HR]]. destruct (represents_in d _ tm t Hc HR Ht) as [e [Hg HP]].
  pose proof (placed_generated d t e Hc HP Hix) as Ec. pose proof (table_ids d (td_id t)) as Hids.
  apply (tool_with_cut fuel rt files op sys tfile d pages t e db tb (no_key_slots (columns_of d (td_id t))) dpages rows tm); try assumption; try rewrite Ec.
  - now apply generated_slots.
  - unfold without_key. constructor; [reflexivity|]. constructor; [reflexivity|]. constructor; [reflexivity|]. apply Forall_map. exact Hids.
  - unfold no_key_slots. rewrite map_app, nullable_app, nullable_users. unfold nullable_count. cbn [map filter slot_layout l_nullable zlen List.length]. unfold zlen. cbn [List.length]. lia.
  - cbn [without_key app List.length]. lia.
  - destruct (columns_of d (td_id t)) as [|c cs]; [contradiction|]. exists c. unfold no_key_slots. cbn [map app]. do 3 right. now left.
Qed.
Lemma tool_keyless fuel rt files op sys tfile d pages t db tb dpages rows : stores_dictionary pages d -> consistent d -> NoDup (map td_name (dd_tables d)) ->
  files sys = Some (map IoBytes pages) -> files tfile = Some (map IoBytes dpages) -> (Z.to_nat 16384 < fuel)%nat ->
  In t (dd_tables d) -> named_as (td_name t) db tb -> db <> [] -> ~ In 96 db -> ~ In 96 tb ->
  columns_of d (td_id t) <> [] -> Forall (fun c => ordinary c /\ readable_column c) (columns_of d (td_id t)) -> has_no_key d (td_id t) ->
  file_holds rt (if list_eq_dec Z.eq_dec op (txt "RecoveryData") then true else false) (no_key_slots (columns_of d (td_id t))) dpages rows ->
  exists lines, FromDataFile fuel rt files op sys tfile db tb = (lines, Ok tt) /\ Forall2 (fun vs line => read_replace line = Some (db, tb, vs)) rows lines.
Proof.
  intros. assert (HX : exists lines, FromDataFile fuel rt files op sys tfile db tb = (lines, Ok tt) /\ Forall2 (said rt db tb) rows lines) by (eapply tool_keyless_cut; try eassumption; now apply holds_cut).
  destruct HX as [lines [E HL]]. exists lines. split; [exact E|now apply (said_reads rt)].
Qed.
(** A table has one clustered index, so one key. *)
Lemma clustered_one d id i j : consistent d -> In i (indexes_of d id) -> In j (indexes_of d id) -> primary i \/ generated i -> primary j \/ generated j -> i = j.
Proof.
  intros [_ [_ [_ [_ [H _]]]]] Hi Hj Pi Pj. specialize (H id). destruct (in_split _ _ Hi) as [l1 [l2 El]]. rewrite El in Hj, H. apply in_app_or in Hj as [X|[X|X]].
  - exfalso. apply in_split in X as [a [b ->]]. apply (H a j b i l2); [rewrite <- app_assoc; reflexivity|exact Pj|exact Pi].
  - exact X.
  - exfalso. apply in_split in X as [a [b ->]]. now apply (H l1 i a j b).
Qed.
Lemma one_index d id key rest : consistent d -> has_key d id key rest -> has_no_key d id -> False.
Proof.
  intros Hc [i [Hi [Hp _]]] [j [Hj Hg]]. pose proof (clustered_one d id i j Hc Hi Hj (or_introl Hp) (or_intror Hg)) as E. subst j. unfold primary, generated in *. rewrite Hp in Hg. discriminate Hg.
Qed.
Lemma same_key d id key rest key' rest' : consistent d -> has_key d id key rest -> has_key d id key' rest' -> key = key' /\ rest = rest'.
Proof.
  intros Hc [i [Hi [Hp [Hk [Hin Hr]]]]] [j [Hj [Hp' [Hk' [Hin' Hr']]]]]. pose proof (clustered_one d id i j Hc Hi Hj (or_introl Hp) (or_introl Hp')) as E. subst j.
  assert (EK : key = key').
  { rewrite <- Hk in Hk'. destruct Hc as [_ [_ [_ [_ [_ [Hd _]]]]]]. specialize (Hd id). clear - Hk' Hin Hin' Hd. revert key' Hk' Hin'.
    assert (U : forall x y, In x (columns_of d id) -> In y (columns_of d id) -> cd_name x = cd_name y -> x = y).
    { clear - Hd. induction (columns_of d id) as [|z l IH]; [intros x y []|]. cbn [map] in Hd. inversion Hd as [|? ? N1 N2]; subst.
      intros x y [<-|Hx] [<-|Hy] E; [reflexivity| | |now apply IH]; exfalso; apply N1; [rewrite E|rewrite <- E]; now apply in_map. }
    induction key as [|x key IH]; intros [|y key'] E Hy; try discriminate; [reflexivity|]. cbn [map] in E. injection E as E1 E2.
    f_equal; [apply U; [apply Hin; now left|apply Hy; now left|now symmetry]|]. apply IH; [intros z Hz; apply Hin; now right|exact E2|intros z Hz; apply Hy; now right]. }
  subst key'. split; [reflexivity|]. now rewrite Hr, Hr'.
Qed.
