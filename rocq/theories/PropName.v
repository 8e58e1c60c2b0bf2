(** C114: tables with any names. *)
From Coq Require Import String ZifyBool.
From Verif Require Import GoBase Utils Ibdata Redo Cmd SpecInno SpecText SpecSql SpecRecord SpecRow SpecPage SpecDict SpecTool SpecRedo SpecUndo SpecToolRedo SpecCmd SpecName
  PBase PWire PValue PText PRec PPage PSql PFile PDict PUndo PLog PBuild PTool PToolRedo PStored PropDict PropCmd PropRedo PropFile PropTool PropToolRedo.
Local Open Scope string_scope.
Local Open Scope list_scope.
Local Open Scope Z_scope.
Ltac Zify.zify_post_hook ::= Z.div_mod_to_equations.

(** * Names *)
Lemma safe_dec c : {safe c} + {~ safe c}.
Proof.
  destruct ((48 <=? c) && (c <=? 57) || (65 <=? c) && (c <=? 90) || (97 <=? c) && (c <=? 122) || (c =? 95)) eqn:E; [left|right]; unfold safe; lia.
Qed.
Lemma safe_utf8 c : safe c -> utf8 c = [c].
Proof. unfold safe, utf8. intro H. now replace (c <? 128) with true by lia. Qed.
Lemma char_length c s : stored_char c s -> (List.length (utf8 c) <= List.length s)%nat.
Proof.
  intros [[H ->]|[H [Hc [t [-> [_ Hl]]]]]]; [rewrite safe_utf8 by exact H; cbn; lia|]. unfold len in Hl. cbn [List.length].
  unfold utf8. destruct (c <? 0x80); [cbn; lia|]. destruct (c <? 0x800); [cbn; lia|]. replace (c <? 0x10000) with true by lia. cbn. lia.
Qed.
Lemma parts_length n parts : Forall2 stored_char n parts -> (List.length (typed n) <= List.length (List.concat parts))%nat.
Proof. unfold typed. induction 1 as [|c s n parts H _ IH]; [reflexivity|]. cbn [flat_map List.concat]. rewrite !app_length. apply char_length in H. lia. Qed.
Lemma plain_typed n : plain_name n -> typed n = n.
Proof. unfold typed. induction 1 as [|c n H _ IH]; [reflexivity|]. cbn [flat_map]. now rewrite safe_utf8, IH. Qed.
Lemma parts_typed n parts p : Forall2 stored_char n parts -> List.concat parts ++ p = typed n -> plain_name n /\ p = [].
Proof.
  induction 1 as [|c s n parts H HP IH]; intro E; [split; [constructor|exact E]|]. unfold typed in E. cbn [flat_map List.concat] in E. rewrite <- app_assoc in E.
  destruct H as [[H ->]|[H [Hc [t [-> [_ Hl]]]]]].
  - rewrite safe_utf8 in E by exact H. cbn [app] in E. assert (E2 : List.concat parts ++ p = typed n) by (unfold typed; congruence). destruct (IH E2) as [I1 I2]. split; [now constructor|exact I2].
  - exfalso. pose proof (parts_length n parts HP) as L. pose proof (f_equal (@List.length Z) E) as E2. rewrite !app_length in E2. cbn [List.length] in E2. unfold typed in L. unfold len in Hl.
    assert (U : (c < 128 /\ List.length (utf8 c) = 1%nat) \/ exists b l, utf8 c = b :: l /\ b <> 64).
    { unfold utf8. destruct (c <? 0x80) eqn:Q1; [left; split; [lia|reflexivity]|right]. destruct (c <? 0x800); [|replace (c <? 0x10000) with true by lia]; eexists; eexists; (split; [reflexivity|lia]). }
    destruct U as [[U1 U2]|[b [l [U1 U2]]]]; [lia|]. rewrite U1 in E. cbn [app] in E. injection E as E3 _. congruence.
Qed.
(** A name is stored as it is typed if and only if it has only letters, digits
    and underscores, and is not that of a partition. *)
Lemma name_typed n s : stored_name n s -> (s = typed n <-> plain_name n).
Proof.
  intros [parts [HP ->]]. split.
  - intro E. apply (parts_typed n parts [] HP). now rewrite app_nil_r.
  - intro H. rewrite (plain_typed n H). revert parts HP. induction H as [|c n Hc _ IH]; intros parts HP; inversion HP as [|? s ? parts' H1 H2]; subst; [reflexivity|]. cbn [List.concat].
    rewrite (IH _ H2). destruct H1 as [[_ ->]|[X _]]; [reflexivity|contradiction].
Qed.
Lemma table_typed n s : stored_table n s -> (s = typed n <-> plain_name n /\ stored_name n s).
Proof.
  intros [a [p [[parts [HP ->]] [_ ->]]]]. split.
  - intro E. destruct (parts_typed n parts p HP E) as [H1 ->]. split; [exact H1|]. exists parts. split; [exact HP|]. now rewrite app_nil_r.
  - intros [H1 H2]. now apply name_typed.
Qed.
(** The bytes of stored names. *)
Lemma name_bytes n s : stored_name n s -> Forall name_byte s.
Proof.
  intros [parts [HP ->]]. induction HP as [|c s n parts H _ IH]; cbn [List.concat]; [constructor|]. apply Forall_app. split; [|exact IH].
  destruct H as [[H ->]|[_ [_ [t [-> [H _]]]]]]; [constructor; [now left|constructor]|]. constructor; [right; now left|]. revert H. apply Forall_impl. intros x Hx. now left.
Qed.
Lemma table_bytes n s : stored_table n s -> Forall name_byte s.
Proof.
  intros [a [p [HA [HP ->]]]]. apply Forall_app. split; [exact (name_bytes n a HA)|]. destruct HP as [->|[x [[->| ->] Hx]]]; [constructor| |];
    (apply Forall_app; split; [|exact Hx]; constructor; [right; now right|]; constructor; [left; unfold safe; cbn; lia|]; constructor; [right; now right|constructor]).
Qed.
Lemma typed_special n c : In c n -> ~ name_byte c -> 0 <= c -> exists b, In b (typed n) /\ ~ name_byte b.
Proof.
  intros Hi Hn H0. assert (X : exists b, In b (utf8 c) /\ ~ name_byte b).
  { unfold utf8. destruct (c <? 0x80) eqn:Q; [exists c; split; [now left|exact Hn]|].
    destruct (c <? 0x800); [|destruct (c <? 0x10000)]; eexists; (split; [now left|]); unfold name_byte, safe; lia. }
  destruct X as [b [X1 X2]]. exists b. split; [|exact X2]. unfold typed. apply in_flat_map. now exists c.
Qed.
Lemma special_name n m s : special n -> stored_name m s \/ stored_table m s -> s <> typed n.
Proof.
  intros [c [Hi [H0 Hn]]] HS E. destruct (typed_special n c Hi Hn H0) as [b [B1 B2]]. rewrite <- E in B1.
  assert (HB : Forall name_byte s) by (destruct HS as [HS|HS]; [exact (name_bytes m s HS)|exact (table_bytes m s HS)]). rewrite Forall_forall in HB. exact (B2 (HB b B1)).
Qed.

(** * The data command *)
(** Asked for names under which the dictionary stores no table, the command
    prints nothing at all. *)
Lemma nothing_printed fuel rt files op sys tfile db tb d sys_pages pages : stores_dictionary sys_pages d -> consistent d -> Forall page_image pages ->
  files sys = Some (map IoBytes sys_pages) -> files tfile = Some (map IoBytes pages) -> (Z.to_nat 16384 < fuel)%nat ->
  (forall t, In t (dd_tables d) -> ~ named_as (td_name t) db tb) -> fst (FromDataFile fuel rt files op sys tfile db tb) = [].
Proof.
  intros Hs Hc HI F1 F2 Hf HN. unfold FromDataFile. rewrite F1, F2. destruct (dict_read fuel rt sys_pages d Hs Hc Hf) as [tm [-> HR]]. unfold wbind at 1. cbn [app].
  assert (HU : forall id e, In (id, e) tm -> ~ (t_db e = db /\ t_name e = tb)).
  { intros id e Hi [E1 E2]. pose proof (placed_agrees d tm Hc HR) as [Hk [Hids HA]]. assert (Hin : In id (map td_id (dd_tables d))) by (apply Hids; change id with (fst (id, e)); now apply in_map).
    apply in_map_iff in Hin as [t [<- Ht]]. destruct (HA t Ht) as [e' [Hg [Hn _]]]. apply (HN t Ht). rewrite <- E1, <- E2.
    assert (e' = e) as <-; [|exact Hn]. pose proof (in_mget tm _ _ Hk Hi). congruence. }
  unfold ParseDataPage. rewrite (unknown_columns tm db tb HU), (file_pages pages HI). unfold wlift. cbn [wbind app].
  pose proof (no_columns_file fuel rt tm db tb (is_recovery op) (map as_page (firsts pages))) as E.
  destruct (dataPages_loop fuel rt tm (map as_page (firsts pages)) db tb (is_recovery op) []) as [o [u| |]]; cbn in *; rewrite E; reflexivity.
Qed.

(** Full statement: the rows of every table are printed when it is asked for by
    the names it has, in statements with these names.  Proved (1) for tables
    whose names have only letters, digits and underscores, and that have no
    partitions.  Missing (false): all others. *)
Theorem C114_plain_partial : forall fuel rt files op sys tfile d sys_pages t db tb ss pages rows D T,
  tool_input rt (is_deleted op) d sys_pages t db tb ss pages rows -> front_key d (td_id t) ->
  files sys = Some (map IoBytes sys_pages) -> files tfile = Some (map IoBytes pages) -> (Z.to_nat 16384 < fuel)%nat ->
  stored_name D db -> stored_name T tb -> plain_name D -> plain_name T ->
  exists lines, FromDataFile fuel rt files op sys tfile (typed D) (typed T) = (lines, Ok tt)
    /\ Forall2 (fun r line => read_replace line = Some (typed D, typed T, values (columns_of d (td_id t)) r)) rows lines.
Proof.
  intros fuel rt files op sys tfile d sys_pages t db tb ss pages rows D T HI Hk F1 F2 Hfuel HD HT PD PT.
  apply (name_typed D db HD) in PD. apply (name_typed T tb HT) in PT. rewrite <- PD, <- PT. now apply (C82_statements_partial fuel rt files op sys tfile d sys_pages t db tb ss pages rows).
Qed.
Print Assumptions C114_plain_partial.
(** Nothing is printed for any other table: one with another character in a
    name, or the partitions of one, whatever rows they have. *)
Theorem C114_unfound_refuted : forall fuel rt files op sys tfile d sys_pages t db tb ss pages rows D T,
  tool_input rt (is_deleted op) d sys_pages t db tb ss pages rows ->
  files sys = Some (map IoBytes sys_pages) -> files tfile = Some (map IoBytes pages) -> (Z.to_nat 16384 < fuel)%nat ->
  stored_name D db -> stored_table T tb -> (forall t', In t' (dd_tables d) -> t' <> t -> ~ named_as (td_name t') (typed D) (typed T)) ->
  ~ (plain_name D /\ plain_name T /\ stored_name T tb) ->
  fst (FromDataFile fuel rt files op sys tfile (typed D) (typed T)) = [].
Proof.
  intros fuel rt files op sys tfile d sys_pages t db tb ss pages rows D T HI F1 F2 Hfuel HD HT HO HN. destruct HI as [Hs [Hc [_ [Ht [Hnm [_ [_ [_ [_ [_ [_ [Him _]]]]]]]]]]]].
  apply (nothing_printed fuel rt files op sys tfile (typed D) (typed T) d sys_pages pages); try assumption. intros t' Ht' N.
  assert (Dt : {t' = t} + {t' <> t}) by (repeat decide equality). destruct Dt as [->|X]; [|exact (HO t' Ht' X N)].
  destruct (named_unique _ _ _ _ _ Hnm N) as [E1 E2]. apply HN. split; [now apply (name_typed D db)|]. now apply (table_typed T tb).
Qed.
Print Assumptions C114_unfound_refuted.
Lemma well_unfound d D T : well_named d -> special D \/ special T /\ ~ temporary (typed T) -> forall t, In t (dd_tables d) -> ~ named_as (td_name t) (typed D) (typed T).
Proof.
  intros HW HS t Ht N. destruct (HW t _ _ Ht N) as [[m HD] HT]. destruct HS as [HS|[HS HQ]]; [apply (special_name D m (typed D) HS); [now left|reflexivity]|].
  destruct HT as [[m' HT]|HT]; [apply (special_name T m' (typed T) HS); [now right|reflexivity]|contradiction].
Qed.
(** So a name with a space, a hyphen, a dot, a dollar sign or a letter that is
    not of ASCII never gets anything, whatever other tables there are. *)
Theorem C114_special_refuted : forall fuel rt files op sys tfile d sys_pages pages D T,
  stores_dictionary sys_pages d -> consistent d -> well_named d -> Forall page_image pages ->
  files sys = Some (map IoBytes sys_pages) -> files tfile = Some (map IoBytes pages) -> (Z.to_nat 16384 < fuel)%nat ->
  special D \/ special T /\ ~ temporary (typed T) ->
  fst (FromDataFile fuel rt files op sys tfile (typed D) (typed T)) = [].
Proof.
  intros fuel rt files op sys tfile d sys_pages pages D T Hs Hc HW HI F1 F2 Hfuel HS.
  apply (nothing_printed fuel rt files op sys tfile (typed D) (typed T) d sys_pages pages); try assumption. now apply well_unfound.
Qed.
Print Assumptions C114_special_refuted.

(** * The redo command *)
(** (2) The UPDATE recovered for an update restores the row of the table of
    these names exactly when the names are plain and the table has no
    partitions. *)
Theorem C114_update_refuted : forall fuel rt files sys opt parts want_db want_tb spare d sys_pages fs ws,
  redo_input rt (good_update d) d sys_pages want_db want_tb fs ws ->
  files sys = Some (map IoBytes sys_pages) -> parts_of opt parts -> map files parts = map (fun f => Some (log_events f)) fs ->
  (Z.to_nat 16384 < fuel)%nat ->
  exists lines, FromRedoFile fuel rt files sys opt want_db want_tb spare = (lines, Ok tt)
    /\ Forall2 (fun w line => forall D T, stored_name D (up_db w) -> stored_table T (up_tb w) ->
         (restores (called w (typed D) (typed T)) line <-> plain_name D /\ plain_name T /\ stored_name T (up_tb w))) ws lines.
Proof.
  intros fuel rt files sys opt parts want_db want_tb spare d sys_pages fs ws HI F1 HP F2 Hfuel.
  destruct (C87_redo_partial fuel rt files sys opt parts want_db want_tb spare d sys_pages fs ws HI F1 HP F2 Hfuel) as [lines [E H]]. exists lines. split; [exact E|].
  revert H. apply forall2_impl. intros w line H D T HD HT. rewrite <- (table_typed T _ HT), <- (name_typed D _ HD). unfold restores in *. rewrite H. unfold called. cbn [up_db up_tb up_old up_key]. split.
  - intro X. injection X as -> ->. now split.
  - intros [-> ->]. reflexivity.
Qed.
Print Assumptions C114_update_refuted.
(** A request with such a name finds no update at all. *)
Theorem C114_request_refuted : forall fuel rt files sys opt parts spare d sys_pages fs ws D T,
  redo_input rt (shown_update d) d sys_pages (typed D) (typed T) fs ws -> well_named d ->
  files sys = Some (map IoBytes sys_pages) -> parts_of opt parts -> map files parts = map (fun f => Some (log_events f)) fs ->
  (Z.to_nat 16384 < fuel)%nat ->
  special D \/ special T /\ ~ temporary (typed T) ->
  FromRedoFile fuel rt files sys opt (typed D) (typed T) spare = ([], Ok tt).
Proof.
  intros fuel rt files sys opt parts spare d sys_pages fs ws D T HI HW F1 HP F2 Hfuel HS.
  rewrite (C87_lines_partial fuel rt files sys opt parts (typed D) (typed T) spare d sys_pages fs ws HI F1 HP F2 Hfuel).
  destruct HI as [_ [_ [_ [_ [es [tail [_ [_ [_ HL]]]]]]]]]. replace ws with (@nil update); [reflexivity|]. clear - HL HW HS.
  assert (NE : forall n, special n -> typed n <> []).
  { intros n [c [Hi [H0 Hn]]]. destruct (typed_special n c Hi Hn H0) as [b [Hb _]]. intro E. rewrite E in Hb. exact Hb. }
  induction HL as [| | | | | |single space page u w es l W1 W2 Hu H5 HM Hw Hp1 HT Hq _ IH]; try assumption; [reflexivity|]. exfalso.
  destruct Hw as [t [rest [Ht [_ [Hn _]]]]]. destruct (HW t _ _ Ht Hn) as [[m HD] HTb]. destruct Hq as [Q1 Q2]. destruct HS as [HS|[HS HQ]].
  - destruct Q1 as [Q1|Q1]; [exact (NE D HS Q1)|]. apply (special_name D m (up_db w) HS); [now left|now symmetry].
  - destruct Q2 as [Q2|Q2]; [exact (NE T HS Q2)|]. rewrite <- Q2 in HTb. destruct HTb as [[m' HTb]|HTb]; [|contradiction]. apply (special_name T m' (typed T) HS); [now right|reflexivity].
Qed.
Print Assumptions C114_request_refuted.

(** t of my-db, and a partition of shop.t. *)
Definition dict_n : dictionary := mkDictionary
  [mkTableDef (txt "my@002ddb/t") 21 5; mkTableDef (txt "shop/t#P#p0") 22 6]
  [c_id; c_v; c_a; c_b]
  [mkIndexDef 21 40 (txt "PRIMARY") 1 3; mkIndexDef 22 41 (txt "PRIMARY") 2 3]
  [mkFieldDef 40 0 (txt "id"); mkFieldDef 41 0 (txt "a"); mkFieldDef 41 1 (txt "b")].
Lemma stores_n : stores_dictionary (pages_of dict_n) dict_n.
Proof. apply storable_stores. vm_compute. reflexivity. Qed.
Lemma consistent_n : consistent dict_n.
Proof.
  split; [distinct|]. split; [distinct|]. split; [|split; [|split; [|split]]].
  - intros t [<-|[<-|[]]]; [exists (txt "my@002ddb"), (txt "t")|exists (txt "shop"), (txt "t#P#p0")]; left; (split; [reflexivity|]; split; cbn; lia).
  - intros i [<-|[<-|[]]]; cbn; tauto.
  - intro id. apply few. unfold indexes_of. cbn [dict_n dd_indexes filter id_table]. destruct (21 =? id) eqn:E1; destruct (22 =? id) eqn:E2; try lia; solve [now left|now right].
  - intro id. unfold columns_of. cbn [dict_n dd_columns filter c_id c_v c_a c_b cd_table]. destruct (21 =? id) eqn:E1; destruct (22 =? id) eqn:E2; try lia; distinct.
  - intros i [<-|[<-|[]]] Hp; (split; [distinct|]; split; [|reflexivity]); intros x Hx; vm_compute in Hx |- *; tauto.
Qed.
Lemma key_n : has_key dict_n 21 [c_id] [c_v].
Proof. exists (mkIndexDef 21 40 (txt "PRIMARY") 1 3). split; [now left|]. split; [reflexivity|]. split; [reflexivity|]. split; [|reflexivity]. intros x [<-|[]]. now left. Qed.
Ltac safe_text := cbn; repeat (constructor; [unfold safe; cbn; lia|]); constructor.
Lemma safe_stored n : Forall safe n -> stored_name n n.
Proof.
  intro H. exists (map (fun c => [c]) n). induction H as [|c n H _ [IH1 IH2]]; [split; [constructor|reflexivity]|]. cbn [map]. split; [constructor; [left; now split|exact IH1]|].
  cbn [List.concat app]. now rewrite <- IH2.
Qed.
Lemma my_db : stored_name (txt "my-db") (txt "my@002ddb").
Proof.
  exists [[109]; [121]; txt "@002d"; [100]; [98]]. split; [|reflexivity]. change (txt "my-db") with [109; 121; 45; 100; 98]. repeat (constructor; [left; split; [unfold safe; lia|reflexivity]|]). constructor.
  - right. split; [unfold safe; cbn; lia|]. split; [cbn; lia|]. exists (txt "002d"). split; [reflexivity|]. split; [safe_text|left; reflexivity].
  - repeat (constructor; [left; split; [unfold safe; lia|reflexivity]|]). constructor.
Qed.
Lemma part_t : stored_table (txt "t") (txt "t#P#p0") /\ ~ stored_name (txt "t") (txt "t#P#p0").
Proof.
  split.
  - exists (txt "t"), (txt "#P#p0"). split; [apply safe_stored; safe_text|]. split; [|reflexivity]. right. exists (txt "p0"). split; [now left|]. cbn. repeat (constructor; [left; unfold safe; lia|]). constructor.
  - intros [parts [H E]]. cbn in H. inversion H as [|c s n l H1 H2]; subst. inversion H2; subst. cbn [List.concat] in E. rewrite app_nil_r in E. destruct H1 as [[_ ->]|[X _]]; [discriminate E|]. apply X. unfold safe. lia.
Qed.
Lemma named_n : well_named dict_n.
Proof.
  intros t db tb [<-|[<-|[]]] N; cbn [td_name] in N.
  - assert (X : named_as (txt "my@002ddb/t") (txt "my@002ddb") (txt "t")) by (left; split; [reflexivity|]; split; cbn; lia). destruct (named_unique _ _ _ _ _ N X) as [-> ->].
    split; [exists (txt "my-db"); exact my_db|left; exists (txt "t"); exists (txt "t"), []]. split; [apply safe_stored; safe_text|]. split; [now left|reflexivity].
  - assert (X : named_as (txt "shop/t#P#p0") (txt "shop") (txt "t#P#p0")) by (left; split; [reflexivity|]; split; cbn; lia). destruct (named_unique _ _ _ _ _ N X) as [-> ->].
    split; [exists (txt "shop"); apply safe_stored; safe_text|left; exists (txt "t"); apply part_t].
Qed.
Lemma my_special : special (txt "my-db").
Proof. exists 45. split; [cbn; tauto|]. split; [lia|]. unfold name_byte, safe. lia. Qed.
Example C114_plain_case rt : tool_input rt (is_deleted (txt "PrintData")) dict3 pages3 (mkTableDef (txt "test/t") 21 5) (txt "test") (txt "t") (key_slots [c_id] [c_v]) [page_t] [row_t1; row_t2]
  /\ front_key dict3 21 /\ stored_name (txt "test") (txt "test") /\ stored_name (txt "t") (txt "t") /\ plain_name (txt "test") /\ plain_name (txt "t") /\ typed (txt "test") = txt "test".
Proof. destruct (C82_case rt) as [H1 H2]. do 2 (split; [assumption|]). do 2 (split; [apply safe_stored; safe_text|]). do 2 (split; [safe_text|]). reflexivity. Qed.
(** my-db.t has two rows; the command finds nothing for it. *)
Example C114_case rt : tool_input rt (is_deleted (txt "PrintData")) dict_n (pages_of dict_n) (mkTableDef (txt "my@002ddb/t") 21 5) (txt "my@002ddb") (txt "t") (key_slots [c_id] [c_v]) [page_t] [row_t1; row_t2]
  /\ stored_name (txt "my-db") (txt "my@002ddb") /\ stored_table (txt "t") (txt "t") /\ well_named dict_n /\ special (txt "my-db") /\ ~ plain_name (txt "my-db")
  /\ stored_table (txt "t") (txt "t#P#p0") /\ ~ stored_name (txt "t") (txt "t#P#p0") /\ stored_char 233 (txt "@0p") /\ utf8 233 = [195; 169].
Proof.
  split; [|split; [exact my_db|]].
  - change (is_deleted (txt "PrintData")) with false.
    split; [exact stores_n|]. split; [exact consistent_n|]. split; [distinct|]. split; [now left|].
    split; [left; split; [reflexivity|split; cbn; lia]|]. split; [discriminate|]. split; [cbn; lia|]. split; [cbn; lia|]. split; [discriminate|].
    split; [|split; [right; exists [c_id], [c_v]; split; [exact key_n|reflexivity]|exact (page_t_holds rt)]].
    change (columns_of dict_n (td_id (mkTableDef (txt "my@002ddb/t") 21 5))) with [c_id; c_v]. ordinary_columns.
  - split; [exists (txt "t"), []; split; [apply safe_stored; safe_text|]; split; [now left|reflexivity]|]. split; [exact named_n|]. split; [exact my_special|].
    split; [intro H; unfold plain_name in H; rewrite Forall_forall in H; specialize (H 45); unfold safe in H; assert (45 = 95 \/ 48 <= 45 <= 57 \/ 65 <= 45 <= 90 \/ 97 <= 45 <= 122) by (assert (In 45 (txt "my-db")) by (cbn; tauto); tauto); lia|].
    split; [apply part_t|]. split; [apply part_t|]. split; [|reflexivity]. right. split; [unfold safe; lia|]. split; [lia|]. exists (txt "0p"). split; [reflexivity|]. split; [safe_text|right; split; [lia|reflexivity]].
Qed.
(** An update of v in row 7 of my-db.t. *)
Definition change_n : update := mkUpdate (txt "my@002ddb") (txt "t") [(c_v, SStr (txt "abc"))] [(c_id, SStr (txt "7"))].
Lemma change_n_is rt : undo_of rt dict_n (update_t (txt "abc")) change_n.
Proof.
  exists (mkTableDef (txt "my@002ddb/t") 21 5), [c_v]. split; [now left|]. split; [reflexivity|]. split; [left; split; [reflexivity|]; split; cbn; lia|].
  split; [exact key_n|]. split; [|split; [|intros _]].
  - constructor; [|constructor]. cbn [fst snd change_n up_key]. apply (enc_int rt c_id 4 7); try reflexivity; [cbn; tauto|cbn; tauto|lia|exact (fmt_d_spec 7)].
  - change (columns_of dict_n (td_id (mkTableDef (txt "my@002ddb/t") 21 5))) with [c_id; c_v]. ordinary_columns.
  - constructor; [|constructor]. split; [reflexivity|]. cbn [fst snd]. apply enc_varchar; [reflexivity|reflexivity|cbn; lia|cbn; lia].
Qed.
Lemma change_n_good : good_update dict_n (update_t (txt "abc")) change_n.
Proof.
  split.
  - split; [constructor; [split; [exact I|discriminate]|constructor]|]. split; [constructor; [exact I|constructor]|]. split; [exists [c_v]; reflexivity|].
    split; [constructor; [split; [exact primary_tight|cbn; repeat (constructor; [lia|]); constructor]|constructor]|].
    intros _. constructor; [cbn; lia|constructor].
  - intros _. split; [cbn; lia|]. split; [cbn; lia|]. split; [discriminate|]. split; [reflexivity|]. cbn. constructor; [split; cbn; lia|]. constructor; [split; cbn; lia|constructor].
Qed.
Lemma redo_n rt want_db want_tb (ok : undo -> update -> Prop) ws : ok (update_t (txt "abc")) change_n ->
  (requested want_db want_tb (txt "my@002ddb") (txt "t") /\ ws = [change_n] \/ ~ requested want_db want_tb (txt "my@002ddb") (txt "t") /\ ws = []) ->
  (forall t db tb, In t (dd_tables dict_n) -> named_as (td_name t) db tb -> want_db = [] \/ want_tb = [] \/ want_db = db \/ want_tb <> tb) ->
  redo_input rt ok dict_n (pages_of dict_n) want_db want_tb [file_t (txt "abc")] ws.
Proof.
  intros Hok Hw HF. split; [exact stores_n|]. split; [exact consistent_n|]. split; [|split; [exact HF|]].
  - constructor; [|constructor]. destruct sample_file_ok as [H1 [H2 [H3 [H4 [H5 [H6 H7]]]]]]. unfold file_ok. cbn [file_t lf_header lf_cp1 lf_unused lf_cp2 lf_blocks].
    do 6 (split; [assumption|]). constructor; [|constructor; [apply block_check; reflexivity|constructor]]. apply block_check; reflexivity.
  - exists (log_t (txt "abc")), []. split; [reflexivity|]. split; [reflexivity|]. split; [reflexivity|].
    assert (R : log_says rt dict_n want_db want_tb ok 0 [ERecord true 3 300 (BInsert (Some (mkDesc 1 [4; 4])) 100 (mkIns None [1; 2; 3])); EEnd] []).
    { apply ls_record; [unfold word; lia|unfold word; lia| |exact I|vm_compute; discriminate|apply ls_end, ls_nil]. cbn. unfold short, desc_ok, insertion_ok. cbn. unfold zlen. cbn. lia. }
    unfold log_t. apply ls_checkpoint; [lia|]. destruct Hw as [[Hw ->]|[Hw ->]].
    + apply ls_update; [unfold word; lia|unfold word; lia|apply update_t_ok|right; vm_compute; discriminate|repeat constructor; discriminate|apply change_n_is|exact Hok|reflexivity|exact Hw|exact R].
    + apply (ls_other rt dict_n want_db want_tb ok 0 false 0 5 (update_t (txt "abc")) change_n); [unfold word; lia|unfold word; lia|apply update_t_ok|right; vm_compute; discriminate|repeat constructor; discriminate|apply change_n_is|exact Hok|now right|exact R].
Qed.
Example C114_update_case rt : redo_input rt (good_update dict_n) dict_n (pages_of dict_n) [] (txt "t") [file_t (txt "abc")] [change_n]
  /\ stored_name (txt "my-db") (up_db change_n) /\ stored_table (txt "t") (up_tb change_n) /\ ~ plain_name (txt "my-db")
  /\ verbatim change_n = txt "update `my@002ddb`.`t` set `v`='abc' where `id`='7';".
Proof.
  split; [apply redo_n; [exact change_n_good|left; split; [split; [now left|now right]|reflexivity]|auto]|]. destruct (C114_case rt) as [_ [H1 [H2 [_ [_ [H3 _]]]]]]. do 3 (split; [assumption|]). reflexivity.
Qed.
Example C114_request_case rt : redo_input rt (shown_update dict_n) dict_n (pages_of dict_n) (typed (txt "my-db")) (typed []) [file_t (txt "abc")] []
  /\ well_named dict_n /\ special (txt "my-db") /\ undo_of rt dict_n (update_t (txt "abc")) change_n.
Proof.
  split; [|split; [exact named_n|split; [exact my_special|apply change_n_is]]]. apply redo_n; [apply change_n_good| |right; now left]. right. split; [|reflexivity]. intros [[X|X] _]; discriminate X.
Qed.
