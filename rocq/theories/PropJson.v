(** C124: JSON columns. *)
From Coq Require Import String ZifyBool.
From Verif Require Import GoBase Utils Ibdata Cmd SpecInno SpecText SpecSql SpecRecord SpecRow SpecPage SpecDict SpecTool SpecJson
  PBase PWire PValue PText PRec PPage PSql PFile PDict PBuild PTool PropDict PropTool PMake.
Local Open Scope string_scope.
Local Open Scope list_scope.
Local Open Scope Z_scope.

(** Every value of a row is the value of a readable column. *)
Lemma row_values rt ss vs fs : row_encodes rt ss vs fs -> Forall2 (fun c v => exists f, encodes rt c v f) (users ss) vs.
Proof. unfold users. induction 1 as [|n ss vs b fs _ _ IH|c ss v vs f fs He _ _ IH]; cbn [flat_map app]; [constructor|exact IH|]. constructor; [now exists f|exact IH]. Qed.
Lemma file_values rt deleted ss pages vss : file_holds rt deleted ss pages vss -> Forall (Forall2 (fun c v => exists f, encodes rt c v f) (users ss)) vss.
Proof.
  intros [_ [contents [H <-]]]. induction H as [|p vs ps vss [compact [offs [_ [_ HR]]]] _ IH]; [constructor|]. cbn [List.concat]. apply Forall_app. split; [|exact IH].
  induction HR as [|off v offs vs [_ [fs [_ [_ He]]]] _ IH2]; constructor; [exact (row_values rt ss v fs He)|exact IH2].
Qed.
Lemma slots_all d id ss c : consistent d -> clustered_slots d id ss -> In c (columns_of d id) -> In c (users ss).
Proof.
  intros [_ [_ [_ [_ [_ [Hn _]]]]]] Hs Hc. destruct Hs as [[_ ->]|[key [rest [[i [_ [_ [_ [Hk ->]]]]] ->]]]].
  - unfold users, no_key_slots. cbn [app flat_map]. clear - Hc. induction (columns_of d id) as [|x l IH]; [exact Hc|]. cbn [map flat_map app]. destruct Hc as [->|Hc]; [now left|right; now apply IH].
  - rewrite users_keyed. apply in_or_app.
    destruct (existsb (fun k => if list_eq_dec Z.eq_dec (cd_name k) (cd_name c) then true else false) key) eqn:E.
    + left. apply existsb_exists in E as [k [H1 H2]]. destruct (list_eq_dec Z.eq_dec (cd_name k) (cd_name c)) as [E|]; [|discriminate]. specialize (Hn id). specialize (Hk k H1).
      assert (k = c) as <-; [|exact H1]. clear - Hn Hk Hc E. induction (columns_of d id) as [|x l IH]; [contradiction|]. cbn [map] in Hn. inversion Hn as [|y z N1 N2]; subst.
      destruct Hk as [->|Hk]; destruct Hc as [->|Hc]; [reflexivity| | |now apply IH]; exfalso; apply N1; [rewrite E|rewrite <- E]; now apply in_map.
    + right. apply filter_In. split; [exact Hc|now rewrite E].
Qed.
Lemma json_value rt c v f : encodes rt c v f -> json_column c -> v = SNull \/ exists b, v = SBytes b.
Proof.
  unfold json_column. intros H Hj.
  assert (N : forall l, ~ In 245 l -> ~ In (mysql_type c) l) by (intros l Hl; rewrite Hj; exact Hl). assert (M : forall n, n <> 245 -> mysql_type c <> n) by (intros n Hn E; apply Hn; now rewrite <- E).
  destruct H as [| ? ? ? _ X | ? ? ? _ X | ? ? _ X | ? ? ? ? _ X | ? ? ? ? ? _ X | ? ? ? ? ? ? ? ? _ X | ? _ X | ? _ X | ? _ X | ? _ X | ? _ X | ? ? _ X | ? _ X | ? _ X | ? _ X];
    first [now left | right; eexists; reflexivity | exfalso; revert X; first [apply M; discriminate | apply N; cbn [In]; lia]].
Qed.
(** False: MySQL takes the statement of a row exactly if all its JSON columns
    are NULL. *)
Theorem C124_json_refuted : forall json_text fuel rt files op sys tfile d sys_pages t db tb ss pages rows,
  tool_input rt (is_deleted op) d sys_pages t db tb ss pages rows -> front_key d (td_id t) ->
  files sys = Some (map IoBytes sys_pages) -> files tfile = Some (map IoBytes pages) -> (Z.to_nat 16384 < fuel)%nat ->
  exists lines, FromDataFile fuel rt files op sys tfile db tb = (lines, Ok tt)
    /\ Forall2 (fun r line => exists vs, read_replace line = Some (db, tb, vs)
         /\ (accepted json_text (columns_of d (td_id t)) vs <-> forall c, In c (columns_of d (td_id t)) -> json_column c -> r (cd_name c) = SNull)) rows lines.
Proof.
  intros json_text fuel rt files op sys tfile d sys_pages t db tb ss pages rows HI Hk F1 F2 Hfuel.
  destruct (C82_statements_partial fuel rt files op sys tfile d sys_pages t db tb ss pages rows HI Hk F1 F2 Hfuel) as [lines [E H]]. exists lines. split; [exact E|].
  destruct HI as [_ [Hc [_ [_ [_ [_ [_ [_ [_ [_ [Hs HF]]]]]]]]]]]. apply file_values in HF.
  assert (HJ : Forall (fun r => forall c, In c (columns_of d (td_id t)) -> json_column c -> r (cd_name c) = SNull \/ exists b, r (cd_name c) = SBytes b) rows).
  { apply Forall_forall. intros r Hr c Hin Hj. rewrite Forall_forall in HF. specialize (HF _ (in_map _ _ _ Hr)). pose proof (slots_all d _ ss c Hc Hs Hin) as Hu.
    unfold values in HF. clear - HF Hu Hj. induction (users ss) as [|x l IH]; [contradiction|]. cbn [map] in HF. inversion HF as [|? ? ? ? [f He] HF']; subst. destruct Hu as [->|Hu]; [exact (json_value rt c _ f He Hj)|now apply IH]. }
  clear - H HJ. induction H as [|r line rows lines Hr _ IH]; [constructor|]. inversion HJ as [|? ? H1 H2]; subst. constructor; [|now apply IH]. clear IH H2 HJ.
  exists (values (columns_of d (td_id t)) r). split; [exact Hr|]. clear Hr. unfold accepted, values. induction (columns_of d (td_id t)) as [|c cs IH].
  { split; [intros _ c []|intros _; constructor]. }
  assert (IH' := IH (fun x Hx => H1 x (or_intror Hx))). clear IH. cbn [map]. split.
  - intros HA x [->|Hx] Hj; inversion HA as [|? ? ? ? T1 T2]; subst; [|exact (proj1 IH' T2 x Hx Hj)]. specialize (T1 Hj). destruct (H1 x (or_introl eq_refl) Hj) as [E|[b E]]; [exact E|rewrite E in T1; contradiction].
  - intro HA. constructor; [|apply IH'; intros x Hx; apply HA; now right]. intro Hj. rewrite (HA c (or_introl eq_refl) Hj). exact I.
Qed.
Print Assumptions C124_json_refuted.
(** Full statement: MySQL takes the statement of every row, and its JSON columns
    hold the documents again.  Proved: for the rows whose JSON columns are all
    NULL; missing (false): the others. *)
Theorem C124_null_partial : forall json_text fuel rt files op sys tfile d sys_pages t db tb ss pages rows,
  tool_input rt (is_deleted op) d sys_pages t db tb ss pages rows -> front_key d (td_id t) ->
  (forall r c, In r rows -> In c (columns_of d (td_id t)) -> json_column c -> r (cd_name c) = SNull) ->
  files sys = Some (map IoBytes sys_pages) -> files tfile = Some (map IoBytes pages) -> (Z.to_nat 16384 < fuel)%nat ->
  exists lines, FromDataFile fuel rt files op sys tfile db tb = (lines, Ok tt)
    /\ Forall2 (fun r line => read_replace line = Some (db, tb, values (columns_of d (td_id t)) r) /\ accepted json_text (columns_of d (td_id t)) (values (columns_of d (td_id t)) r)) rows lines.
Proof.
  intros json_text fuel rt files op sys tfile d sys_pages t db tb ss pages rows HI Hk HN F1 F2 Hfuel.
  destruct (C82_statements_partial fuel rt files op sys tfile d sys_pages t db tb ss pages rows HI Hk F1 F2 Hfuel) as [lines [E H]]. exists lines. split; [exact E|]. clear - H HN.
  induction H as [|r line rows lines Hr _ IH]; constructor; [|apply IH; intros x c Hx; apply HN; now right]. split; [exact Hr|].
  specialize (HN r). assert (HN' := fun c => HN c (or_introl eq_refl)). clear - HN'. unfold accepted, values. induction (columns_of d (td_id t)) as [|c cs IH]; [constructor|]. cbn [map].
  constructor; [intro Hj; rewrite (HN' c (or_introl eq_refl) Hj); exact I|apply IH; intros x Hx; apply HN'; now right].
Qed.
Print Assumptions C124_null_partial.

(** j(id INT NOT NULL PRIMARY KEY, doc JSON): the document [true] and a NULL. *)
Definition j_id : column_def := mkColumnDef 61 0 (txt "id") 6 (256 + 3) 4.
Definition j_doc : column_def := mkColumnDef 61 1 (txt "doc") 5 (1024 + 245) 4.
Definition dict_j : dictionary := single (txt "test") (txt "j") 61 5 62 j_id [j_doc].
Definition stored_true : list Z := [2; 1; 0; 8; 0; 4; 1; 0].
Definition row_j (id : list Z) (v : sqlval) : row := fun n => if list_eq_dec Z.eq_dec n (txt "id") then SStr id else v.
Definition page_j : list Z := built true 3 17855 62 (map (crec (map slot_layout (key_slots [j_id] [j_doc])))
  [[FBytes (store_int 4 1); FBytes (be 6 300); FBytes (be 7 5); FBytes stored_true]; [FBytes (store_int 4 2); FBytes (be 6 300); FBytes (be 7 5); FNull]]).
Lemma input_j rt : tool_input rt false dict_j (dict_pages dict_j) (mkTableDef (txt "test/j") 61 5) (txt "test") (txt "j") (key_slots [j_id] [j_doc]) [page_j]
  [row_j (txt "1") (SBytes stored_true); row_j (txt "2") SNull] /\ front_key dict_j 61.
Proof.
  apply (single_input rt (txt "test") (txt "j") 61 5 62 j_id [j_doc]).
  - split; [cbn; lia|]. split; [cbn; lia|]. split; [repeat constructor|distinct].
  - vm_compute. reflexivity.
  - discriminate.
  - cbn; lia.
  - cbn; lia.
  - constructor; [|constructor; [|constructor]]; (split; [intro H; cbn in H; repeat (destruct H as [H|H]; [discriminate H|]); exact H|]); [left; cbn; tauto|do 5 right; left; cbn; tauto].
  - lia.
  - apply fine_check; vm_compute; reflexivity.
  - vm_compute; discriminate.
  - constructor; [|constructor; [|constructor]]; (split; [repeat (constructor; [vm_compute; reflexivity|]); constructor|]).
    + change (row_encodes rt [User j_id; Own 6; Own 7; User j_doc] [SStr (txt "1"); SBytes stored_true] [FBytes (store_int 4 1); FBytes (be 6 300); FBytes (be 7 5); FBytes stored_true]).
      constructor; [apply enc_int; try reflexivity; try (cbn; lia); number|plain_text|]. constructor; [reflexivity|]. constructor; [reflexivity|]. constructor; [| |constructor].
      * apply enc_blob; [reflexivity|now left|reflexivity|reflexivity|]. unfold stored_true. repeat (constructor; [lia|]). constructor.
      * cbn. unfold stored_true. repeat (constructor; [lia|]). constructor.
    + change (row_encodes rt [User j_id; Own 6; Own 7; User j_doc] [SStr (txt "2"); SNull] [FBytes (store_int 4 2); FBytes (be 6 300); FBytes (be 7 5); FNull]).
      constructor; [apply enc_int; try reflexivity; try (cbn; lia); number|plain_text|]. constructor; [reflexivity|]. constructor; [reflexivity|]. constructor; [|exact I|constructor].
      apply enc_null; [reflexivity|discriminate].
Qed.
Example C124_case : forall rt, tool_input rt (is_deleted (txt "PrintData")) dict_j (dict_pages dict_j) (mkTableDef (txt "test/j") 61 5) (txt "test") (txt "j") (key_slots [j_id] [j_doc]) [page_j]
    [row_j (txt "1") (SBytes stored_true); row_j (txt "2") SNull] /\ front_key dict_j 61
  /\ In j_doc (columns_of dict_j 61) /\ json_column j_doc /\ row_j (txt "1") (SBytes stored_true) (cd_name j_doc) <> SNull.
Proof. intro rt. destruct (input_j rt) as [A B]. split; [exact A|]. split; [exact B|]. split; [right; now left|]. split; [reflexivity|discriminate]. Qed.
