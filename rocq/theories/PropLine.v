(** C122: one line for each statement.  C123: pages are recovered independently
    of each other. *)
From Coq Require Import String ZifyBool.
From Verif Require Import GoBase Utils Ibdata Redo Cmd SpecInno SpecText SpecSql SpecRecord SpecRow SpecPage SpecDict SpecTool SpecRedo SpecUndo SpecToolRedo SpecCmd SpecLine
  PBase PWire PValue PText PRec PPage PSql PFile PDict PUndo PLog POut PBuild PTool PToolRedo PLarge PLine PropCmd PropRedo PropTool PropToolRedo PropDict PropPrefix PropChars.
Local Open Scope string_scope.
Local Open Scope list_scope.
Local Open Scope Z_scope.

Definition calm_error {A} (m : W (A * option bytes)) : Prop := forall a e, snd m = Ok (a, Some e) -> one_line e.
Lemma calm_bind {A B} (m : W A) (k : A -> W (B * option bytes)) : (forall a, snd m = Ok a -> calm_error (k a)) -> calm_error (wbind m k).
Proof. intros H b e E. apply wbind_ok in E as [a [E1 E2]]. exact (H a E1 b e E2). Qed.
Lemma number_one n : one_line (fmt_d n).
Proof.
  assert (D : forall w k t, dec_text w k t -> one_line t).
  { intros w k t H c Hc X; assert (Hd : Forall digit t) by (destruct H; tauto). rewrite Forall_forall in Hd. specialize (Hd c X). unfold digit in Hd. unfold line_bytes in Hc. cbn [In] in Hc. lia. }
  destruct (fmt_d_spec n) as [[_ H]|[_ [t' [-> H]]]]; [exact (D _ _ _ H)|]. change (45 :: t') with ([45] ++ t'). apply one_app. split; [apply calm_one; reflexivity|exact (D _ _ _ H)].
Qed.
Lemma index_error tm rows : forall err tm' e, (forall x, err = Some x -> one_line x) -> addIndexes tm err rows = Ok (tm', Some e) -> one_line e.
Proof.
  revert tm. induction rows as [|r rows IH]; intros tm err tm' e He E; cbn [addIndexes] in E; [injection E as _ E; now apply He|].
  destruct (addIndex tm r) as [[tm1 e1]| |] eqn:E1; try discriminate E. cbn [bind] in E. refine (IH tm1 _ tm' e _ E). intros x Ex. destruct e1 as [m|]; [|now apply He]. injection Ex as ->.
  unfold addIndex in E1. destruct (as_uint r 0) as [id| |]; try discriminate E1. cbn [bind] in E1. destruct (mget tm id) as [t|].
  - destruct (as_uint r 1); try discriminate E1. cbn [bind] in E1. destruct (as_str r 4); try discriminate E1. cbn [bind] in E1. destruct (as_uint r 6); try discriminate E1. cbn [bind] in E1. destruct (as_uint r 5); discriminate E1.
  - injection E1 as _ <-. change (one_line (bs "Table ID have not found " ++ fmt_d id)). apply one_app. split; [apply calm_one; reflexivity|apply number_one].
Qed.
Lemma dict_error fuel rt file : calm_error (ParseDictPage fuel rt file).
Proof.
  assert (C : forall s : bytes, one_line s -> forall tm : gomap Table, calm_error (wret (tm, Some s))) by (intros s H tm a e E; injection E as _ <-; exact H).
  assert (N : forall tm : gomap Table, calm_error (wret (tm, None))) by (intros tm a e E; discriminate E).
  unfold ParseDictPage. apply calm_bind. intros [pages [e|]] E.
  { destruct file as [f|]; cbn in E; [destruct (parseFile_loop f []); cbn in E; discriminate E|]. injection E as _ <-. apply C. apply calm_one. reflexivity. }
  apply calm_bind. intros sp _. apply calm_bind. intros D _.
  assert (K : forall (m : W (gomap Table * option bytes)) (k : gomap Table -> W (gomap Table * option bytes)), calm_error m -> (forall tm, calm_error (k tm)) ->
    calm_error ('(tm, err) <-w m ;; match err with Some e => wret (tm, Some e) | None => k tm end)).
  { intros m k Hm Hk. apply calm_bind. intros [tm [e|]] Em; [|apply Hk]. intros a e' E'. injection E' as _ <-. exact (Hm _ _ Em). }
  apply K; [unfold getAllTables; destruct (mget D SysTablesIdx); [apply calm_bind; intros tm' _; apply N|apply C; apply calm_one; reflexivity]|]. intro tm.
  apply K; [unfold getAllColumns; destruct (mget D SysColumnsIdx); [apply calm_bind; intros rows _; apply calm_bind; intros tm' _; apply N|apply C; apply calm_one; reflexivity]|]. intro tm2.
  apply K; [unfold getAllIndexes; destruct (mget D SysIndexesIdx); [apply calm_bind; intros rows _; intros a e E'; exact (index_error tm2 rows None a e ltac:(discriminate) E')|apply C; apply calm_one; reflexivity]|]. intro tm3.
  apply K; [unfold getAllFields; destruct (mget D SysFieldsIdx); [apply calm_bind; intros rows _; apply calm_bind; intros tm' _; apply N|apply C; apply calm_one; reflexivity]|]. intro tm4.
  apply calm_bind. intros tm5 _. apply N.
Qed.
Lemma data_error fuel rt tm file db tb r e : snd (ParseDataPage fuel rt tm file db tb r) = Ok (Some e) -> one_line e.
Proof.
  intro E. unfold ParseDataPage in E. apply wbind_ok in E as [[pages [x|]] [E1 E2]].
  - destruct file as [f|]; cbn in E1; [destruct (parseFile_loop f []); cbn in E1; discriminate E1|]. injection E1 as _ <-. injection E2 as <-. apply calm_one. reflexivity.
  - apply wbind_ok in E2 as [u [_ E2]]. discriminate E2.
Qed.

(** C122, for the data command: whatever the files hold, no line it prints has
    a line end in it (nor a CR, NUL or Ctrl-Z), unless the names given to it
    have. *)
Theorem C122_data_partial : forall fuel rt files op sys tfile db tb, one_line db -> one_line tb ->
  Forall one_line (fst (FromDataFile fuel rt files op sys tfile db tb)).
Proof.
  intros fuel rt files op sys tfile db tb Hd Ht. unfold FromDataFile. apply wo_bind.
  { pose proof (dict_silent rt fuel (files sys)) as H. unfold wout. rewrite H. constructor. }
  intros [tm [e|]] E; [constructor; [exact (dict_error fuel rt (files sys) tm e E)|constructor]|]. apply wo_bind.
  - apply wo_dataPage; [intro row; now apply statement_one|]. apply Forall_forall. intros c _ _ _. apply calm_one. reflexivity.
  - intros [e|] Ee; [|constructor]. constructor; [|constructor]. exact (data_error _ _ _ _ _ _ _ e Ee).
Qed.
Print Assumptions C122_data_partial.
(** False for the redo command: the line of an update has all the bytes of its
    names and values in it as they are. *)
Lemma verbatim_bytes w c : In c line_bytes -> Forall (fun cv => exists s, snd cv = SStr s) (up_key w) -> (In c (verbatim w) <-> mentions w c).
Proof.
  intros Hc HK.
  assert (N : forall s, calm (txt s) = true -> ~ In c (txt s)) by (intros s H; apply (calm_one _ H c Hc)).
  assert (Eq : forall name v, In c (equals name v) <-> In c name \/ exists t, v = Some t /\ In c t).
  { intros name v. unfold equals. rewrite !in_app_iff. assert (N1 := N "`" eq_refl). assert (N2 := N "`=" eq_refl). assert (N3 := N "'" eq_refl). assert (N4 := N "NULL" eq_refl). destruct v as [t|].
    - rewrite !in_app_iff. split; [intros [H|[H|[H|[H|[H|H]]]]]; try contradiction; [now left|right; exists t; auto]|]. intros [H|[t' [E H]]]; [tauto|]. injection E as ->. tauto.
    - split; [intros [H|[H|[H|H]]]; try contradiction; now left|]. intros [H|[t' [E H]]]; [tauto|discriminate E]. }
  unfold verbatim, undo_statement. rewrite !in_app_iff, !(in_joined c (txt " and ") (N " and " eq_refl)).
  assert (N1 := N "update `" eq_refl). assert (N2 := N "`.`" eq_refl). assert (N3 := N "` set " eq_refl). assert (N4 := N " where " eq_refl). assert (N5 := N ";" eq_refl).
  unfold mentions. split.
  - intros [H|[H|[H|[H|[H|[H|[H|[H|H]]]]]]]]; try contradiction; [now left|right; now left| |]; right; right; destruct H as [l [Hl H]]; rewrite map_map in Hl; apply in_map_iff in Hl as [[col v] [<- Hin]];
      apply Eq in H as [H|[t [Ev H]]]; exists col, v; (split; [apply in_or_app; tauto|]); cbn [fst snd] in *.
    + now left.
    + right. destruct v; try discriminate Ev. injection Ev as ->. exists t. auto.
    + now left.
    + right. injection Ev as <-. destruct v; try contradiction. eexists. split; [reflexivity|exact H].
  - intros [H|[H|[col [v [Hin H]]]]]; [tauto|tauto|]. apply in_app_or in Hin as [Hin|Hin].
    + do 5 right; left. eexists. split; [rewrite map_map; apply in_map; exact Hin|]. cbn [fst snd]. apply Eq. destruct H as [H|[t [-> H]]]; [now left|right; exists t; auto].
    + do 7 right; left. eexists. split; [rewrite map_map; apply in_map; exact Hin|]. cbn [fst snd]. apply Eq. destruct H as [H|[t [-> H]]]; [now left|right; exists t; auto].
Qed.
Theorem C122_redo_refuted : forall fuel rt files sys opt parts want_db want_tb spare d sys_pages fs ws,
  redo_input rt (shown_update d) d sys_pages want_db want_tb fs ws ->
  files sys = Some (map IoBytes sys_pages) -> parts_of opt parts -> map files parts = map (fun f => Some (log_events f)) fs ->
  (Z.to_nat 16384 < fuel)%nat ->
  exists lines, FromRedoFile fuel rt files sys opt want_db want_tb spare = (lines, Ok tt)
    /\ Forall2 (fun w line => one_line line <-> forall c, In c line_bytes -> ~ mentions w c) ws lines.
Proof.
  intros fuel rt files sys opt parts want_db want_tb spare d sys_pages fs ws HR F1 Hparts F2 Hfuel.
  exists (map verbatim ws). split; [now apply (C87_lines_partial fuel rt files sys opt parts want_db want_tb spare d sys_pages fs ws)|].
  destruct HR as [_ [_ [_ [_ [es [tail [_ [_ [_ HS]]]]]]]]]. clear - HS.
  induction HS as [| | | | | |single space page u w es l W1 W2 Hu H5 HM Hw Hp1 HT Hq _ IH]; try assumption; [constructor|].
  cbn [map]. constructor; [|exact IH].
  assert (HK : Forall (fun cv => exists s, snd cv = SStr s) (up_key w)).
  { destruct Hw as [t [rest [_ [_ [_ [_ [HK _]]]]]]]. destruct Hp1 as [Hp1 _]. clear - HK Hp1.
    induction HK as [|[c v] k cvs ks He _ IH]; constructor; inversion Hp1 as [|? ? [T1 _] T2]; subst; [|now apply IH]. cbn [fst snd] in *.
    destruct v as [|s|b|n]; try contradiction; [inversion He|]. now exists s. }
  unfold one_line. split; intros H c Hc X; apply (H c Hc); now apply (verbatim_bytes w c Hc HK).
Qed.
Print Assumptions C122_redo_refuted.

(** The old value holds a line end. *)
Definition broken : list Z := [97; 10; 98].
Example C122_redo_case rt : redo_input rt (shown_update dict3) dict3 pages3 [] (txt "t") [file_t broken] [change_t broken] /\ mentions (change_t broken) 10
  /\ In 10 line_bytes /\ verbatim (change_t broken) = txt "update `test`.`t` set `v`='a" ++ [10] ++ txt "b' where `id`='7';".
Proof.
  split; [|split; [right; right; exists c_v, (SStr broken); split; [now left|right; exists broken; split; [reflexivity|right; now left]]|split; [cbn; tauto|reflexivity]]].
  split; [apply pages3_stores|]. split; [apply dict3_consistent|]. split; [|split; [auto|]].
  - constructor; [|constructor]. destruct sample_file_ok as [H1 [H2 [H3 [H4 [H5 [H6 H7]]]]]]. unfold file_ok. cbn [file_t lf_header lf_cp1 lf_unused lf_cp2 lf_blocks].
    do 6 (split; [assumption|]). constructor; [|constructor; [apply block_check; reflexivity|constructor]]. apply block_check; reflexivity.
  - exists (log_t broken), []. split; [reflexivity|]. split; [reflexivity|]. split; [reflexivity|].
    unfold log_t. apply ls_checkpoint; [lia|].
    apply ls_update; [unfold word; lia|unfold word; lia| |right; vm_compute; discriminate|repeat constructor; discriminate|apply change_is; reflexivity|apply change_shown|reflexivity| |].
    + unfold undo_ok, update_t; cbn [un_type un_cmpl un_no un_table un_info un_trx un_roll un_keys un_changes].
      split; [cbn; unfold UNDO_INSERT, UNDO_UPDATE; tauto|]; do 6 (split; [lia|]); split; [constructor; [reflexivity|constructor]|].
      split; [reflexivity|]; split; [constructor; [unfold field_ok; cbn; unfold zlen; cbn; lia|constructor]|]; reflexivity.
    + split; [now left|now right].
    + apply ls_record; [unfold word; lia|unfold word; lia| |exact I|vm_compute; discriminate|apply ls_end, ls_nil].
      cbn. unfold short, desc_ok, insertion_ok. cbn. unfold zlen. cbn. lia.
Qed.
Example C122_case rt : one_line (txt "test") /\ one_line (txt "t") /\ ~ one_line broken
  /\ replace_statement rt (txt "t") (txt "test") [set_value (descriptor c_v) (VStr broken) false] = txt "replace into `test`.`t` values ('a\nb');".
Proof.
  split; [apply calm_one; reflexivity|]. split; [apply calm_one; reflexivity|]. split; [intro H; apply (H 10); [cbn; tauto|right; now left]|]. vm_compute. reflexivity.
Qed.

(** * Pages *)
Lemma split_rows {A B} (f : A -> B) : forall contents rows, List.concat contents = map f rows -> exists rss, map (map f) rss = contents /\ List.concat rss = rows.
Proof.
  induction contents as [|c cs IH]; intros rows E; [destruct rows; [now exists []|discriminate E]|]. cbn [List.concat] in E. symmetry in E. apply map_eq_app in E as [r1 [r2 [-> [<- E]]]].
  destruct (IH r2 (eq_sym E)) as [rss [<- <-]]. now exists (r1 :: rss).
Qed.
Lemma as_function {A B} (num : A -> Z) (R : A -> list B -> Prop) ps rs : Forall2 R ps rs -> NoDup (map num ps) -> exists f, map f ps = rs /\ Forall (fun p => R p (f p)) ps.
Proof.
  induction 1 as [|p r ps rs H HF IH]; intro Hn; [exists (fun _ => []); split; [reflexivity|constructor]|]. cbn [map] in Hn. inversion Hn as [|x y N1 N2]; subst.
  destruct (IH N2) as [f [E1 E2]]. exists (fun q => if num q =? num p then r else f q). rewrite Forall_forall in E2.
  assert (D : forall q, In q ps -> (num q =? num p) = false) by (intros q Hq; apply Z.eqb_neq; intro X; apply N1; rewrite <- X; now apply in_map).
  split; [cbn [map]; rewrite Z.eqb_refl; f_equal; rewrite <- E1; apply map_ext_in; intros q Hq; now rewrite (D q Hq)|].
  constructor; [now rewrite Z.eqb_refl|]. apply Forall_forall. intros q Hq. rewrite (D q Hq). now apply E2.
Qed.
Lemma own_numbers deleted (l : list (list Z)) : NoDup (map page_number l) -> filter (eligible deleted) (firsts l) = filter (eligible deleted) l.
Proof.
  intro Hl. apply firsts_own. intros l1 p l2 -> _. apply Forall_forall. intros q Hq E. rewrite map_app in Hl. cbn [map] in Hl. apply NoDup_remove_2 in Hl. apply Hl. apply in_or_app. left.
  rewrite <- E. now apply in_map.
Qed.
Lemma numbers_filter (f : list Z -> bool) l : NoDup (map page_number l) -> NoDup (map page_number (filter f l)).
Proof.
  induction l as [|p l IH]; intro H; [exact H|]. cbn [map filter] in *. inversion H as [|x y H1 H2]; subst. destruct (f p); [|now apply IH]. cbn [map]. constructor; [|now apply IH].
  intro X. apply H1. apply in_map_iff in X as [q [E Hq]]. apply filter_In in Hq as [Hq _]. rewrite <- E. now apply in_map.
Qed.
(** C123: every page has its own rows; any selection of the pages of a file, in
    any order, gives the rows of the pages selected, in that order. *)
Theorem C123_selection_partial : forall rt op d sys_pages t db tb ss pages rows,
  tool_input rt (is_deleted op) d sys_pages t db tb ss pages rows -> front_key d (td_id t) -> NoDup (map page_number pages) ->
  exists content : list Z -> list row, flat_map content pages = rows
    /\ forall fuel files sys tfile selection, incl selection pages -> NoDup (map page_number selection) ->
       files sys = Some (map IoBytes sys_pages) -> files tfile = Some (map IoBytes selection) -> (Z.to_nat 16384 < fuel)%nat ->
       exists lines, FromDataFile fuel rt files op sys tfile db tb = (lines, Ok tt)
         /\ Forall2 (fun r line => read_replace line = Some (db, tb, values (columns_of d (td_id t)) r)) (flat_map content selection) lines.
Proof.
  intros rt op d sys_pages t db tb ss pages rows HI Hk Hn. set (del := is_deleted op) in *.
  assert (HI' := HI). destruct HI' as [H1 [H2 [H3 [H4 [H5 [H6 [H7 [H8 [H9 [H10 [H11 [Hi [contents [HC Ec]]]]]]]]]]]]]].
  rewrite own_numbers in HC by exact Hn. destruct (split_rows _ _ _ Ec) as [rss [Em Er]]. rewrite <- Em in HC.
  assert (HC' : Forall2 (fun p rs => page_holds rt del ss p (map (values (users ss)) rs)) (filter (eligible del) pages) rss).
  { clear - HC. remember (map (map (values (users ss))) rss) as cs eqn:E. revert rss E. induction HC as [|p c ps cs H _ IH]; intros [|r rss] E; try discriminate E; constructor.
    - injection E as -> _. exact H.
    - apply IH. now injection E. }
  destruct (as_function page_number _ _ _ HC' (numbers_filter _ _ Hn)) as [f [Ef Hf]].
  set (content := fun p => if eligible del p then f p else []).
  assert (K : forall l, flat_map content l = List.concat (map f (filter (eligible del) l))).
  { induction l as [|p l IH]; [reflexivity|]. cbn [flat_map filter]. rewrite IH. unfold content at 1. destruct (eligible del p); reflexivity. }
  exists content. split; [rewrite K, Ef; exact Er|].
  intros fuel files sys tfile qs Hq Hnq F1 F2 Hfuel.
  apply (C82_statements_partial fuel rt files op sys tfile d sys_pages t db tb ss qs (flat_map content qs)); [|exact Hk|exact F1|exact F2|exact Hfuel].
  do 11 (split; [assumption|]). split; [apply Forall_forall; intros p Hp; rewrite Forall_forall in Hi; now apply Hi, Hq|].
  exists (map (fun p => map (values (users ss)) (f p)) (filter (eligible del) qs)). fold del. rewrite own_numbers by exact Hnq. split.
  - rewrite Forall_forall in Hf. assert (G : Forall (fun p => In p (filter (eligible del) pages)) (filter (eligible del) qs)).
    { apply Forall_forall. intros p Hp. apply filter_In in Hp as [P1 P2]. apply filter_In. split; [now apply Hq|exact P2]. }
    induction G as [|p ps G _ IH]; constructor; [now apply Hf|exact IH].
  - rewrite K, concat_map, map_map. reflexivity.
Qed.
Print Assumptions C123_selection_partial.
(** Two pages with a row each, and the second alone. *)
Definition leaf_1 : list Z := built true 3 17855 40 (map (crec (map slot_layout (key_slots [c_id] [c_v]))) [stored_t1]).
Definition leaf_2 : list Z := built true 4 17855 40 (map (crec (map slot_layout (key_slots [c_id] [c_v]))) [stored_t2]).
Example C123_case rt : tool_input rt (is_deleted (txt "PrintData")) dict3 pages3 (mkTableDef (txt "test/t") 21 5) (txt "test") (txt "t") (key_slots [c_id] [c_v]) [leaf_1; leaf_2] [row_t1; row_t2]
  /\ front_key dict3 21 /\ NoDup (map page_number [leaf_1; leaf_2]) /\ incl [leaf_2] [leaf_1; leaf_2] /\ incl [leaf_2; leaf_1] [leaf_1; leaf_2].
Proof.
  assert (Hf : forall s, s = stored_t1 \/ s = stored_t2 -> Forall fine (map (crec (map slot_layout (key_slots [c_id] [c_v]))) [s])
    /\ zlen (blocks true 125 (map (crec (map slot_layout (key_slots [c_id] [c_v]))) [s])) <= 16000).
  { intros s [->| ->]; (split; [apply fine_check; vm_compute; reflexivity|vm_compute; discriminate]). }
  destruct (Hf stored_t1 (or_introl eq_refl)) as [F1 L1]. destruct (Hf stored_t2 (or_intror eq_refl)) as [F2 L2]. clear Hf.
  destruct (built_page true 3 17855 40 _ F1 L1) as [[I1 _] [N1 [K1 [_ [A1 [B1 _]]]]]]; try lia. destruct (built_page true 4 17855 40 _ F2 L2) as [[I2 _] [N2 [K2 [_ [A2 [B2 _]]]]]]; try lia.
  fold leaf_1 in I1, N1, K1, A1, B1. fold leaf_2 in I2, N2, K2, A2, B2.
  assert (HN : NoDup (map page_number [leaf_1; leaf_2])).
  { cbn [map]. rewrite N1, N2. constructor; [intros [X|[]]; discriminate X|]. constructor; [intros []|constructor]. }
  assert (E1 : eligible false leaf_1 = true) by (unfold eligible; rewrite K1, A1, B1; reflexivity). assert (E2 : eligible false leaf_2 = true) by (unfold eligible; rewrite K2, A2, B2; reflexivity).
  destruct (C82_case rt) as [[H1 [H2 [H3 [H4 [H5 [H6 [H7 [H8 [H9 [H10 [H11 _]]]]]]]]]]] HK]. change (is_deleted (txt "PrintData")) with false in *.
  split; [|split; [exact HK|split; [exact HN|split; intros x [<-|X]; [right; now left|destruct X|right; now left|destruct X as [<-|[]]; now left]]]].
  do 11 (split; [assumption|]). split; [constructor; [exact I1|constructor; [exact I2|constructor]]|].
  rewrite own_numbers by exact HN. cbn [filter]. rewrite E1, E2. exists [[values (users (key_slots [c_id] [c_v])) row_t1]; [values (users (key_slots [c_id] [c_v])) row_t2]]. split; [|reflexivity].
  constructor; [|constructor; [|constructor]].
  - apply page_built; try assumption; try lia. constructor; [|constructor]. split; [repeat (constructor; [vm_compute; reflexivity|]); constructor|].
    change (row_encodes rt [User c_id; Own 6; Own 7; User c_v] [SStr (txt "1"); SStr (txt "abc")] stored_t1). unfold stored_t1. constructor; [|plain_text|].
    + apply enc_int; try reflexivity; try (cbn; lia). number.
    + constructor; [reflexivity|]. constructor; [reflexivity|]. constructor; [|plain_text|constructor]. apply enc_varchar; reflexivity || (intros _; reflexivity).
  - apply page_built; try assumption; try lia. constructor; [|constructor]. split; [repeat (constructor; [vm_compute; reflexivity|]); constructor|].
    change (row_encodes rt [User c_id; Own 6; Own 7; User c_v] [SStr (txt "-2"); SNull] stored_t2). unfold stored_t2. constructor; [|plain_text|].
    + apply enc_int; try reflexivity; try (cbn; lia). number.
    + constructor; [reflexivity|]. constructor; [reflexivity|]. constructor; [|exact I|constructor]. apply enc_null; [reflexivity|discriminate].
Qed.
