(** C87: the redo command as a whole. *)
From Coq Require Import String ZifyBool.
From Verif Require Import GoBase Utils Ibdata Redo Cmd SpecInno SpecText SpecSql SpecRecord SpecRow SpecPage SpecDict SpecTool SpecRedo SpecUndo SpecToolRedo SpecCmd
  PBase PWire PValue PText PRec PPage PSql PFile PDict PUndo PLog PTool PToolRedo PropCmd PropRedo PropTool.
Local Open Scope string_scope.
Local Open Scope list_scope.
Local Open Scope Z_scope.
Ltac Zify.zify_post_hook ::= Z.div_mod_to_equations.

(** The undo records of which the whole statement is right. *)
Definition good_update (d : dictionary) (u : undo) (w : update) : Prop := shown_update d u w /\ (un_type u = UNDO_UPDATE -> plain_update w).

(** Full statement: for the dictionary and log files of [redo_input], without
    its restriction [ok], exactly one line is printed for each update of a
    requested table, in log order, and it restores the old values.  Proved:
    (1) the lines are those updates' names and values, in log order, for
    values that are shown as they are ([shown_update]); (2) each restores the
    old value if one column was changed and nothing has a quote or a lone backslash
    ([plain_update]).  Missing (false): the other updates. *)
Theorem C87_lines_partial : forall fuel rt files sys opt parts want_db want_tb spare d sys_pages fs ws,
  redo_input rt (shown_update d) d sys_pages want_db want_tb fs ws ->
  files sys = Some (map IoBytes sys_pages) -> parts_of opt parts -> map files parts = map (fun f => Some (log_events f)) fs ->
  (Z.to_nat 16384 < fuel)%nat ->
  FromRedoFile fuel rt files sys opt want_db want_tb spare = (map verbatim ws, Ok tt).
Proof.
  intros fuel rt files sys opt parts want_db want_tb spare d sys_pages fs ws [Hs [Hc [Hf [HF [es [tail [Hp [Hl [Ht HS]]]]]]]]] F1 Hparts F2 Hfuel.
  rewrite (C73_redo fuel rt files sys opt parts want_db want_tb spare Hparts), F1.
  destruct (dict_read fuel rt sys_pages d Hs Hc Hfuel) as [tm [-> HR]]. unfold wbind at 1. cbn [app].
  assert (E : ParseRedoLogs rt tm want_db want_tb (map files parts) spare = (map verbatim ws, Ok None)).
  { etransitivity; [exact (f_equal (fun x => ParseRedoLogs rt tm want_db want_tb x spare) F2)|].
    apply (C68_log_partial rt tm want_db want_tb spare fs es tail (map verbatim ws) Hf Hp Hl Ht).
    - exact (filters_agree d tm want_db want_tb Hc HR HF).
    - apply (log_shown rt sys_pages d tm want_db want_tb (shown_update d)); try assumption. auto. }
  match goal with |- context [ParseRedoLogs ?a ?b ?c ?e ?x ?s] => replace (ParseRedoLogs a b c e x s) with (map verbatim ws, @Ok (option bytes) None) by (symmetry; exact E) end.
  unfold wbind, wret. cbn [app]. now rewrite app_nil_r.
Qed.
Print Assumptions C87_lines_partial.
Theorem C87_redo_partial : forall fuel rt files sys opt parts want_db want_tb spare d sys_pages fs ws,
  redo_input rt (good_update d) d sys_pages want_db want_tb fs ws ->
  files sys = Some (map IoBytes sys_pages) -> parts_of opt parts -> map files parts = map (fun f => Some (log_events f)) fs ->
  (Z.to_nat 16384 < fuel)%nat ->
  exists lines, FromRedoFile fuel rt files sys opt want_db want_tb spare = (lines, Ok tt) /\ Forall2 restores ws lines.
Proof.
  intros fuel rt files sys opt parts want_db want_tb spare d sys_pages fs ws [Hs [Hc [Hf [HF [es [tail [Hp [Hl [Ht HS]]]]]]]]] F1 Hparts F2 Hfuel.
  exists (map verbatim ws). split.
  - apply (C87_lines_partial fuel rt files sys opt parts want_db want_tb spare d sys_pages fs ws); try assumption.
    do 4 (split; [assumption|]). exists es, tail. do 3 (split; [assumption|]).
    clear - HS. induction HS; try (econstructor; eassumption).
    + eapply ls_other; try eassumption. match goal with H : good_update _ _ _ |- _ => apply H end.
    + eapply ls_update; try eassumption. match goal with H : good_update _ _ _ |- _ => apply H end.
  - clear - HS. induction HS as [| | | | | |single space page u w es l W1 W2 Hu H5 HM Hw [Hp1 Hp2] HT Hq _ IH]; try assumption; [constructor|].
    cbn [map]. constructor; [|exact IH]. apply verbatim_restores; [apply Hp1| |now apply Hp2].
    destruct Hw as [t [rest [_ [_ [_ [_ [HK _]]]]]]]. destruct Hp1 as [Hp1 _]. clear - HK Hp1.
    induction HK as [|[c v] k cvs ks He _ IH]; constructor; inversion Hp1 as [|? ? [T1 _] T2]; subst; [|now apply IH]. cbn [fst snd] in *.
    destruct v as [|s|b|n]; try contradiction; [inversion He|]. now exists s.
Qed.
Print Assumptions C87_redo_partial.
(** Exactly which of these updates are restored: those of one column, with a
    key, names without backquotes, and values that are what they say between
    quotes.  The line of every other update is wrong. *)
Theorem C87_exact_refuted : forall fuel rt files sys opt parts want_db want_tb spare d sys_pages fs ws,
  redo_input rt (shown_update d) d sys_pages want_db want_tb fs ws ->
  files sys = Some (map IoBytes sys_pages) -> parts_of opt parts -> map files parts = map (fun f => Some (log_events f)) fs ->
  (Z.to_nat 16384 < fuel)%nat ->
  exists lines, FromRedoFile fuel rt files sys opt want_db want_tb spare = (lines, Ok tt)
    /\ Forall2 (fun w line => restores w line <-> plain_update w) ws lines.
Proof.
  intros fuel rt files sys opt parts want_db want_tb spare d sys_pages fs ws HR F1 Hparts F2 Hfuel.
  exists (map verbatim ws). split; [now apply (C87_lines_partial fuel rt files sys opt parts want_db want_tb spare d sys_pages fs ws)|].
  destruct HR as [_ [_ [_ [_ [es [tail [_ [_ [_ HS]]]]]]]]]. clear - HS.
  induction HS as [| | | | | |single space page u w es l W1 W2 Hu H5 HM Hw Hp1 HT Hq _ IH]; try assumption; [constructor|].
  cbn [map]. constructor; [|exact IH]. apply verbatim_exact; [apply Hp1|].
  destruct Hw as [t [rest [_ [_ [_ [_ [HK _]]]]]]]. destruct Hp1 as [Hp1 _]. clear - HK Hp1.
  induction HK as [|[c v] k cvs ks He _ IH]; constructor; inversion Hp1 as [|? ? [T1 _] T2]; subst; [|now apply IH]. cbn [fst snd] in *.
  destruct v as [|s|b|n]; try contradiction; [inversion He|]. now exists s.
Qed.
Print Assumptions C87_exact_refuted.

(** A log with an update of v in row 7 of test.t. *)
Definition update_t (old : list Z) : undo := mkUndo UNDO_UPDATE 0 false 3 21 0 77 99 [store_int 4 7] [(3, Some old)] [0; 5].
Definition log_t (old : list Z) : list SpecRedo.entry :=
  [ECheckpoint 123456; ERecord false 0 5 (BUndo (enc_undo (update_t old))); ERecord true 3 300 (BInsert (Some (mkDesc 1 [4; 4])) 100 (mkIns None [1; 2; 3])); EEnd].
Definition change_t (old : list Z) : update := mkUpdate (txt "test") (txt "t") [(c_v, SStr old)] [(c_id, SStr (txt "7"))].
Definition file_t (old : list Z) : log_file := let p := flat_map enc_entry (log_t old) in
  mkLogFile (lf_header sample_file) (lf_cp1 sample_file) (lf_unused sample_file) (lf_cp2 sample_file) [block_with (12 + len p) p; block_with 0 []].
Lemma change_is rt old : zlen old < 256 -> undo_of rt dict3 (update_t old) (change_t old).
Proof.
  intro Hl. exists (mkTableDef (txt "test/t") 21 5), [c_v]. split; [cbn; tauto|]. split; [reflexivity|]. split; [left; split; [reflexivity|]; split; cbn; lia|].
  split; [apply C81_case|]. split; [|split; [|intros _]].
  - constructor; [|constructor]. cbn [fst snd change_t up_key]. apply (enc_int rt c_id 4 7); try reflexivity; [cbn; tauto|cbn; tauto|lia|exact (fmt_d_spec 7)].
  - change (columns_of dict3 (td_id (mkTableDef (txt "test/t") 21 5))) with [c_id; c_v]. constructor; [|constructor; [|constructor]].
    + split; [cbn; intros [H|[H|[H|[]]]]; discriminate H|]. left. cbn. split; [reflexivity|]. split; tauto.
    + split; [cbn; intros [H|[H|[H|[]]]]; discriminate H|]. do 4 right. left. split; reflexivity.
  - constructor; [|constructor]. split; [reflexivity|]. cbn [fst snd]. apply enc_varchar; [reflexivity|reflexivity|lia|lia].
Qed.
Lemma update_t_ok : undo_ok (update_t (txt "abc")) /\ undo_ok (update_t (txt "it's")).
Proof.
  split; unfold undo_ok, update_t; cbn [un_type un_cmpl un_no un_table un_info un_trx un_roll un_keys un_changes];
    (split; [cbn; unfold UNDO_INSERT, UNDO_UPDATE; tauto|]; do 6 (split; [lia|]); split; [constructor; [reflexivity|constructor]|];
     split; [reflexivity|]; split; [constructor; [unfold field_ok; cbn; unfold zlen; cbn; lia|constructor]|]; reflexivity).
Qed.
Lemma tight_plain a t p z s : s = a :: t -> s = p ++ [z] -> 33 <= a < 127 -> 33 <= z < 127 -> tight s.
Proof.
  intros E1 E2 Ha Hz.
  assert (N : forall c, white c -> ~ 33 <= hd 0 (utf8 c) < 127 /\ ~ 33 <= last (utf8 c) 0 < 127 /\ utf8 c <> []).
  { unfold white. cbn [In]. intros c H. repeat (destruct H as [<-|H]; [repeat split; [cbn; lia|cbn; lia|discriminate]|]). contradiction. }
  split; intros [c [x [Hw E]]]; destruct (N c Hw) as [N1 [N2 N3]].
  - apply N1. rewrite E1 in E. destruct (utf8 c) as [|u l]; [contradiction|]. cbn in E. injection E as -> _. exact Ha.
  - apply N2. rewrite E2 in E. rewrite (app_removelast_last 0 N3), app_assoc in E. apply (f_equal (fun l => last l 0)) in E. rewrite !last_last in E. rewrite <- E. exact Hz.
Qed.
Lemma primary_tight : tight (txt "PRIMARY").
Proof. apply (tight_plain 80 (txt "RIMARY") (txt "PRIMAR") 89); [reflexivity|reflexivity|lia|lia]. Qed.
Lemma change_shown old : shown_update dict3 (update_t old) (change_t old).
Proof.
  split; [constructor; [split; [exact I|discriminate]|constructor]|]. split; [constructor; [exact I|constructor]|]. split; [exists [c_v]; reflexivity|].
  split; [constructor; [split; [exact primary_tight|cbn; repeat (constructor; [lia|]); constructor]|constructor]|].
  intros _. constructor; [cbn; lia|constructor].
Qed.
Lemma redo_t rt (ok : undo -> update -> Prop) old : (old = txt "abc" \/ old = txt "it's") -> ok (update_t old) (change_t old) ->
  redo_input rt ok dict3 pages3 [] (txt "t") [file_t old] [change_t old].
Proof.
  intros Ho Hok. split; [apply pages3_stores|]. split; [apply dict3_consistent|]. split; [|split; [auto|]].
  - constructor; [|constructor]. destruct sample_file_ok as [H1 [H2 [H3 [H4 [H5 [H6 H7]]]]]]. unfold file_ok. cbn [file_t lf_header lf_cp1 lf_unused lf_cp2 lf_blocks].
    do 6 (split; [assumption|]). constructor; [|constructor; [apply block_check; reflexivity|constructor]]. destruct Ho as [->| ->]; apply block_check; reflexivity.
  - exists (log_t old), []. split; [destruct Ho as [->| ->]; reflexivity|]. split; [destruct Ho as [->| ->]; reflexivity|]. split; [reflexivity|].
    unfold log_t. apply ls_checkpoint; [lia|].
    apply ls_update; [unfold word; lia|unfold word; lia|destruct Ho as [->| ->]; apply update_t_ok|destruct Ho as [->| ->]; right; vm_compute; discriminate|repeat constructor; discriminate|apply change_is; destruct Ho as [->| ->]; reflexivity|exact Hok|reflexivity| |].
    + split; [now left|now right].
    + apply ls_record; [unfold word; lia|unfold word; lia| |exact I|vm_compute; discriminate|apply ls_end, ls_nil].
      cbn. unfold short, desc_ok, insertion_ok. cbn. unfold zlen. cbn. lia.
Qed.
Example C87_case rt : redo_input rt (good_update dict3) dict3 pages3 [] (txt "t") [file_t (txt "abc")] [change_t (txt "abc")]
  /\ verbatim (change_t (txt "abc")) = txt "update `test`.`t` set `v`='abc' where `id`='7';" /\ restores (change_t (txt "abc")) (verbatim (change_t (txt "abc"))).
Proof.
  split; [|split; reflexivity]. apply redo_t; [now left|]. split; [apply change_shown|]. intros _. split; [cbn; lia|]. split; [cbn; lia|]. split; [discriminate|]. split; [reflexivity|].
  cbn. constructor; [split; cbn; lia|]. constructor; [split; cbn; lia|constructor].
Qed.
Example C87_exact_case rt : redo_input rt (shown_update dict3) dict3 pages3 [] (txt "t") [file_t (txt "it's")] [change_t (txt "it's")] /\ ~ plain_update (change_t (txt "it's")).
Proof.
  split; [apply redo_t; [now right|apply change_shown]|]. intros [_ [_ [_ [_ H]]]]. apply Forall_inv_tail, Forall_inv in H. destruct H as [_ H]. cbn in H. discriminate H.
Qed.
(** False: the old value it's is printed with its quote. *)
Theorem C87_redo_refuted : forall rt, exists d sys_pages want_tb fs w,
  redo_input rt (fun _ _ => True) d sys_pages [] want_tb fs [w]
  /\ forall fuel files sys opt parts spare,
     files sys = Some (map IoBytes sys_pages) -> parts_of opt parts -> map files parts = map (fun f => Some (log_events f)) fs -> (Z.to_nat 16384 < fuel)%nat ->
     FromRedoFile fuel rt files sys opt [] want_tb spare = ([txt "update `test`.`t` set `v`='it's' where `id`='7';"], Ok tt)
     /\ ~ restores w (txt "update `test`.`t` set `v`='it's' where `id`='7';").
Proof.
  intro rt. exists dict3, pages3, (txt "t"), [file_t (txt "it's")], (change_t (txt "it's")). split; [apply redo_t; [now right|exact I]|].
  intros fuel files sys opt parts spare F1 Hp F2 Hfuel. split; [|vm_compute; discriminate].
  apply (C87_lines_partial fuel rt files sys opt parts [] (txt "t") spare dict3 pages3 [file_t (txt "it's")] [change_t (txt "it's")]); try assumption.
  apply redo_t; [now right|apply change_shown].
Qed.
Print Assumptions C87_redo_refuted.

(** * C88 *)
Lemma keyless_past cols p c : nth_error (no_key_slots cols) p = Some (User c) -> nth_error (map descriptor cols) (p - 3) = Some (descriptor c) /\ (3 <= p)%nat.
Proof.
  unfold no_key_slots. destruct p as [|[|[|p]]]; cbn [app nth_error]; try discriminate. intro H. rewrite nth_error_map in H. destruct (nth_error cols p) as [c'|] eqn:E; [|discriminate H].
  injection H as ->. split; [|lia]. cbn [Nat.sub]. rewrite Nat.sub_0_r, nth_error_map, E. reflexivity.
Qed.
(** False for every table without a primary key: whatever row id the undo
    record has, the row is looked for by the text <nil>. *)
Theorem C88_keyless_refuted : forall fuel rt sys_pages d t db tb, stores_dictionary sys_pages d -> consistent d -> (Z.to_nat 16384 < fuel)%nat ->
  In t (dd_tables d) -> named_as (td_name t) db tb -> has_no_key d (td_id t) ->
  Forall (fun i => tight (id_name i) /\ Forall (fun b => 0 <= b < 256) (id_name i)) (indexes_of d (td_id t)) ->
  Forall (fun c => SpecTool.ordinary c /\ readable_column c) (columns_of d (td_id t)) ->
  exists tm, ParseDictPage fuel rt (Some (map IoBytes sys_pages)) = ([], Ok (tm, None)) /\
  forall u row_id old single space page pre post spare,
    undo_ok u -> un_type u = UNDO_UPDATE -> un_table u = td_id t -> un_keys u = [row_id] ->
    Forall2 (old_of rt (no_key_slots (columns_of d (td_id t)))) old (un_changes u) -> Forall (fun cv => textual (snd cv)) old ->
    word space -> word page -> undo_room u (zlen post) -> Forall (fun cv => mysql_type (fst cv) = 12 -> 3 <= zlen post) old ->
    let e := ERecord single space page (BUndo (enc_undo u)) in let data := pre ++ enc_entry e ++ post in
    all_bytes data -> zlen data < 2 ^ 32 - 1 ->
    redo_step rt tm [] [] data spare (zlen pre)
    = ([undo_statement db tb (map (fun cv => (cd_name (fst cv), text_in (snd cv))) old) [(txt "DB_ROW_ID", txt "<nil>")]], zlen pre + zlen (enc_entry e), Ok None).
Proof.
  change (@zlen) with (@len).
  intros fuel rt pages d t db tb Hs Hc Hfuel Ht Hnm Hk Hti Hcols. destruct (dict_read fuel rt pages d Hs Hc Hfuel) as [tm [E HR]]. exists tm. split; [exact E|].
  intros u r old single space page pre post spare Hu HT Hid Hr HO Htx W1 W2 H5 HM e data Hb Hlen.
  destruct (represents_in d _ tm t Hc HR Ht) as [x [Hg HP]]. pose proof (placed_generated d t x Hc HP Hk) as Ec.
  pose proof (placed_agrees d tm Hc HR) as [_ [_ HA]]. destruct (HA t Ht) as [x' [Hg' [Hn' [_ [_ Hx]]]]]. rewrite Hg in Hg'. injection Hg' as <-.
  destruct (named_unique _ _ _ _ _ Hnm Hn') as [-> ->].
  assert (KN : key_names x [txt "DB_ROW_ID"]).
  { destruct Hk as [i [Hi Hgen]]. destruct (in_split _ _ Hi) as [l1 [l2 El]]. rewrite Forall_forall in Hti.
    exists (map (index_entry d) l1), (id_id i), (snd (index_entry d i)), (map (index_entry d) l2). split; [rewrite Hx, El, map_app; reflexivity|]. split.
    - rewrite <- map_app. apply Forall_map, Forall_forall. intros j Hj HC. unfold clustered_name in HC. cbn [index_entry snd ix_name] in HC.
      assert (Hj' : In j (indexes_of d (td_id t))) by (rewrite El; apply in_app_or in Hj as [Hj|Hj]; apply in_or_app; [now left|right; now right]).
      destruct (Hti j Hj') as [T1 T2]. rewrite (tight_trim _ T1 T2) in HC.
      pose proof Hc as [_ [_ [_ [_ [H1 _]]]]]. specialize (H1 (td_id t)). rewrite El in H1.
      apply in_app_or in Hj as [Hj|Hj]; apply in_split in Hj as [a [b ->]].
      + apply (H1 a j b i l2); [rewrite <- app_assoc; reflexivity|exact HC|now right].
      + apply (H1 l1 i a j b); [reflexivity|now right|exact HC].
    - right. cbn [index_entry snd ix_name]. destruct (Hti i Hi) as [T1 T2]. rewrite (tight_trim _ T1 T2). split; [exact Hgen|reflexivity]. }
  assert (KS : key_shown rt x [txt "DB_ROW_ID"] (un_keys u) [(txt "DB_ROW_ID", txt "<nil>")] []).
  { rewrite Hr. apply (key_quiet rt x _ _ _ _ (internal_column (td_id t) "DB_ROW_ID" 0 6) VNil false); [rewrite Ec; now constructor|cbn; lia|reflexivity|right; split; reflexivity|constructor]. }
  pose proof (column_lengths pages d Hs) as Hlens. rewrite Forall_forall in Hlens, Hcols.
  assert (Hcol : forall c, In c (columns_of d (td_id t)) -> readable_column c /\ 0 <= cd_len c < 2 ^ 32).
  { intros c Hi. split; [apply (Hcols c Hi)|]. apply Hlens. unfold columns_of in Hi. apply filter_In in Hi. tauto. }
  destruct (olds_shown rt x (no_key_slots (columns_of d (td_id t))) (len post) old (un_changes u) HO HM Htx) as [shown [S1 S2]].
  - intros cv _ Hi. apply Hcol. unfold users, no_key_slots in Hi. apply in_flat_map in Hi as [s [Hi1 Hi2]]. destruct s as [n|c]; [contradiction|]. destruct Hi2 as [<-|[]].
    destruct Hi1 as [X|[X|[X|X]]]; try discriminate X. apply in_map_iff in X as [c' [X1 X2]]. injection X1 as ->. exact X2.
  - apply Forall_forall. intros f _ c Hn. rewrite Ec. apply keyless_past in Hn as [H1 H2]. unfold without_key. rewrite nth_error_app2 by (cbn [List.length]; lia). exact H1.
  - assert (Eo : map (fun cv : column_def * sqlval => (cd_name (fst cv), text_in (snd cv))) old = shown).
    { clear - S2 Htx. revert shown S2. induction Htx as [|[c v] l T1 _ IH]; intros [|[n o] shown] E; try discriminate; [reflexivity|]. cbn [map fst snd] in *. injection E as E1 E2 E3.
      rewrite (IH shown E3), E1, <- E2. now destruct o. }
    rewrite Eo. rewrite <- Hid in Hg.
    destruct (C33_filter_partial rt tm [] [] spare pre single space page u post x [txt "DB_ROW_ID"] [(txt "DB_ROW_ID", txt "<nil>")] shown [] [] Hb Hlen W1 W2 Hu H5 HT Hg KN KS S1 (or_introl eq_refl)) as [[_ X]|[X _]].
    + exact X.
    + exfalso. apply X. split; now left.
Qed.
Print Assumptions C88_keyless_refuted.
(** An update of n.x in row 7 and one in row 8. *)
Definition update_n (row_id : Z) : undo := mkUndo UNDO_UPDATE 0 false 3 23 0 77 99 [be 6 row_id] [(3, Some (store_int 4 5))] [0; 5].
Example C88_case rt : In (mkTableDef (txt "test/n") 23 7) (dd_tables dict3) /\ has_no_key dict3 23 /\ stores_dictionary pages3 dict3 /\ consistent dict3
  /\ Forall (fun i => tight (id_name i) /\ Forall (fun b => 0 <= b < 256) (id_name i)) (indexes_of dict3 23)
  /\ Forall (fun c => SpecTool.ordinary c /\ readable_column c) (columns_of dict3 23)
  /\ undo_ok (update_n 7) /\ undo_ok (update_n 8) /\ enc_undo (update_n 7) <> enc_undo (update_n 8)
  /\ Forall2 (old_of rt (no_key_slots (columns_of dict3 23))) [(c_x, SStr (txt "5"))] (un_changes (update_n 7)).
Proof.
  assert (U : forall n, 0 <= n < 100 -> undo_ok (update_n n)).
  { intros n Hn. unfold undo_ok, update_n; cbn [un_type un_cmpl un_no un_table un_info un_trx un_roll un_keys un_changes].
    split; [cbn; unfold UNDO_INSERT, UNDO_UPDATE; tauto|]. do 6 (split; [lia|]). split; [constructor; [reflexivity|constructor]|].
    split; [reflexivity|]. split; [constructor; [unfold field_ok; cbn; unfold zlen; cbn; lia|constructor]|]. reflexivity. }
  split; [now left|]. split; [apply C81_case|]. split; [apply pages3_stores|]. split; [apply dict3_consistent|]. split; [|split; [|split; [apply U; lia|split; [apply U; lia|split; [vm_compute; discriminate|]]]]].
  - constructor; [|constructor]. split; [|cbn; repeat (constructor; [lia|]); constructor].
    apply (tight_plain 71 (txt "EN_CLUST_INDEX") (txt "GEN_CLUST_INDE") 88); [reflexivity|reflexivity|lia|lia].
  - constructor; [|constructor]. split; [cbn; intros [H|[H|[H|[]]]]; discriminate H|]. left. cbn. split; [reflexivity|]. split; tauto.
  - constructor; [|constructor]. split; [reflexivity|]. cbn [fst snd]. apply (enc_int rt c_x 4 5); try reflexivity; [cbn; tauto|cbn; tauto|lia|exact (fmt_d_spec 5)].
Qed.
