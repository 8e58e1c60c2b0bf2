(** C91: running the recovered statements. *)
From Coq Require Import String ZifyBool Permutation.
From Verif Require Import GoBase Utils Ibdata Redo Cmd SpecInno SpecText SpecSql SpecRecord SpecRow SpecPage SpecDict SpecTool SpecRedo SpecUndo SpecToolRedo SpecHistory SpecCmd
  PBase PSql PFile PLog PTool PToolRedo PHistory PropCmd PropRedo PropTool PropToolRedo.
Local Open Scope string_scope.
Local Open Scope list_scope.
Local Open Scope Z_scope.

Lemma good_single rt d sys_pages want_db want_tb fs ws : redo_input rt (good_update d) d sys_pages want_db want_tb fs ws -> Forall single ws.
Proof.
  intros [_ [_ [_ [_ [es [tail [_ [_ [_ HS]]]]]]]]]. induction HS as [| | | | | |sg space page u w es l W1 W2 Hu H5 HM Hw [Hp1 Hp2] HT Hq _ IH]; try assumption; constructor; [|exact IH].
  destruct (Hp2 HT) as [_ [_ [_ [H1 _]]]]. split; [exact H1|]. destruct Hw as [t [rest [_ [_ [_ [_ [HK _]]]]]]]. destruct Hp1 as [Hp1 _]. clear - HK Hp1.
  induction HK as [|[c v] k cvs ks He _ IH]; constructor; inversion Hp1 as [|? ? [T1 _] T2]; subst; [|now apply IH]. cbn [fst snd] in *.
  destruct v as [|s|b|n]; try contradiction; [inversion He|]. now exists s.
Qed.

(** Full statement: after any history of the requested tables, running the
    printed statements, in the order in which they are printed, gives the rows
    that were there all the time the values they had before.  Proved for the
    updates of C87: (1) if no column of a row was changed twice; (2) always,
    if the statements are run from the last to the first.  Missing (false):
    the printed order, if a column was changed twice. *)
Theorem C91_order_partial : forall fuel rt files sys opt parts want_db want_tb spare d sys_pages fs key es s0 s1,
  redo_input rt (good_update d) d sys_pages want_db want_tb fs (flat_map logged es) ->
  files sys = Some (map IoBytes sys_pages) -> parts_of opt parts -> map files parts = map (fun f => Some (log_events f)) fs ->
  (Z.to_nat 16384 < fuel)%nat ->
  keyed key s0 -> history key [] s0 es s1 -> changed_once (flat_map logged es) ->
  exists lines s2, FromRedoFile fuel rt files sys opt want_db want_tb spare = (lines, Ok tt) /\ run_all lines s1 = Some s2 /\ restored key es s0 s2.
Proof.
  intros fuel rt files sys opt parts want_db want_tb spare d sys_pages fs key es s0 s1 HI F1 Hp F2 Hfuel Hk HH Ho.
  destruct (C87_redo_partial fuel rt files sys opt parts want_db want_tb spare d sys_pages fs _ HI F1 Hp F2 Hfuel) as [lines [E HR]].
  destruct (restores_all key es s0 s1 (flat_map logged es) lines HH Hk (Permutation_refl _) (good_single _ _ _ _ _ _ _ HI) HR) as [s2 [E2 HR2]].
  - intros. now apply once_reversed.
  - eauto.
Qed.
Print Assumptions C91_order_partial.
Theorem C91_backwards_partial : forall fuel rt files sys opt parts want_db want_tb spare d sys_pages fs key es s0 s1,
  redo_input rt (good_update d) d sys_pages want_db want_tb fs (flat_map logged es) ->
  files sys = Some (map IoBytes sys_pages) -> parts_of opt parts -> map files parts = map (fun f => Some (log_events f)) fs ->
  (Z.to_nat 16384 < fuel)%nat ->
  keyed key s0 -> history key [] s0 es s1 ->
  exists lines s2, FromRedoFile fuel rt files sys opt want_db want_tb spare = (lines, Ok tt) /\ run_all (rev lines) s1 = Some s2 /\ restored key es s0 s2.
Proof.
  intros fuel rt files sys opt parts want_db want_tb spare d sys_pages fs key es s0 s1 HI F1 Hp F2 Hfuel Hk HH.
  destruct (C87_redo_partial fuel rt files sys opt parts want_db want_tb spare d sys_pages fs _ HI F1 Hp F2 Hfuel) as [lines [E HR]].
  destruct (restores_all key es s0 s1 (rev (flat_map logged es)) (rev lines) HH Hk (Permutation_rev _)) as [s2 [E2 HR2]].
  - apply Forall_rev. exact (good_single _ _ _ _ _ _ _ HI).
  - clear - HR. induction HR as [|w l ws ls H _ IH]; cbn [rev]; [constructor|]. apply Forall2_app; [exact IH|]. constructor; [exact H|constructor].
  - intros. now rewrite rev_involutive.
  - eauto.
Qed.
Print Assumptions C91_backwards_partial.
(** False in the printed order, whenever the first and the last recorded
    change of a column of a row found different values: the row is left with
    the value the last one found. *)
Theorem C91_order_refuted : forall fuel rt files sys opt parts want_db want_tb spare d sys_pages fs key es s0 s1 a w b w' c n v v' r,
  redo_input rt (good_update d) d sys_pages want_db want_tb fs (flat_map logged es) ->
  files sys = Some (map IoBytes sys_pages) -> parts_of opt parts -> map files parts = map (fun f => Some (log_events f)) fs ->
  (Z.to_nat 16384 < fuel)%nat ->
  keyed key s0 -> history key [] s0 es s1 ->
  flat_map logged es = a ++ w :: b ++ w' :: c -> concerns w' (up_db w) (up_tb w) (map snd (up_key w)) ->
  map (fun cv => (cd_name (fst cv), snd cv)) (up_old w) = [(n, v)] -> map (fun cv => (cd_name (fst cv), snd cv)) (up_old w') = [(n, v')] -> v <> v' ->
  Forall (fun x => concerns x (up_db w) (up_tb w) (map snd (up_key w)) -> ~ In n (changed_columns x)) (a ++ c) ->
  In r (s0 (up_db w) (up_tb w)) -> key_values key (up_db w) (up_tb w) r = map snd (up_key w) -> stays key (up_db w) (up_tb w) r es ->
  exists lines s2, FromRedoFile fuel rt files sys opt want_db want_tb spare = (lines, Ok tt) /\ run_all lines s1 = Some s2
  /\ r n = v /\ (exists r', In r' (s2 (up_db w) (up_tb w)) /\ key_values key (up_db w) (up_tb w) r' = map snd (up_key w) /\ r' n = v')
  /\ ~ restored key es s0 s2.
Proof.
  intros fuel rt files sys opt parts want_db want_tb spare d sys_pages fs key es s0 s1 a w b w' c n v v' r HI F1 Hp F2 Hfuel Hk HH Ew Hc Ev Ev' Hne Hac Hr Hkr Hst.
  destruct (C87_redo_partial fuel rt files sys opt parts want_db want_tb spare d sys_pages fs _ HI F1 Hp F2 Hfuel) as [lines [E HR]].
  pose proof (history_keys _ _ _ _ _ HH) as HW.
  destruct (run_all_rows key _ lines HW (good_single _ _ _ _ _ _ _ HI) HR s1) as [s2 [E2 [P Q]]].
  destruct (history_row key [] s0 es s1 _ _ _ r HH Hk (is_row_here key s0 _ _ r Hk Hr)) as [r1 [R1 R2]].
  { exact Hst. }
  rewrite Hkr in R1, R2. destruct (Q _ _ _ _ R1) as [y [[[r' [Y1 Y2]] Y3] Z]]. specialize (R2 n (fun w X => match X : In w [] with end)).
  apply Forall_app in Hac as [Ha Hcc].
  assert (V : forall x u, concerns x (up_db w) (up_tb w) (map snd (up_key w)) -> map (fun cv => (cd_name (fst cv), snd cv)) (up_old x) = [(n, u)] ->
    old_value (up_db w) (up_tb w) (map snd (up_key w)) n x = Some u).
  { intros x u Hx Hu. unfold old_value. replace (concerned x (up_db w) (up_tb w) (map snd (up_key w))) with true by (symmetry; now apply concerned_iff).
    destruct (up_old x) as [|[cc vv] [|? ?]]; cbn [map fst snd] in Hu; try discriminate Hu. injection Hu as H1 H2. cbn [assoc fst snd]. replace (text_eqb (cd_name cc) n) with true by (symmetry; now apply text_eqb_iff). congruence. }
  assert (N : forall l, Forall (fun x => concerns x (up_db w) (up_tb w) (map snd (up_key w)) -> ~ In n (changed_columns x)) l -> first_old (up_db w) (up_tb w) (map snd (up_key w)) n l = None).
  { intros l Hl. apply first_none. revert Hl. apply Forall_impl. intros x Hx. now apply old_value_none. }
  assert (W : concerns w (up_db w) (up_tb w) (map snd (up_key w))) by (now repeat split).
  assert (E1 : r n = v). { rewrite Ew in R2. rewrite first_old_app, (N a Ha) in R2. cbn [first_old] in R2. now rewrite (V w v W Ev) in R2. }
  assert (E3 : y n = v').
  { rewrite (Z n), Ew. replace (a ++ w :: b ++ w' :: c) with ((a ++ w :: b) ++ w' :: c) by (now rewrite <- app_assoc). rewrite rev_app_distr. cbn [rev]. rewrite <- app_assoc, first_old_app.
    rewrite (N (rev c)) by (now apply Forall_rev). cbn [app first_old]. now rewrite (V w' v' Hc Ev'). }
  exists lines, s2. split; [exact E|]. split; [exact E2|]. split; [exact E1|]. split.
  - exists r'. split; [exact Y1|]. split; [exact Y2|]. now rewrite <- (Y3 r' Y1 Y2 n).
  - intros [X _]. destruct (X _ _ r Hr Hst) as [_ X2]. specialize (X2 r' Y1). rewrite Hkr in X2. specialize (X2 Y2 n). rewrite <- (Y3 r' Y1 Y2 n) in X2. congruence.
Qed.
Print Assumptions C91_order_refuted.

(** A log with two updates of v in row 7 of test.t. *)
Definition log_h : list SpecRedo.entry := log_t (txt "abc") ++ log_t (txt "abd").
Definition file_h : log_file := let p := flat_map enc_entry log_h in
  mkLogFile (lf_header sample_file) (lf_cp1 sample_file) (lf_unused sample_file) (lf_cp2 sample_file) [block_with (12 + len p) p; block_with 0 []].
Lemma redo_h rt : redo_input rt (good_update dict3) dict3 pages3 [] (txt "t") [file_h] [change_t (txt "abc"); change_t (txt "abd")].
Proof.
  assert (G : forall old, (old = txt "abc" \/ old = txt "abd") -> undo_ok (update_t old) /\ undo_of rt dict3 (update_t old) (change_t old) /\ good_update dict3 (update_t old) (change_t old)).
  { intros old Ho. split; [|split; [apply change_is; destruct Ho as [->| ->]; reflexivity|]].
    - destruct Ho as [->| ->]; unfold undo_ok, update_t; cbn [un_type un_cmpl un_no un_table un_info un_trx un_roll un_keys un_changes];
      (split; [cbn; unfold UNDO_INSERT, UNDO_UPDATE; tauto|]; do 6 (split; [lia|]); split; [constructor; [reflexivity|constructor]|];
       split; [reflexivity|]; split; [constructor; [unfold SpecRedo.field_ok; cbn; unfold zlen; cbn; lia|constructor]|]; reflexivity).
    - split; [apply change_shown|]. intros _. split; [cbn; lia|]. split; [cbn; lia|]. split; [discriminate|]. split; [reflexivity|].
      destruct Ho as [->| ->]; cbn; (constructor; [split; cbn; lia|]; constructor; [split; cbn; lia|constructor]). }
  assert (S : forall old es ws after, (old = txt "abc" \/ old = txt "abd") -> 0 <= after -> log_says rt dict3 [] (txt "t") (good_update dict3) after es ws ->
    log_says rt dict3 [] (txt "t") (good_update dict3) after (log_t old ++ es) (change_t old :: ws)).
  { intros old es ws after Ho Ha H. destruct (G old Ho) as [G1 [G2 G3]]. unfold log_t. cbn [app]. apply ls_checkpoint; [lia|].
    assert (L : forall x y : list Z, zlen (x ++ y) = zlen x + zlen y) by (intros; unfold zlen; rewrite app_length; lia).
    assert (L0 : forall x : list Z, 0 <= zlen x) by (intros; unfold zlen; lia).
    apply ls_update; try assumption; [unfold word; lia|unfold word; lia| |repeat constructor; discriminate|reflexivity|split; [now left|now right]|].
    - right. pose proof (PStep.high_range (un_roll (update_t old))). cbn [flat_map]. rewrite !L. pose proof (L0 (flat_map enc_entry es)).
      set (e := enc_entry _). assert (5 <= zlen e) by (vm_compute; discriminate). pose proof (L0 (enc_entry EEnd)).
      assert (0 <= zlen (enc_undo (update_t old)) - zlen (enc_undo_head (update_t old))) by (destruct Ho as [->| ->]; vm_compute; discriminate). lia.
    - apply ls_record; [unfold word; lia|unfold word; lia| |exact I| |apply ls_end, H].
      + cbn. unfold short, desc_ok, insertion_ok. cbn. unfold zlen. cbn. lia.
      + pose proof (L0 (flat_map enc_entry (EEnd :: es))). cbn [room]. lia. }
  split; [apply pages3_stores|]. split; [apply dict3_consistent|]. split; [|split; [auto|]].
  - constructor; [|constructor]. destruct sample_file_ok as [H1 [H2 [H3 [H4 [H5 [H6 H7]]]]]]. unfold file_ok. cbn [file_h lf_header lf_cp1 lf_unused lf_cp2 lf_blocks].
    do 6 (split; [assumption|]). constructor; [|constructor; [apply block_check; reflexivity|constructor]]. apply block_check; reflexivity.
  - exists log_h, []. split; [reflexivity|]. split; [reflexivity|]. split; [reflexivity|]. unfold log_h. apply S; [now left|reflexivity|].
    rewrite <- (app_nil_r (log_t (txt "abd"))). apply S; [now right|reflexivity|]. constructor.
Qed.
(** Row 7 has v abc, then abd, then abe; row 8 is inserted and row 9 deleted
    meanwhile. *)
Definition row_h (id v : string) : row := fun n => if text_eqb n (txt "id") then SStr (txt id) else if text_eqb n (txt "v") then SStr (txt v) else SNull.
Definition key_h (db tb : list Z) : list (list Z) := [txt "id"].
Definition at_h (rows : list row) : contents := fun db tb => if text_eqb db (txt "test") && text_eqb tb (txt "t") then rows else [].
Definition history_h : list event :=
  [Changed (change_t (txt "abc")) (row_h "7" "abc") (row_h "7" "abd"); Inserted (txt "test") (txt "t") (row_h "8" "new");
   Changed (change_t (txt "abd")) (row_h "7" "abd") (row_h "7" "abe"); Deleted (txt "test") (txt "t") (row_h "9" "x")].
Lemma at_replaced l1 old new l2 : replaced (at_h (l1 ++ old ++ l2)) (at_h (l1 ++ new ++ l2)) (txt "test") (txt "t") old new.
Proof.
  exists l1, l2. split; [reflexivity|]. split; [reflexivity|]. intros db tb H. unfold at_h. destruct (text_eqb db (txt "test") && text_eqb tb (txt "t")) eqn:E; [|reflexivity].
  apply Bool.andb_true_iff in E. rewrite !text_eqb_iff in E. destruct E as [-> ->]. now elim H.
Qed.
Example C91_case rt : redo_input rt (good_update dict3) dict3 pages3 [] (txt "t") [file_h] (flat_map logged history_h)
  /\ keyed key_h (at_h [row_h "7" "abc"; row_h "9" "x"])
  /\ history key_h [] (at_h [row_h "7" "abc"; row_h "9" "x"]) history_h (at_h [row_h "7" "abe"; row_h "8" "new"])
  /\ stays key_h (txt "test") (txt "t") (row_h "7" "abc") history_h /\ ~ changed_once (flat_map logged history_h)
  /\ changed_once [change_t (txt "abc")].
Proof.
  split; [apply redo_h|]. split; [|split; [|split; [|split]]].
  - intros db tb. unfold at_h. destruct (text_eqb db (txt "test") && text_eqb tb (txt "t")); cbn; repeat constructor; cbn; intuition discriminate.
  - assert (C : forall before (o n : string) l1 l2, step key_h before (at_h (l1 ++ [row_h "7" o] ++ l2)) (Changed (change_t (txt o)) (row_h "7" o) (row_h "7" n)) (at_h (l1 ++ [row_h "7" n] ++ l2))).
    { intros before o n l1 l2. split; [apply at_replaced|]. split; [reflexivity|]. split; [reflexivity|]. split; [reflexivity|]. split.
      - cbn. intros x [<-|[]] [X|[]]. discriminate X.
      - cbn. intros x X. unfold row_h. destruct (text_eqb x (txt "id")); [reflexivity|]. destruct (text_eqb x (txt "v")) eqn:Y; [|reflexivity]. apply text_eqb_iff in Y. exfalso. apply X. left. now rewrite Y. }
    eapply hist_cons; [exact (C [] "abc" "abd" [] [row_h "9" "x"])|].
    eapply hist_cons; [split; [exact (at_replaced [row_h "7" "abd"] [] [row_h "8" "new"] [row_h "9" "x"])|cbn; intuition discriminate]|].
    eapply hist_cons; [exact (C _ "abd" "abe" [] [row_h "8" "new"; row_h "9" "x"])|].
    eapply hist_cons; [exact (at_replaced [row_h "7" "abe"; row_h "8" "new"] [row_h "9" "x"] [] [])|]. constructor.
  - unfold stays, history_h. constructor; [exact I|]. constructor; [right; discriminate|]. constructor; [exact I|]. constructor; [right; discriminate|constructor].
  - intro H. apply (H [] (change_t (txt "abc")) [] (change_t (txt "abd")) [] (txt "v") eq_refl); [now repeat split|now left|now left].
  - intros a w b w' c n E. apply (f_equal (@List.length _)) in E. cbn in E. rewrite app_length in E. cbn in E. rewrite app_length in E. cbn in E. lia.
Qed.
Example C91_refuted_case : let w := change_t (txt "abc") in let w' := change_t (txt "abd") in
  flat_map logged history_h = [] ++ w :: [] ++ w' :: [] /\ concerns w' (up_db w) (up_tb w) (map snd (up_key w))
  /\ map (fun cv => (cd_name (fst cv), snd cv)) (up_old w) = [(txt "v", SStr (txt "abc"))]
  /\ map (fun cv => (cd_name (fst cv), snd cv)) (up_old w') = [(txt "v", SStr (txt "abd"))]
  /\ In (row_h "7" "abc") (at_h [row_h "7" "abc"; row_h "9" "x"] (up_db w) (up_tb w))
  /\ key_values key_h (up_db w) (up_tb w) (row_h "7" "abc") = map snd (up_key w).
Proof. split; [reflexivity|]. split; [now repeat split|]. split; [reflexivity|]. split; [reflexivity|]. split; [now left|reflexivity]. Qed.
