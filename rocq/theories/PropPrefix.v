(** C112: keys of which a column takes part with its first bytes only. *)
From Coq Require Import String ZifyBool Permutation.
From Verif Require Import GoBase Utils Ibdata Cmd SpecInno SpecText SpecSql SpecRecord SpecRow SpecPage SpecDict SpecTool SpecCmd
  PBase PWire PValue PText PRec PPage PSql PFile PDict PMove PropDict PBuild PTool PropTool PropOrder.
Local Open Scope string_scope.
Local Open Scope list_scope.
Local Open Scope Z_scope.
Ltac Zify.zify_post_hook ::= Z.div_mod_to_equations.

(** POS in SYS_FIELDS (dict0load.cc, dict_load_field_low): of the first field,
    and of others if it does not fit into 16 bits, the low half is the number
    of bytes of the column that the key holds, 0 meaning all. *)
Definition prefix_length (first : bool) (pos : Z) : Z := if first || (65535 <? pos) then pos mod 65536 else 0.
Definition prefix_lengths (fs : list field_def) : list Z :=
  match fs with [] => [] | f :: fs' => prefix_length true (fd_position f) :: map (fun g => prefix_length false (fd_position g)) fs' end.
(** The parts of a key, and the columns that follow them in the records: all
    those of which the key does not hold all. *)
Definition key_parts (d : dictionary) (id : Z) (parts : list (column_def * Z)) (rest : list column_def) : Prop :=
  exists i, In i (indexes_of d id) /\ primary i
    /\ map (fun p => cd_name (fst p)) parts = map fd_column (fields_of d (id_id i)) /\ map snd parts = prefix_lengths (fields_of d (id_id i))
    /\ incl (map fst parts) (columns_of d id)
    /\ rest = filter (fun c => negb (existsb (fun p => (snd p =? 0) && if list_eq_dec Z.eq_dec (cd_name (fst p)) (cd_name c) then true else false) parts)) (columns_of d id).
Definition part_value (r : row) (p : column_def * Z) : sqlval :=
  if snd p =? 0 then r (cd_name (fst p))
  else match r (cd_name (fst p)) with SStr s => SStr (firstn (Z.to_nat (snd p)) s) | SBytes s => SBytes (firstn (Z.to_nat (snd p)) s) | v => v end.
(** The values in the records of a row. *)
Definition record_values (parts : list (column_def * Z)) (rest : list column_def) (r : row) : list sqlval := map (part_value r) parts ++ values rest r.
(** Both files, the table, and its rows, for keys of columns or parts of them. *)
Definition parts_input (rt : runtime) (deleted : bool) (d : dictionary) (sys_pages : list (list Z)) (t : table_def) (db tb : list Z)
    (parts : list (column_def * Z)) (rest : list column_def) (pages : list (list Z)) (rows : list row) : Prop :=
  stores_dictionary sys_pages d /\ consistent d /\ NoDup (map td_name (dd_tables d))
  /\ In t (dd_tables d) /\ named_as (td_name t) db tb /\ db <> [] /\ ~ In 96 db /\ ~ In 96 tb
  /\ columns_of d (td_id t) <> [] /\ Forall (fun c => ordinary c /\ readable_column c) (columns_of d (td_id t))
  /\ key_parts d (td_id t) parts rest
  /\ file_holds rt deleted (key_slots (map fst parts) rest) pages (map (record_values parts rest) rows).

(** Records are read the same if columns behind them are left out. *)
Lemma fits_split ls l fs f : Forall2 fits (ls ++ [l]) (fs ++ [f]) -> Forall2 fits ls fs.
Proof.
  revert fs. induction ls as [|x ls IH]; intros [|y fs] H; cbn [app] in H; inversion H as [|? ? ? ? H1 H2]; subst; [constructor| | |].
  - destruct fs; inversion H2.
  - destruct ls; inversion H2.
  - constructor; [exact H1|now apply IH].
Qed.
Lemma rfits_split ls l fs f : Forall2 rfits (ls ++ [l]) (fs ++ [f]) -> Forall2 rfits ls fs.
Proof.
  revert fs. induction ls as [|x ls IH]; intros [|y fs] H; cbn [app] in H; inversion H as [|? ? ? ? H1 H2]; subst; [constructor| | |].
  - destruct fs; inversion H2.
  - destruct ls; inversion H2.
  - constructor; [exact H1|now apply IH].
Qed.
Lemma lengths_app ls fs l f : List.length ls = List.length fs -> lengths (ls ++ [l]) (fs ++ [f]) = lengths ls fs ++ length_bytes l f.
Proof.
  revert fs. induction ls as [|x ls IH]; intros [|y fs] H; try discriminate; cbn [app lengths]; [now rewrite app_nil_r|]. rewrite IH by (now injection H). apply app_assoc.
Qed.
Lemma flags_app ls fs l f : List.length ls = List.length fs -> l_nullable l = false -> null_flags (ls ++ [l]) (fs ++ [f]) = null_flags ls fs.
Proof.
  intros H N. revert fs H. induction ls as [|x ls IH]; intros [|y fs] H; try discriminate; cbn [app null_flags]; [now rewrite N|]. now rewrite IH by (now injection H).
Qed.
Lemma ends_app nb fs f : forall from, exists e, ends nb from (fs ++ [f]) = ends nb from fs ++ [e].
Proof. induction fs as [|x fs IH]; intro from; cbn [app ends]; [eexists; reflexivity|]. destruct (IH (from + zlen (rcontent x))) as [e ->]. exists e. reflexivity. Qed.
Lemma stored_cut compact page off ls l fs f : l_nullable l = false -> stored_at compact page off (ls ++ [l]) (fs ++ [f]) -> stored_at compact page off ls fs.
Proof.
  intros N H. destruct compact; cbn [stored_at] in *.
  - destruct H as [pre [header [post [HP [H1 [H2 [H3 HF]]]]]]].
    assert (L : List.length ls = List.length fs) by (pose proof (forall2_length _ _ _ HF) as X; rewrite !app_length in X; cbn in X; lia).
    rewrite lengths_app, flags_app in HP by assumption. rewrite lengths_app in H3 by assumption.
    assert (NC : nullable_count (ls ++ [l]) = nullable_count ls) by (unfold nullable_count; rewrite filter_app; cbn [filter]; rewrite N; now rewrite app_nil_r).
    rewrite NC in HP, H3. unfold body in HP. rewrite flat_map_app, rev_app_distr in HP. fold (body fs) in HP.
    exists (pre ++ rev (length_bytes l f)), header, (flat_map content [f] ++ post). split; [rewrite HP; now rewrite <- !app_assoc|].
    split; [unfold zlen in *; rewrite app_length; lia|]. split; [exact H2|]. split; [|now apply fits_split in HF].
    unfold zlen in *. rewrite app_length in *. rewrite rev_length. lia.
  - destruct H as [wide [vs [HE [HR HF]]]]. destruct (list_eq_dec (list_eq_dec Z.eq_dec) vs []) as [->|Hn]; [destruct fs; discriminate|].
    destruct (exists_last Hn) as [vs' [v ->]]. rewrite map_app in HE. apply app_inj_tail in HE as [-> ->]. rewrite map_app in HR, HF. cbn [map] in HR, HF.
    exists wide, vs'. split; [reflexivity|]. split; [|now apply rfits_split in HF]. destruct HR as [pre [header [post HR]]]. cbv zeta in HR. destruct HR as [HP [H1 [H2 [H3 H4]]]].
    unfold rbody in HP, H4. rewrite flat_map_app in HP, H4. fold (rbody (map RBytes vs')) in HP, H4. destruct wide.
    + destruct (ends_app (2 ^ 15) (map RBytes vs') (RBytes v) 0) as [e E]. rewrite E, rev_app_distr in HP, H3. cbn [rev app] in HP, H3. cbn [flat_map] in HP, H3.
      exists (pre ++ be 2 e), header, ((rcontent (RBytes v) ++ []) ++ post). cbv zeta. split; [rewrite HP; now rewrite <- !app_assoc|]. split; [exact H1|]. split; [exact H2|].
      unfold zlen in *. rewrite !app_length in *. lia.
    + destruct (ends_app (2 ^ 7) (map RBytes vs') (RBytes v) 0) as [e E]. rewrite E, rev_app_distr in HP, H3. cbn [rev app] in HP, H3.
      exists (pre ++ [e]), header, (flat_map rcontent [RBytes v] ++ post). cbv zeta. split; [rewrite HP; now rewrite <- !app_assoc|]. split; [exact H1|]. split; [exact H2|].
      unfold zlen in *. rewrite !app_length in *. cbn [List.length] in *. lia.
Qed.
Lemma encodes_cut rt ss c vs fs : row_encodes rt (ss ++ [User c]) vs fs -> exists vs' v fs' f, vs = vs' ++ [v] /\ fs = fs' ++ [f] /\ row_encodes rt ss vs' fs'.
Proof.
  revert vs fs. induction ss as [|s ss IH]; intros vs fs H; cbn [app] in H; inversion H as [|n ss0 vs0 b fs0 E H1|c0 ss0 v0 vs0 f0 fs0 E P H1]; subst.
  - inversion H1; subst. exists [], v0, [], f0. repeat split. constructor.
  - destruct (IH _ _ H1) as [vs' [v [fs' [f [-> [-> HR]]]]]]. exists vs', v, (FBytes b :: fs'), f. split; [reflexivity|]. split; [reflexivity|]. now constructor.
  - destruct (IH _ _ H1) as [vs' [v [fs' [f [-> [-> HR]]]]]]. exists (v0 :: vs'), v, (f0 :: fs'), f. split; [reflexivity|]. split; [reflexivity|]. now constructor.
Qed.
Lemma user_values rt ss vs fs : row_encodes rt ss vs fs -> List.length vs = List.length (users ss).
Proof. induction 1; cbn [users flat_map app List.length] in *; [reflexivity|assumption|]. now f_equal. Qed.
Lemma file_cut rt deleted ss c pages vss : Z.testbit (cd_prtype c) 8 = true -> file_holds rt deleted (ss ++ [User c]) pages vss ->
  file_holds rt deleted ss pages (map (firstn (List.length (users ss))) vss).
Proof.
  intros N [Hi [cs [HC E]]]. split; [exact Hi|]. exists (map (map (firstn (List.length (users ss)))) cs). split; [|rewrite <- E; symmetry; apply concat_map].
  clear E. induction HC as [|page rows ps rs [compact [offs [A [B C]]]] _ IH]; cbn [map]; constructor; [|exact IH]. exists compact, offs. split; [exact A|]. split; [exact B|].
  clear - C N. induction C as [|off vs offs vss [U [fs [S [L R]]]] _ IH]; cbn [map]; constructor; [|exact IH]. split; [exact U|].
  destruct (encodes_cut rt ss c vs fs R) as [vs' [v [fs' [f [-> [-> R']]]]]]. exists fs'. rewrite map_app in S. cbn [map] in S.
  split; [apply (stored_cut compact page off _ (slot_layout (User c)) fs' f); [cbn [slot_layout]; unfold column_layout, inno_layout; cbn [l_nullable]; now rewrite N|exact S]|].
  split; [unfold body in *; rewrite flat_map_app in L; unfold zlen in *; rewrite app_length in L; lia|].
  rewrite <- (user_values rt ss vs' fs' R'), firstn_app, Nat.sub_diag, firstn_all, app_nil_r. exact R'.
Qed.
Lemma file_lengths rt deleted ss pages vss : file_holds rt deleted ss pages vss -> Forall (fun vs => List.length vs = List.length (users ss)) vss.
Proof.
  intros [_ [cs [HC <-]]]. induction HC as [|page rows ps rs [compact [offs [_ [_ C]]]] _ IH]; cbn [List.concat]; [constructor|]. apply Forall_app. split; [|exact IH].
  clear - C. induction C as [|off vs offs vss [_ [fs [_ [_ R]]]] _ IH]; constructor; [exact (user_values rt ss vs fs R)|exact IH].
Qed.
Lemma file_cuts rt deleted K a b pages vss : Forall (fun c => Z.testbit (cd_prtype c) 8 = true) b -> file_holds rt deleted (key_slots K (a ++ b)) pages vss ->
  file_holds rt deleted (key_slots K a) pages (map (firstn (List.length (K ++ a))) vss).
Proof.
  revert vss. induction b as [|x b IH] using rev_ind; intros vss HN H.
  - rewrite app_nil_r in H. assert (E : map (firstn (List.length (K ++ a))) vss = vss); [|now rewrite E]. apply file_lengths in H. rewrite users_keyed in H.
    induction H as [|vs vss E _ IH]; [reflexivity|]. cbn [map]. rewrite <- E at 1. rewrite firstn_all. now rewrite IH.
  - apply Forall_app in HN as [HN Hx]. inversion Hx as [|? ? Hx1 _]; subst.
    assert (E : key_slots K (a ++ b ++ [x]) = key_slots K (a ++ b) ++ [User x]) by (unfold key_slots; rewrite (app_assoc a b [x]), (map_app User (a ++ b) [x]), <- !app_assoc; reflexivity).
    rewrite E in H. apply file_cut in H; [|exact Hx1]. rewrite users_keyed in H. specialize (IH _ HN H). rewrite map_map in IH.
    rewrite (map_ext _ (firstn (List.length (K ++ a)))) in IH; [exact IH|]. intro vs. rewrite firstn_firstn. f_equal. rewrite !app_length. lia.
Qed.
Lemma filter_more {A} (f g : A -> bool) l : (forall x, f x = true -> g x = true) -> (List.length (filter f l) <= List.length (filter g l))%nat.
Proof. intro H. induction l as [|x l IH]; [reflexivity|]. cbn [filter]. specialize (H x). destruct (f x), (g x); cbn [List.length]; try lia. Qed.
Lemma parts_key d id parts rest : key_parts d id parts rest -> exists rest', has_key d id (map fst parts) rest' /\ (List.length rest' <= List.length rest)%nat.
Proof.
  intros [i [Hi [Hp [Hn [_ [Hin ->]]]]]]. eexists. split; [exists i; split; [exact Hi|]; split; [exact Hp|]; split; [rewrite map_map; exact Hn|]; split; [exact Hin|reflexivity]|].
  apply filter_more. intros c H. apply negb_true_iff in H. apply negb_true_iff. apply not_true_iff_false in H. apply not_true_iff_false. intro X. apply H.
  apply existsb_exists in X as [p [Hp1 Hp2]]. apply existsb_exists. exists (fst p). split; [now apply in_map|]. now apply andb_prop in Hp2.
Qed.

(** The tool takes the parts for columns and does not expect the columns again
    behind them.  If all columns have one type and none may be NULL: for every
    key of columns or parts of columns every row is printed with the first
    values of its record, as many as the table has columns, and so is right
    exactly if these are its values. *)
Theorem C112_prefix_refuted : forall fuel rt files op sys tfile d sys_pages t db tb parts rest pages rows,
  parts_input rt (is_deleted op) d sys_pages t db tb parts rest pages rows ->
  (forall c c', In c (columns_of d (td_id t)) -> In c' (columns_of d (td_id t)) -> alike c c') ->
  Forall (fun c => Z.testbit (cd_prtype c) 8 = true) (columns_of d (td_id t)) ->
  files sys = Some (map IoBytes sys_pages) -> files tfile = Some (map IoBytes pages) -> (Z.to_nat 16384 < fuel)%nat ->
  exists lines, FromDataFile fuel rt files op sys tfile db tb = (lines, Ok tt)
    /\ Forall2 (fun r line => let shown := firstn (List.length (columns_of d (td_id t))) (record_values parts rest r) in
         read_replace line = Some (db, tb, shown)
         /\ (read_replace line = Some (db, tb, values (columns_of d (td_id t)) r) <-> shown = values (columns_of d (td_id t)) r)) rows lines.
Proof.
  intros fuel rt files op sys tfile d sys_pages t db tb parts rest pages rows [Hs [Hc [Hnd [Ht [Hnm [Hdb [Hb1 [Hb2 [Hne [Hro [HP HF]]]]]]]]]]] Hone HN F1 F2 Hfuel.
  destruct (parts_key _ _ _ _ HP) as [rest' [HK HL]]. pose proof (key_rest_length d _ _ _ Hc HK) as LK.
  assert (Ik : incl (map fst parts) (columns_of d (td_id t))) by (destruct HK as [i [_ [_ [_ [X _]]]]]; exact X).
  assert (Ir : incl rest (columns_of d (td_id t))) by (destruct HP as [i [_ [_ [_ [_ [_ ->]]]]]]; apply incl_filter).
  set (m := List.length rest') in *. rewrite <- (firstn_skipn m rest) in HF.
  assert (I1 : incl (firstn m rest) (columns_of d (td_id t)) /\ incl (skipn m rest) (columns_of d (td_id t))).
  { rewrite <- (firstn_skipn m rest) in Ir. split; intros x Hx; apply Ir, in_or_app; [now left|now right]. } destruct I1 as [I1 I2].
  apply file_cuts in HF; [|rewrite Forall_forall in *; auto]. rewrite app_length, firstn_length, Nat.min_l in HF by exact HL. fold m in HF. rewrite LK in HF.
  destruct (one_type_lines fuel rt files op sys tfile d sys_pages t db tb pages (map (firstn (List.length (columns_of d (td_id t)))) (map (record_values parts (firstn m rest ++ skipn m rest)) rows)) (map fst parts) rest' (map fst parts) (firstn m rest)) as [lines [E H]]; try assumption; try reflexivity.
  { rewrite firstn_length. lia. }
  exists lines. split; [exact E|]. rewrite firstn_skipn in H. clear - H. revert lines H. induction rows as [|r rows IH]; intros lines H; inversion H as [|? line ? lines' H1 H2]; subst; constructor; [|now apply IH].
  cbv zeta. rewrite H1. split; [reflexivity|]. split; [intro X; congruence|intros ->; reflexivity].
Qed.
Print Assumptions C112_prefix_refuted.
(** Full statement: every row is printed with its values.  Proved: they are if
    the key holds all of its columns, for the keys of C82. *)
Theorem C112_whole_partial : forall fuel rt files op sys tfile d sys_pages t db tb parts rest pages rows,
  parts_input rt (is_deleted op) d sys_pages t db tb parts rest pages rows -> Forall (fun p => snd p = 0) parts -> front_key d (td_id t) ->
  files sys = Some (map IoBytes sys_pages) -> files tfile = Some (map IoBytes pages) -> (Z.to_nat 16384 < fuel)%nat ->
  exists lines, FromDataFile fuel rt files op sys tfile db tb = (lines, Ok tt)
    /\ Forall2 (fun r line => read_replace line = Some (db, tb, values (columns_of d (td_id t)) r)) rows lines.
Proof.
  intros fuel rt files op sys tfile d sys_pages t db tb parts rest pages rows [Hs [Hc [Hnd [Ht [Hnm [Hdb [Hb1 [Hb2 [Hne [Hro [HP HF]]]]]]]]]]] HW Hfk F1 F2 Hfuel.
  apply (C82_statements_partial fuel rt files op sys tfile d sys_pages t db tb (key_slots (map fst parts) rest) pages rows); try assumption.
  do 10 (split; [assumption|]). split.
  - right. exists (map fst parts), rest. split; [|reflexivity]. destruct HP as [i [Hi [Hp [Hn [_ [Hin ->]]]]]]. exists i. split; [exact Hi|]. split; [exact Hp|]. split; [rewrite map_map; exact Hn|]. split; [exact Hin|].
    apply filter_ext. intro c. f_equal. clear - HW. induction HW as [|p ps E _ IH]; [reflexivity|]. cbn [map existsb]. rewrite E, IH. reflexivity.
  - rewrite users_keyed. assert (E : map (values (map fst parts ++ rest)) rows = map (record_values parts rest) rows); [|now rewrite E].
    apply map_ext. intro r. unfold values, record_values. rewrite map_app. f_equal. clear - HW. induction HW as [|p ps E _ IH]; [reflexivity|]. cbn [map]. rewrite IH. unfold part_value. now rewrite E.
Qed.
Print Assumptions C112_whole_partial.

(** x(v VARCHAR(60) NOT NULL, w VARCHAR(60) NOT NULL, primary key (v(3))): the
    row ('abcdef', 'uvw') is printed as ('abc', 'abcdef'). *)
Definition x_v : column_def := mkColumnDef 33 0 (txt "v") 12 (256 + 15) 60.
Definition x_w : column_def := mkColumnDef 33 1 (txt "w") 12 (256 + 15) 60.
Definition dict_x : dictionary := mkDictionary [mkTableDef (txt "test/x") 33 5] [x_v; x_w] [mkIndexDef 33 52 (txt "PRIMARY") 1 3] [mkFieldDef 52 3 (txt "v")].
Definition pages_x : list (list Z) :=
  [sys_page 8 10 11 12; built false 8 17855 1 (map rrec (map tables_fields (dd_tables dict_x))); built false 10 17855 2 (map rrec (map columns_fields (dd_columns dict_x)));
   built false 11 17855 3 (map rrec (map indexes_fields (dd_indexes dict_x))); built false 12 17855 4 (map rrec (map fields_fields (dd_fields dict_x)))].
Lemma pages_x_facts : exists p1 p2 p3 p4, pages_x = [sys_page 8 10 11 12; p1; p2; p3; p4]
  /\ Forall page_image pages_x /\ map page_number pages_x = [7; 8; 10; 11; 12] /\ map index_of pages_x = [8; 1; 2; 3; 4]
  /\ holds_records tables_record p1 (dd_tables dict_x) /\ holds_records columns_record p2 (dd_columns dict_x)
  /\ holds_records indexes_record p3 (dd_indexes dict_x) /\ holds_records fields_record p4 (dd_fields dict_x).
Proof.
  assert (S1 : Forall small (map tables_fields (dd_tables dict_x))) by (apply small_checks; vm_compute; reflexivity).
  assert (S2 : Forall small (map columns_fields (dd_columns dict_x))) by (apply small_checks; vm_compute; reflexivity).
  assert (S3 : Forall small (map indexes_fields (dd_indexes dict_x))) by (apply small_checks; vm_compute; reflexivity).
  assert (S4 : Forall small (map fields_fields (dd_fields dict_x))) by (apply small_checks; vm_compute; reflexivity).
  assert (F : forall fss, Forall small fss -> Forall fine (map rrec fss)) by (intros fss H; induction H; cbn [map]; constructor; [now apply rrec_fine|assumption]).
  assert (L1 : zlen (blocks false 125 (map rrec (map tables_fields (dd_tables dict_x)))) <= 16000) by (vm_compute; discriminate).
  assert (L2 : zlen (blocks false 125 (map rrec (map columns_fields (dd_columns dict_x)))) <= 16000) by (vm_compute; discriminate).
  assert (L3 : zlen (blocks false 125 (map rrec (map indexes_fields (dd_indexes dict_x)))) <= 16000) by (vm_compute; discriminate).
  assert (L4 : zlen (blocks false 125 (map rrec (map fields_fields (dd_fields dict_x)))) <= 16000) by (vm_compute; discriminate).
  destruct (built_page false 8 17855 1 _ (F _ S1) L1) as [[I1 _] [N1 [_ [X1 _]]]]; try lia.
  destruct (built_page false 10 17855 2 _ (F _ S2) L2) as [[I2 _] [N2 [_ [X2 _]]]]; try lia.
  destruct (built_page false 11 17855 3 _ (F _ S3) L3) as [[I3 _] [N3 [_ [X3 _]]]]; try lia.
  destruct (built_page false 12 17855 4 _ (F _ S4) L4) as [[I4 _] [N4 [_ [X4 _]]]]; try lia.
  do 4 eexists. split; [reflexivity|]. split; [unfold pages_x; constructor; [apply sys_image|repeat (constructor; [assumption|]); constructor]|].
  split; [unfold pages_x; cbn [map]; rewrite N1, N2, N3, N4; reflexivity|]. split; [unfold pages_x; cbn [map]; rewrite X1, X2, X3, X4; reflexivity|].
  assert (M : forall {D} (record : D -> list (rstored -> Prop)) fields (defs : list D), (forall d, In d defs -> matches (record d) (fields d)) -> Forall2 (fun d fs => matches (record d) fs) defs (map fields defs)).
  { intros D record fields defs H. induction defs as [|d defs IH]; cbn [map]; constructor; [apply H; now left|apply IH; intros x Hx; apply H; now right]. }
  split; [|split; [|split]]; apply holds_built; try assumption; try lia; apply M; intros d Hd; cbn [dict_x dd_tables dd_columns dd_indexes dd_fields In] in Hd;
    repeat (destruct Hd as [<-|Hd]; [|]); try contradiction.
  1-3: match goal with |- matches _ ?f => exists f, [] end; split; [symmetry; apply app_nil_r|repeat (constructor; [first [exact I|reflexivity|split; [cbn; lia|reflexivity]]|]); constructor].
  1: match goal with |- matches _ (indexes_fields ?i) => exists (firstn 9 (indexes_fields i)), [RBytes (be 4 50)] end; split; [reflexivity|repeat (constructor; [first [exact I|reflexivity|split; [cbn; lia|reflexivity]]|]); constructor].
  1: match goal with |- matches _ ?f => exists f, [] end; split; [symmetry; apply app_nil_r|repeat (constructor; [first [exact I|reflexivity|split; [cbn; lia|reflexivity]]|]); constructor].
Qed.
Lemma pages_x_stores : stores_dictionary pages_x dict_x.
Proof.
  destruct pages_x_facts as [p1 [p2 [p3 [p4 [E [Hi [Hn [Hx [H1 [H2 [H3 H4]]]]]]]]]]]. split; [exact Hi|].
  assert (Ef : firsts pages_x = pages_x) by (apply distinct_firsts; rewrite Hn; repeat constructor; cbn; lia).
  exists 8, 10, 11, 12. rewrite Ef. rewrite E in *. cbn [map] in Hn, Hx. injection Hn as Hn1 Hn2 Hn3 Hn4. injection Hx as Hx1 Hx2 Hx3 Hx4.
  split; [reflexivity|].
  assert (X0 : index_of (sys_page 8 10 11 12) = 8) by reflexivity.
  unfold stored_tree. rewrite Ef. cbn [filter]. rewrite X0, Hx1, Hx2, Hx3, Hx4. cbn [Z.eqb Pos.eqb].
  assert (One : forall {D} (record : D -> list (rstored -> Prop)) key page defs, holds_records record page defs ->
    Forall2 (tree_page record key) [page] [defs] /\ List.concat [defs] = defs).
  { intros D record key page defs H. split; [constructor; [now apply leaf_page|constructor]|apply app_nil_r]. }
  split; [exists p1, [], [dd_tables dict_x]; auto|]. split; [exists p2, [], [dd_columns dict_x]; auto|].
  split; [exists p3, [], [dd_indexes dict_x]; auto|exists p4, [], [dd_fields dict_x]; auto].
Qed.
Lemma dict_x_consistent : consistent dict_x.
Proof.
  split; [distinct|]. split; [distinct|]. split; [|split; [|split; [|split]]].
  - intros t [<-|[]]. exists (txt "test"), (txt "x"). left. split; [reflexivity|]. split; cbn; lia.
  - intros i [<-|[]]; cbn; tauto.
  - intro id. apply few. unfold indexes_of. cbn [dict_x dd_indexes filter id_table]. destruct (33 =? id); [now left|now right].
  - intro id. unfold columns_of. cbn [dict_x dd_columns filter x_v x_w cd_table]. destruct (33 =? id); distinct.
  - intros i [<-|[]] Hp. split; [distinct|]. split; [|reflexivity]. intros x Hx. vm_compute in Hx |- *. tauto.
Qed.
Definition row_x : row := fun n => if list_eq_dec Z.eq_dec n (txt "v") then SStr (txt "abcdef") else SStr (txt "uvw").
Definition stored_x : list stored := [FBytes (txt "abc"); FBytes (be 6 300); FBytes (be 7 5); FBytes (txt "abcdef"); FBytes (txt "uvw")].
Definition page_x : list Z := built true 3 17855 52 (map (crec (map slot_layout (key_slots [x_v] [x_v; x_w]))) [stored_x]).
Lemma page_x_holds rt : file_holds rt false (key_slots [x_v] [x_v; x_w]) [page_x] (map (record_values [(x_v, 3)] [x_v; x_w]) [row_x]).
Proof.
  assert (Hf : Forall fine (map (crec (map slot_layout (key_slots [x_v] [x_v; x_w]))) [stored_x])) by (apply fine_check; vm_compute; reflexivity).
  assert (Hl : zlen (blocks true 125 (map (crec (map slot_layout (key_slots [x_v] [x_v; x_w]))) [stored_x])) <= 16000) by (vm_compute; discriminate).
  destruct (built_alone 3 52 _ Hf Hl) as [Hi He]; try lia. split; [exact Hi|]. fold page_x in He. rewrite He.
  exists [map (record_values [(x_v, 3)] [x_v; x_w]) [row_x]]. split; [|apply app_nil_r]. constructor; [|constructor].
  apply page_built; try assumption; try lia. constructor; [|constructor]; (split; [repeat (constructor; [vm_compute; reflexivity|]); constructor|]).
  change (row_encodes rt [User x_v; Own 6; Own 7; User x_v; User x_w] [SStr (txt "abc"); SStr (txt "abcdef"); SStr (txt "uvw")] stored_x). unfold stored_x. constructor; [|plain_text|].
  - apply enc_varchar; reflexivity || (intros _; reflexivity).
  - constructor; [reflexivity|]. constructor; [reflexivity|]. constructor; [|plain_text|constructor; [|plain_text|constructor]]; apply enc_varchar; reflexivity || (intros _; reflexivity).
Qed.
Example C112_case : forall rt,
  parts_input rt (is_deleted (txt "PrintData")) dict_x pages_x (mkTableDef (txt "test/x") 33 5) (txt "test") (txt "x") [(x_v, 3)] [x_v; x_w] [page_x] [row_x]
  /\ (forall c c', In c (columns_of dict_x 33) -> In c' (columns_of dict_x 33) -> alike c c') /\ Forall (fun c => Z.testbit (cd_prtype c) 8 = true) (columns_of dict_x 33)
  /\ firstn (List.length (columns_of dict_x 33)) (record_values [(x_v, 3)] [x_v; x_w] row_x) = [SStr (txt "abc"); SStr (txt "abcdef")]
  /\ values (columns_of dict_x 33) row_x = [SStr (txt "abcdef"); SStr (txt "uvw")].
Proof.
  intro rt. change (is_deleted (txt "PrintData")) with false. change (columns_of dict_x 33) with [x_v; x_w]. split; [|split; [|split; [|split; reflexivity]]].
  - split; [exact pages_x_stores|]. split; [exact dict_x_consistent|]. split; [distinct|]. split; [now left|].
    split; [left; split; [reflexivity|split; cbn; lia]|]. split; [discriminate|]. split; [cbn; lia|]. split; [cbn; lia|]. split; [discriminate|].
    split; [|split; [|exact (page_x_holds rt)]].
    + change (columns_of dict_x (td_id (mkTableDef (txt "test/x") 33 5))) with [x_v; x_w]. ordinary_columns.
    + exists (mkIndexDef 33 52 (txt "PRIMARY") 1 3). split; [now left|]. split; [reflexivity|]. split; [reflexivity|]. split; [reflexivity|]. split; [|reflexivity]. intros x [<-|[]]. now left.
  - intros c c' [<-|[<-|[]]] [<-|[<-|[]]]; now repeat split.
  - repeat (constructor; [reflexivity|]). constructor.
Qed.
