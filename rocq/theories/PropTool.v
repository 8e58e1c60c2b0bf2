(** C81, C82: the tool as a whole. *)
From Coq Require Import String ZifyBool.
From Verif Require Import GoBase Utils Ibdata Cmd SpecInno SpecText SpecSql SpecRecord SpecRow SpecPage SpecDict SpecTool SpecCmd PBase PWire PValue PText PRec PPage PSql PFile PDict PropDict PBuild PTool.
Local Open Scope string_scope.
Local Open Scope list_scope.
Local Open Scope Z_scope.
Ltac Zify.zify_post_hook ::= Z.div_mod_to_equations.

(** C81: the dictionary is read without a word, and the table map says what it
    says of names, ids, spaces, NULL counts and indexes ... *)
Theorem C81_dictionary : forall fuel rt pages d, stores_dictionary pages d -> consistent d -> (Z.to_nat 16384 < fuel)%nat ->
  exists tm, ParseDictPage fuel rt (Some (map IoBytes pages)) = ([], Ok (tm, None)) /\ agrees d tm.
Proof.
  intros fuel rt pages d Hs Hc Hf. destruct (dict_read fuel rt pages d Hs Hc Hf) as [tm [E HR]]. exists tm. split; [exact E|]. now apply placed_agrees.
Qed.
Print Assumptions C81_dictionary.
(** ... but not of the order of columns: a key of the first two or more columns
    of a table always comes out wrong. *)
Theorem C81_columns_refuted : forall fuel rt pages d t key rest, stores_dictionary pages d -> consistent d -> (Z.to_nat 16384 < fuel)%nat ->
  In t (dd_tables d) -> has_key d (td_id t) key rest -> columns_of d (td_id t) = key ++ rest -> (2 <= List.length key)%nat ->
  exists tm e, ParseDictPage fuel rt (Some (map IoBytes pages)) = ([], Ok (tm, None)) /\ mget tm (td_id t) = Some e
    /\ t_columns e <> with_key (td_id t) key rest.
Proof.
  intros fuel rt pages d t key rest Hs Hc Hf Ht [i [Hi [Hp [Hk _]]]] HE H2. destruct (dict_read fuel rt pages d Hs Hc Hf) as [tm [E HR]].
  destruct (represents_in d _ tm t Hc HR Ht) as [e [Hg HP]]. exists tm, e. split; [exact E|]. split; [exact Hg|].
  rewrite (placed_leading d t e key rest Hc HP HE) by (exists i; auto). unfold with_key. intro X.
  assert (HA : forall (A B R R' : list Column), List.length A = List.length B -> A ++ R = B ++ R' -> A = B).
  { induction A as [|x A IH]; intros [|y B] R R' HL; cbn; try discriminate; [reflexivity|]. intro E0. injection E0 as -> E0. f_equal. apply (IH B R R'); [now injection HL|exact E0]. }
  apply HA in X; [|now rewrite !map_length, rev_length].
  assert (HN : NoDup (map cd_name key)).
  { destruct Hc as [_ [_ [_ [_ [_ [Hd _]]]]]]. specialize (Hd (td_id t)). rewrite HE, map_app in Hd. clear - Hd. induction (map cd_name key) as [|x l IH]; [constructor|].
    cbn [app] in Hd. inversion Hd as [|? ? N1 N2]; subst. constructor; [|now apply IH]. intro Hin. apply N1. apply in_or_app. now left. }
  apply (f_equal (map c_name)) in X. rewrite !map_map in X. assert (X2 : rev (map cd_name key) = map cd_name key) by (rewrite <- map_rev; exact X). clear X. rename X2 into X.
  revert HN X H2. rewrite <- (map_length cd_name). generalize (map cd_name key) as l. clear. intros [|a l] HN X H2; [cbn in H2; lia|].
  destruct l as [|b l] using rev_ind; [cbn in H2; lia|]. change (rev (a :: l ++ [b])) with (rev (l ++ [b]) ++ [a]) in X. rewrite rev_app_distr in X. cbn [rev app] in X. injection X as X _. subst b.
  inversion HN as [|? ? N1 _]; subst. apply N1. apply in_or_app. right. now left.
Qed.
Print Assumptions C81_columns_refuted.
(** Exactly: the columns of a table with a key are right if and only if the
    key is the table's first column (or has no columns at all). *)
Lemma key_first_descriptors key cols : NoDup (map cd_name cols) -> incl key cols ->
  key_first (map cd_name key) (map descriptor cols) = map descriptor (key ++
    filter (fun c => negb (existsb (fun k => if list_eq_dec Z.eq_dec (cd_name k) (cd_name c) then true else false) key)) cols).
Proof.
  intros Hd Hi. unfold key_first. rewrite map_app. f_equal.
  - assert (X : forall k, In k cols -> filter (SpecDict.named (cd_name k)) (map descriptor cols) = [descriptor k]).
    { intros k Hk. clear Hi. induction cols as [|c cols IH]; [contradiction|]. cbn [map] in Hd. inversion Hd as [|? ? N1 N2]; subst. cbn [map filter].
      destruct (SpecDict.named (cd_name k) (descriptor c)) eqn:E.
      - apply named_eq in E. cbn [descriptor c_name] in E. assert (c = k) as ->.
        { destruct Hk as [Hk|Hk]; [exact Hk|]. exfalso. apply N1. rewrite E. now apply in_map. }
        f_equal. apply filter_none. intros x Hx. apply in_map_iff in Hx as [y [<- Hy]]. apply not_true_iff_false. rewrite named_eq. cbn [descriptor c_name]. intro Z. apply N1. rewrite <- Z. now apply in_map.
      - destruct Hk as [->|Hk]; [|now apply IH]. exfalso. apply not_true_iff_false in E. apply E. now apply named_eq. }
    clear Hd. induction key as [|k key IH]; [reflexivity|]. cbn [map flat_map]. rewrite (X k) by (apply Hi; now left). cbn [app]. f_equal. apply IH. intros y Hy. apply Hi. now right.
  - clear Hd Hi. induction cols as [|c cols IH]; [reflexivity|]. cbn [map filter].
    assert (Y : existsb (fun n => SpecDict.named n (descriptor c)) (map cd_name key) = existsb (fun k => if list_eq_dec Z.eq_dec (cd_name k) (cd_name c) then true else false) key).
    { clear. induction key as [|k key IH]; [reflexivity|]. cbn [map existsb]. rewrite IH. f_equal. destruct (list_eq_dec Z.eq_dec (cd_name k) (cd_name c)) as [E|E].
      - apply named_eq. now symmetry.
      - apply not_true_iff_false. rewrite named_eq. cbn [descriptor c_name]. congruence. }
    rewrite Y. destruct (negb _); cbn [map]; now rewrite IH.
Qed.
Theorem C81_exact_refuted : forall fuel rt pages d t key rest, stores_dictionary pages d -> consistent d -> (Z.to_nat 16384 < fuel)%nat ->
  In t (dd_tables d) -> has_key d (td_id t) key rest ->
  exists tm e, ParseDictPage fuel rt (Some (map IoBytes pages)) = ([], Ok (tm, None)) /\ mget tm (td_id t) = Some e
    /\ (t_columns e = with_key (td_id t) key rest <-> key = [] \/ exists k, key = [k] /\ columns_of d (td_id t) = k :: rest).
Proof.
  intros fuel rt pages d t key rest Hs Hc Hf Ht HK. destruct (dict_read fuel rt pages d Hs Hc Hf) as [tm [E HR]].
  destruct (represents_in d _ tm t Hc HR Ht) as [e [Hg HP]]. exists tm, e. split; [exact E|]. split; [exact Hg|].
  assert (Hnd : NoDup (map cd_name (columns_of d (td_id t)))) by apply Hc.
  pose proof HK as [i [Hi [Hp [Hk [Hin Hr]]]]]. pose proof (key_first_descriptors key (columns_of d (td_id t)) Hnd Hin) as KF. rewrite <- Hr in KF.
  pose proof HP as [e1 [cs [HL [Em HW]]]]. pose proof HL as [_ [_ [L3 _]]].
  pose proof (in_map (index_entry d) _ _ Hi) as Hx. pose proof (entries_one d (td_id t) Hc) as Ho.
  pose proof (one_weaken _ (fun x => is_primary (snd x)) _ (fun x H => or_introl H) Ho) as Ho1.
  pose proof Hi as Hi2. apply in_indexes in Hi2 as [Hi2 Ht2]. pose proof Hc as [_ [_ [_ [_ [_ [_ Hkey]]]]]]. destruct (Hkey i Hi2 Hp) as [K1 [K2 K3]]. rewrite Ht2 in K2.
  assert (EF : map fd_name (ix_fields (snd (index_entry d i))) = map cd_name key) by (cbn [index_entry snd ix_fields]; rewrite map_map, Hk; reflexivity).
  destruct (C55_exact_refuted (ix_fields (snd (index_entry d i))) (map descriptor (columns_of d (td_id t)))) as [r [Er [Lr Hiff]]].
  { rewrite map_map. exact Hnd. }
  { now rewrite EF, Hk. }
  { rewrite EF, Hk, map_map. exact K2. }
  rewrite (pk_one _ _ _ _ _ Ho1 Hx Hp Er) in Em. injection Em as <-. rewrite EF, KF in Hiff.
  assert (Hlen : id_nfields i = zlen key) by (rewrite K3; unfold zlen; f_equal; rewrite <- (map_length fd_column), <- Hk; apply map_length).
  assert (EC : t_columns e = firstn (List.length key) r ++ [internal_column (td_id t) "DB_TRX_ID" (zlen key) 6; internal_column (td_id t) "DB_ROLL_PTR" (zlen key + 1) 7] ++ skipn (List.length key) r).
  { destruct HW as [_ [_ [_ [_ [_ [HP2 _]]]]]]. cbn [with_columns t_indexes t_columns] in HP2. rewrite L3 in HP2. rewrite (HP2 _ _ Hx Hp). cbn [ix_nfields index_entry snd]. rewrite Hlen.
    unfold zlen. now rewrite Nat2Z.id. }
  assert (Lk : (List.length key <= List.length r)%nat).
  { rewrite Lr, map_length. rewrite <- (map_length cd_name key), <- (map_length cd_name (columns_of d (td_id t))). apply NoDup_incl_length; [now rewrite Hk|]. now apply incl_map. }
  assert (S1 : t_columns e = with_key (td_id t) key rest <-> r = map descriptor (key ++ rest)).
  { rewrite EC. unfold with_key. split.
    - intro X. assert (HA : forall (A B R R' : list Column), List.length A = List.length B -> A ++ R = B ++ R' -> A = B /\ R = R').
      { induction A as [|x A IH]; intros [|y B] R R' HL2; cbn; try discriminate; [now split|]. intro E0. injection E0 as -> E0. destruct (IH B R R') as [-> ->]; [now injection HL2|exact E0|now split]. }
      apply HA in X as [X1 X2]; [|rewrite firstn_length, map_length; lia]. apply app_inv_head in X2. rewrite map_app, <- X1, <- X2. symmetry. apply firstn_skipn.
    - intros ->. rewrite map_app. rewrite <- (map_length descriptor key), firstn_app, skipn_app, Nat.sub_diag, firstn_all, skipn_all. cbn [firstn skipn]. now rewrite app_nil_r. }
  rewrite S1, Hiff. cbn [index_entry snd ix_fields]. split.
  - intros [X|(f & k & l & X1 & X2 & X3)].
    + left. apply (f_equal (map fd_name)) in X. rewrite map_map in X. apply map_eq_nil with (f := cd_name). rewrite Hk. exact X.
    + right. apply (f_equal (map fd_name)) in X1. rewrite map_map in X1. change (map fd_column (fields_of d (id_id i)) = [fd_name f]) in X1. rewrite <- Hk in X1.
      destruct key as [|k0 [|? ?]]; try discriminate X1. cbn [map] in X1. injection X1 as X1. exists k0. split; [reflexivity|].
      destruct (columns_of d (td_id t)) as [|c cs] eqn:EX; [discriminate X2|]. cbn [map] in X2. injection X2 as X2 X4. subst k. cbn [descriptor c_name] in X3.
      cbn [map] in Hnd. inversion Hnd as [|? ? N1 N2]; subst.
      assert (c = k0) as ->. { destruct (Hin k0 (or_introl eq_refl)) as [Z|Z]; [exact Z|]. exfalso. apply N1. rewrite <- X3, <- X1. now apply in_map. }
      f_equal. cbn [filter existsb]. destruct (list_eq_dec Z.eq_dec (cd_name k0) (cd_name k0)); [|contradiction]. cbn [orb negb].
      symmetry. apply filter_all. intros x Hx2. cbn [existsb]. destruct (list_eq_dec Z.eq_dec (cd_name k0) (cd_name x)) as [Z|Z]; [|reflexivity]. exfalso. apply N1. rewrite Z. now apply in_map.
  - intros [->|(k & -> & X)].
    + left. destruct (fields_of d (id_id i)); [reflexivity|discriminate Hk].
    + right. destruct (fields_of d (id_id i)) as [|f [|? ?]] eqn:EX; try discriminate Hk. cbn [map] in Hk. injection Hk as Hk. exists (mkField (fd_position f) (fd_column f)), (descriptor k), (map descriptor rest).
      split; [reflexivity|]. split; [now rewrite X|]. cbn. now symmetry.
Qed.
Print Assumptions C81_exact_refuted.
(** Full statement: the columns of every table are in clustered index order.
    Proved: if the table has no primary key, or one made of its first column. *)
Theorem C81_columns_partial : forall fuel rt pages d, stores_dictionary pages d -> consistent d -> (Z.to_nat 16384 < fuel)%nat ->
  exists tm, ParseDictPage fuel rt (Some (map IoBytes pages)) = ([], Ok (tm, None)) /\ forall t, In t (dd_tables d) -> exists e, mget tm (td_id t) = Some e
    /\ (has_no_key d (td_id t) -> t_columns e = without_key (td_id t) (columns_of d (td_id t)))
    /\ (forall k rest, has_key d (td_id t) [k] rest -> columns_of d (td_id t) = k :: rest -> t_columns e = with_key (td_id t) [k] rest).
Proof.
  intros fuel rt pages d Hs Hc Hf. destruct (dict_read fuel rt pages d Hs Hc Hf) as [tm [E HR]]. exists tm. split; [exact E|]. intros t Ht.
  destruct (represents_in d _ tm t Hc HR Ht) as [e [Hg HP]]. exists e. split; [exact Hg|]. split.
  - now apply placed_generated.
  - intros k rest [i [Hi [Hp [Hk _]]]] HE. apply (placed_leading d t e [k] rest Hc HP HE). exists i. auto.
Qed.
Print Assumptions C81_columns_partial.

(** * A dictionary of five tables *)
Definition tables_fields (d : table_def) : list rstored :=
  [RBytes (td_name d); RBytes (repeat 0 6); RBytes (repeat 0 7); RBytes (be 8 (td_id d)); RBytes (be 4 2); RBytes (be 4 1); RBytes (repeat 0 8); RBytes (be 4 80);
   RNull []; RBytes (be 4 (td_space d))].
Definition columns_fields (d : column_def) : list rstored :=
  [RBytes (be 8 (cd_table d)); RBytes (be 4 (cd_pos d)); RBytes (repeat 0 6); RBytes (repeat 0 7); RBytes (cd_name d); RBytes (be 4 (cd_mtype d)); RBytes (be 4 (cd_prtype d));
   RBytes (be 4 (cd_len d)); RBytes (be 4 0)].
Definition indexes_fields (d : index_def) : list rstored :=
  [RBytes (be 8 (id_table d)); RBytes (be 8 (id_id d)); RBytes (repeat 0 6); RBytes (repeat 0 7); RBytes (id_name d); RBytes (be 4 (id_nfields d)); RBytes (be 4 (id_type d));
   RBytes (be 4 5); RBytes (be 4 3); RBytes (be 4 50)].
Definition fields_fields (d : field_def) : list rstored :=
  [RBytes (be 8 (fd_index d)); RBytes (be 4 (fd_position d)); RBytes (repeat 0 6); RBytes (repeat 0 7); RBytes (fd_column d)].
(** t(id INT, v VARCHAR, primary key (id)), p(a TINYINT, b SMALLINT, primary
    key (a, b)), n(x INT NULL), q(f INT, g INT, w VARCHAR, primary key
    (f, g)) and m(u INT, y INT, primary key (y)). *)
Definition c_id : column_def := mkColumnDef 21 0 (txt "id") 6 (256 + 3) 4.
Definition c_v : column_def := mkColumnDef 21 1 (txt "v") 12 15 60.
Definition c_a : column_def := mkColumnDef 22 0 (txt "a") 6 (256 + 1) 1.
Definition c_b : column_def := mkColumnDef 22 1 (txt "b") 6 (256 + 2) 2.
Definition c_x : column_def := mkColumnDef 23 0 (txt "x") 6 3 4.
Definition c_f : column_def := mkColumnDef 24 0 (txt "f") 6 (256 + 3) 4.
Definition c_g : column_def := mkColumnDef 24 1 (txt "g") 6 (256 + 3) 4.
Definition c_w : column_def := mkColumnDef 24 2 (txt "w") 12 15 60.
Definition c_u : column_def := mkColumnDef 25 0 (txt "u") 6 (256 + 3) 4.
Definition c_y : column_def := mkColumnDef 25 1 (txt "y") 6 (256 + 3) 4.
Definition dict3 : dictionary := mkDictionary
  [mkTableDef (txt "test/n") 23 7; mkTableDef (txt "test/p") 22 6; mkTableDef (txt "test/t") 21 5; mkTableDef (txt "test/q") 24 8; mkTableDef (txt "test/m") 25 9]
  [c_id; c_v; c_a; c_b; c_x; c_f; c_g; c_w; c_u; c_y]
  [mkIndexDef 21 40 (txt "PRIMARY") 1 3; mkIndexDef 22 41 (txt "PRIMARY") 2 3; mkIndexDef 23 42 (txt "GEN_CLUST_INDEX") 0 1;
   mkIndexDef 24 43 (txt "PRIMARY") 2 3; mkIndexDef 25 44 (txt "PRIMARY") 1 3]
  [mkFieldDef 40 0 (txt "id"); mkFieldDef 41 0 (txt "a"); mkFieldDef 41 1 (txt "b"); mkFieldDef 43 0 (txt "f"); mkFieldDef 43 1 (txt "g"); mkFieldDef 44 0 (txt "y")].
Definition pages3 : list (list Z) :=
  [sys_page 8 10 11 12; built false 8 17855 1 (map rrec (map tables_fields (dd_tables dict3))); built false 10 17855 2 (map rrec (map columns_fields (dd_columns dict3)));
   built false 11 17855 3 (map rrec (map indexes_fields (dd_indexes dict3))); built false 12 17855 4 (map rrec (map fields_fields (dd_fields dict3)))].
Lemma small_check fs : forallb (fun b => (0 <=? b) && (b <? 256)) (rbody fs) && (zlen (rbody fs) <? 128) = true -> small fs.
Proof.
  intro H. apply andb_true_iff in H as [H1 H2]. split; [|lia]. apply Forall_forall. intros x Hx. rewrite forallb_forall in H1. specialize (H1 x Hx). lia.
Qed.
Lemma small_checks fss : forallb (fun fs => forallb (fun b => (0 <=? b) && (b <? 256)) (rbody fs) && (zlen (rbody fs) <? 128)) fss = true -> Forall small fss.
Proof. intro H. apply Forall_forall. intros x Hx. rewrite forallb_forall in H. apply small_check. exact (H x Hx). Qed.
Lemma sys_image r1 r2 r3 r4 : page_image (sys_page r1 r2 r3 r4).
Proof.
  split.
  - unfold sys_page. change (@zlen) with (@len). rewrite !len_app, !len_be. unfold len. rewrite !repeat_length. lia.
  - unfold sys_page. repeat first [apply be_bytes | apply zeros | apply Forall_app; split].
Qed.
Lemma pages3_facts : exists p1 p2 p3 p4, pages3 = [sys_page 8 10 11 12; p1; p2; p3; p4]
  /\ Forall page_image pages3 /\ map page_number pages3 = [7; 8; 10; 11; 12] /\ map index_of pages3 = [8; 1; 2; 3; 4]
  /\ holds_records tables_record p1 (dd_tables dict3) /\ holds_records columns_record p2 (dd_columns dict3)
  /\ holds_records indexes_record p3 (dd_indexes dict3) /\ holds_records fields_record p4 (dd_fields dict3).
Proof.
  assert (S1 : Forall small (map tables_fields (dd_tables dict3))) by (apply small_checks; vm_compute; reflexivity).
  assert (S2 : Forall small (map columns_fields (dd_columns dict3))) by (apply small_checks; vm_compute; reflexivity).
  assert (S3 : Forall small (map indexes_fields (dd_indexes dict3))) by (apply small_checks; vm_compute; reflexivity).
  assert (S4 : Forall small (map fields_fields (dd_fields dict3))) by (apply small_checks; vm_compute; reflexivity).
  assert (F : forall fss, Forall small fss -> Forall fine (map rrec fss)) by (intros fss H; induction H; cbn [map]; constructor; [now apply rrec_fine|assumption]).
  assert (L1 : zlen (blocks false 125 (map rrec (map tables_fields (dd_tables dict3)))) <= 16000) by (vm_compute; discriminate).
  assert (L2 : zlen (blocks false 125 (map rrec (map columns_fields (dd_columns dict3)))) <= 16000) by (vm_compute; discriminate).
  assert (L3 : zlen (blocks false 125 (map rrec (map indexes_fields (dd_indexes dict3)))) <= 16000) by (vm_compute; discriminate).
  assert (L4 : zlen (blocks false 125 (map rrec (map fields_fields (dd_fields dict3)))) <= 16000) by (vm_compute; discriminate).
  destruct (built_page false 8 17855 1 _ (F _ S1) L1) as [[I1 _] [N1 [_ [X1 _]]]]; try lia.
  destruct (built_page false 10 17855 2 _ (F _ S2) L2) as [[I2 _] [N2 [_ [X2 _]]]]; try lia.
  destruct (built_page false 11 17855 3 _ (F _ S3) L3) as [[I3 _] [N3 [_ [X3 _]]]]; try lia.
  destruct (built_page false 12 17855 4 _ (F _ S4) L4) as [[I4 _] [N4 [_ [X4 _]]]]; try lia.
  do 4 eexists. split; [reflexivity|]. split; [unfold pages3; constructor; [apply sys_image|repeat (constructor; [assumption|]); constructor]|].
  split; [unfold pages3; cbn [map]; rewrite N1, N2, N3, N4; reflexivity|]. split; [unfold pages3; cbn [map]; rewrite X1, X2, X3, X4; reflexivity|].
  assert (M : forall {D} (record : D -> list (rstored -> Prop)) fields (defs : list D), (forall d, In d defs -> matches (record d) (fields d)) -> Forall2 (fun d fs => matches (record d) fs) defs (map fields defs)).
  { intros D record fields defs H. induction defs as [|d defs IH]; cbn [map]; constructor; [apply H; now left|apply IH; intros x Hx; apply H; now right]. }
  split; [|split; [|split]]; apply holds_built; try assumption; try lia; apply M; intros d Hd; cbn [dict3 dd_tables dd_columns dd_indexes dd_fields In] in Hd;
    repeat (destruct Hd as [<-|Hd]; [|]); try contradiction.
  1-5: match goal with |- matches _ ?f => exists f, [] end; split; [symmetry; apply app_nil_r|repeat (constructor; [first [exact I|reflexivity|split; [cbn; lia|reflexivity]]|]); constructor].
  1-10: match goal with |- matches _ ?f => exists f, [] end; split; [symmetry; apply app_nil_r|repeat (constructor; [first [exact I|reflexivity|split; [cbn; lia|reflexivity]]|]); constructor].
  1-5: match goal with |- matches _ (indexes_fields ?i) => exists (firstn 9 (indexes_fields i)), [RBytes (be 4 50)] end; split; [reflexivity|repeat (constructor; [first [exact I|reflexivity|split; [cbn; lia|reflexivity]]|]); constructor].
  1-6: match goal with |- matches _ ?f => exists f, [] end; split; [symmetry; apply app_nil_r|repeat (constructor; [first [exact I|reflexivity|split; [cbn; lia|reflexivity]]|]); constructor].
Qed.
Lemma pages3_stores : stores_dictionary pages3 dict3.
Proof.
  destruct pages3_facts as [p1 [p2 [p3 [p4 [E [Hi [Hn [Hx [H1 [H2 [H3 H4]]]]]]]]]]]. split; [exact Hi|].
  assert (Ef : firsts pages3 = pages3) by (apply distinct_firsts; rewrite Hn; repeat constructor; cbn; lia).
  exists 8, 10, 11, 12. rewrite Ef. rewrite E in *. cbn [map] in Hn, Hx. injection Hn as Hn1 Hn2 Hn3 Hn4. injection Hx as Hx1 Hx2 Hx3 Hx4.
  split; [reflexivity|].
  assert (X0 : index_of (sys_page 8 10 11 12) = 8) by reflexivity.
  unfold stored_tree. rewrite Ef. cbn [filter]. rewrite X0, Hx1, Hx2, Hx3, Hx4. cbn [Z.eqb Pos.eqb].
  assert (One : forall {D} (record : D -> list (rstored -> Prop)) key page defs, holds_records record page defs ->
    Forall2 (tree_page record key) [page] [defs] /\ List.concat [defs] = defs).
  { intros D record key page defs H. split; [constructor; [now apply leaf_page|constructor]|apply app_nil_r]. }
  split; [exists p1, [], [dd_tables dict3]; auto|]. split; [exists p2, [], [dd_columns dict3]; auto|].
  split; [exists p3, [], [dd_indexes dict3]; auto|exists p4, [], [dd_fields dict3]; auto].
Qed.
Lemma few {A} (P : A -> Prop) l : List.length l = 1%nat \/ l = [] -> at_most_one P l.
Proof.
  intros H l1 x l2 y l3 E _ _. apply (f_equal (@List.length A)) in E. rewrite app_length in E. cbn [List.length] in E. rewrite app_length in E. cbn [List.length] in E.
  destruct H as [H| ->]; [lia|cbn in E; lia].
Qed.
Ltac distinct := vm_compute; repeat (apply NoDup_cons; [intros H; repeat (destruct H as [H|H]; [discriminate H|]); exact H|]); apply NoDup_nil.
Lemma dict3_consistent : consistent dict3.
Proof.
  split; [distinct|]. split; [distinct|]. split; [|split; [|split; [|split]]].
  - intros t [<-|[<-|[<-|[<-|[<-|[]]]]]].
    + exists (txt "test"), (txt "n"). left. split; [reflexivity|]. split; cbn; lia.
    + exists (txt "test"), (txt "p"). left. split; [reflexivity|]. split; cbn; lia.
    + exists (txt "test"), (txt "t"). left. split; [reflexivity|]. split; cbn; lia.
    + exists (txt "test"), (txt "q"). left. split; [reflexivity|]. split; cbn; lia.
    + exists (txt "test"), (txt "m"). left. split; [reflexivity|]. split; cbn; lia.
  - intros i [<-|[<-|[<-|[<-|[<-|[]]]]]]; cbn; tauto.
  - intro id. apply few. unfold indexes_of. cbn [dict3 dd_indexes filter id_table].
    destruct (21 =? id) eqn:E1; destruct (22 =? id) eqn:E2; destruct (23 =? id) eqn:E3; destruct (24 =? id) eqn:E4; destruct (25 =? id) eqn:E5; try lia; solve [now left|now right].
  - intro id. unfold columns_of. cbn [dict3 dd_columns filter c_id c_v c_a c_b c_x c_f c_g c_w c_u c_y cd_table].
    destruct (21 =? id) eqn:E1; destruct (22 =? id) eqn:E2; destruct (23 =? id) eqn:E3; destruct (24 =? id) eqn:E4; destruct (25 =? id) eqn:E5; try lia; distinct.
  - intros i [<-|[<-|[<-|[<-|[<-|[]]]]]] Hp; [| |discriminate Hp| |]; (split; [distinct|]; split; [|reflexivity]); intros x Hx; vm_compute in Hx |- *; tauto.
Qed.
Example C81_case : stores_dictionary pages3 dict3 /\ consistent dict3 /\ has_key dict3 21 [c_id] [c_v] /\ columns_of dict3 21 = [c_id; c_v]
  /\ has_key dict3 22 [c_a; c_b] [] /\ columns_of dict3 22 = [c_a; c_b] ++ [] /\ has_no_key dict3 23 /\ columns_of dict3 23 = [c_x].
Proof.
  split; [apply pages3_stores|]. split; [apply dict3_consistent|]. split; [|split; [reflexivity|split; [|split; [reflexivity|split; [|reflexivity]]]]].
  - exists (mkIndexDef 21 40 (txt "PRIMARY") 1 3). split; [now left|]. split; [reflexivity|]. split; [reflexivity|]. split; [|reflexivity]. intros x [<-|[]]. now left.
  - exists (mkIndexDef 22 41 (txt "PRIMARY") 2 3). split; [now left|]. split; [reflexivity|]. split; [reflexivity|]. split; [|reflexivity]. intros x Hx. exact Hx.
  - exists (mkIndexDef 23 42 (txt "GEN_CLUST_INDEX") 0 1). split; [now left|reflexivity].
Qed.

(** C82 *)
Definition is_deleted (op : list Z) : bool := if list_eq_dec Z.eq_dec op (txt "RecoveryData") then true else false.
Lemma encodes_alike rt c c' v f : alike c c' -> encodes rt c v f -> encodes rt c' v f.
Proof.
  destruct c as [i p n m pr l], c' as [i' p' n' m' pr' l']. intros [E1 [E2 E3]]. cbn in E1, E2, E3. subst m' pr' l'. intro H.
  destruct H; [eapply enc_null|eapply enc_int|eapply enc_uint|eapply enc_year|eapply enc_date|eapply enc_time|eapply enc_datetime|eapply enc_float|eapply enc_double
    |eapply enc_bit|eapply enc_varchar|eapply enc_text|eapply enc_char|eapply enc_blob|eapply enc_fixbinary|eapply enc_varbinary]; eassumption.
Qed.
Definition alike_slot (s s' : slot) : Prop := match s, s' with Own n, Own n' => n = n' | User c, User c' => alike c c' | _, _ => False end.
Lemma layouts_alike ss ss' : Forall2 alike_slot ss ss' -> map slot_layout ss = map slot_layout ss'.
Proof.
  induction 1 as [|s s' ss ss' H _ IH]; [reflexivity|]. cbn [map]. f_equal; [|exact IH]. destruct s, s'; cbn in H; try contradiction; [now subst|].
  destruct H as [E1 [E2 E3]]. cbn [slot_layout]. unfold column_layout. now rewrite E1, E2, E3.
Qed.
Lemma rows_alike rt ss ss' vs fs : Forall2 alike_slot ss ss' -> row_encodes rt ss vs fs -> row_encodes rt ss' vs fs.
Proof.
  intros H HR. revert ss' H. induction HR as [|n ss vs b fs E _ IH|c ss v vs f fs He Hp _ IH]; intros ss' H; inversion H as [|s s' l l' Hs Hl]; subst; [constructor| |];
    destruct s' as [n'|c']; cbn in Hs; try contradiction; [rewrite <- Hs|]; constructor; auto. now apply (encodes_alike rt c).
Qed.
Lemma file_alike rt deleted ss ss' pages rows : Forall2 alike_slot ss ss' -> file_holds rt deleted ss pages rows -> file_holds rt deleted ss' pages rows.
Proof.
  intros H [Hi [cs [HC E]]]. split; [exact Hi|]. exists cs. split; [|exact E]. revert HC. apply forall2_impl. intros page vss [compact [offs [A [B C]]]].
  exists compact, offs. split; [exact A|]. split; [exact B|]. revert C. apply forall2_impl. intros off vs [U [fs [S [L R]]]]. split; [exact U|].
  exists fs. rewrite <- (layouts_alike ss ss' H). split; [exact S|]. split; [exact L|]. now apply (rows_alike rt ss).
Qed.
Lemma key_alike key rest : Forall2 alike key (rev key) -> Forall2 alike_slot (key_slots key rest) (key_slots (rev key) rest).
Proof.
  intro H. assert (R : forall l l', Forall2 alike l l' -> Forall2 alike_slot (map User l) (map User l')) by (induction 1; constructor; assumption).
  unfold key_slots. apply Forall2_app; [now apply R|]. constructor; [reflexivity|]. constructor; [reflexivity|]. apply R. induction rest; constructor; [now repeat split|assumption].
Qed.
(** The lines of the rows. *)
Lemma tool_said : forall fuel rt files op sys tfile d sys_pages t db tb ss pages rows,
  tool_input rt (is_deleted op) d sys_pages t db tb ss pages rows -> front_key d (td_id t) ->
  files sys = Some (map IoBytes sys_pages) -> files tfile = Some (map IoBytes pages) -> (Z.to_nat 16384 < fuel)%nat ->
  exists lines, FromDataFile fuel rt files op sys tfile db tb = (lines, Ok tt)
    /\ Forall2 (fun r line => said rt db tb (values (columns_of d (td_id t)) r) line) rows lines.
Proof.
  intros fuel rt files op sys tfile d sys_pages t db tb ss pages rows [Hs [Hc [Hnd [Ht [Hnm [Hdb [Hb1 [Hb2 [Hne [Hro [Hss HF]]]]]]]]]]] Hk F1 F2 Hfuel.
  assert (HL : forall lines, Forall2 (said rt db tb) (map (values (columns_of d (td_id t))) rows) lines ->
    Forall2 (fun r line => said rt db tb (values (columns_of d (td_id t)) r) line) rows lines).
  { clear. induction rows as [|r rows IH]; intros lines H; inversion H; subst; constructor; auto. }
  destruct Hk as [Hk|[key [rest [Hk [HE [Hkn Ha]]]]]].
  - assert (Es : ss = no_key_slots (columns_of d (td_id t))).
    { destruct Hss as [[_ ->]|[key [rest [Hkey _]]]]; [reflexivity|]. exfalso. exact (one_index d (td_id t) key rest Hc Hkey Hk). }
    rewrite Es, users_keyless in HF. destruct (tool_keyless_cut fuel rt files op sys tfile d sys_pages t db tb pages (map (values (columns_of d (td_id t))) rows)) as [lines [E H]]; try assumption; [now apply holds_cut|].
    exists lines. split; [exact E|]. now apply HL.
  - assert (Es : ss = key_slots key rest).
    { destruct Hss as [[Hno _]|[key' [rest' [Hkey ->]]]]; [exfalso; exact (one_index d (td_id t) key rest Hc Hk Hno)|].
      destruct (same_key d (td_id t) _ _ _ _ Hc Hkey Hk) as [-> ->]. reflexivity. }
    rewrite Es, users_keyed in HF. rewrite <- HE in HF. apply (file_alike rt _ _ _ _ _ (key_alike key rest Ha)) in HF.
    destruct (tool_leading_cut fuel rt files op sys tfile d sys_pages t db tb key rest pages (map (values (columns_of d (td_id t))) rows)) as [lines [E H]]; try assumption.
    + destruct Hk as [i [Hi [Hp [Hn _]]]]. exists i. auto.
    + now apply holds_cut.
    + exists lines. split; [exact E|]. now apply HL.
Qed.
(** Full statement: for every table of [tool_input].  Proved: for tables
    without a primary key, or with one in front whose column types read the
    same from both ends ([front_key]). *)
Theorem C82_statements_partial : forall fuel rt files op sys tfile d sys_pages t db tb ss pages rows,
  tool_input rt (is_deleted op) d sys_pages t db tb ss pages rows -> front_key d (td_id t) ->
  files sys = Some (map IoBytes sys_pages) -> files tfile = Some (map IoBytes pages) -> (Z.to_nat 16384 < fuel)%nat ->
  exists lines, FromDataFile fuel rt files op sys tfile db tb = (lines, Ok tt)
    /\ Forall2 (fun r line => read_replace line = Some (db, tb, values (columns_of d (td_id t)) r)) rows lines.
Proof.
  intros fuel rt files op sys tfile d sys_pages t db tb ss pages rows HI Hk F1 F2 Hfuel.
  destruct (tool_said fuel rt files op sys tfile d sys_pages t db tb ss pages rows HI Hk F1 F2 Hfuel) as [lines [E H]]. exists lines. split; [exact E|].
  destruct HI as [_ [_ [_ [_ [_ [_ [Hb1 [Hb2 _]]]]]]]]. revert H. apply forall2_impl. intros r line [row [row' [H1 [H2 [H3 ->]]]]]. now apply (shown_reads rt db tb row).
Qed.
Print Assumptions C82_statements_partial.
(** False for a key of one column that is not the first: even if the columns
    have one type, every row is printed with the value of the key moved to the
    front. *)
Lemma placed_moved d t e a before k after : consistent d -> placed d t e -> columns_of d (td_id t) = a :: before ++ k :: after ->
  (exists i, In i (indexes_of d (td_id t)) /\ primary i /\ map cd_name [k] = map fd_column (fields_of d (id_id i))) ->
  t_columns e = map descriptor [k] ++ [internal_column (td_id t) "DB_TRX_ID" 1 6; internal_column (td_id t) "DB_ROLL_PTR" 2 7] ++ map descriptor (before ++ k :: after).
Proof.
  intros Hc [e1 [cs [HL [Em HW]]]] HE [i [Hi [Hp HK]]]. pose proof HL as [_ [_ [L3 _]]].
  pose proof (in_map (index_entry d) _ _ Hi) as Hx. pose proof (entries_one d (td_id t) Hc) as Ho.
  pose proof (one_weaken _ (fun x => is_primary (snd x)) _ (fun x H => or_introl H) Ho) as Ho1.
  cbn [map] in HK. destruct (fields_of d (id_id i)) as [|f [|f2 fs]] eqn:Ef; cbn [map] in HK; try discriminate HK. injection HK as HK.
  assert (Nk : forall c, In c (a :: before ++ after) -> cd_name c <> cd_name k).
  { destruct Hc as [_ [_ [_ [_ [_ [Hnd _]]]]]]. specialize (Hnd (td_id t)). rewrite HE in Hnd. change (a :: before ++ k :: after) with ((a :: before) ++ k :: after) in Hnd. rewrite map_app in Hnd. change (map cd_name (k :: after)) with (cd_name k :: map cd_name after) in Hnd.
    apply NoDup_remove_2 in Hnd. intros c Hin Heq. apply Hnd. rewrite <- Heq, <- map_app. exact (in_map cd_name _ _ Hin). }
  assert (MS : moveColumns2First (ix_fields (snd (index_entry d i))) (map descriptor (columns_of d (td_id t))) = Ok (map descriptor (k :: before ++ k :: after))).
  { cbn [index_entry snd ix_fields]. rewrite Ef, HE. cbn [map]. rewrite !map_app. cbn [map]. apply move_single; [cbn; now symmetry|].
    intros c Hin. rewrite <- map_app in Hin. change (descriptor a :: map descriptor (before ++ after)) with (map descriptor (a :: before ++ after)) in Hin. apply in_map_iff in Hin as [c0 [<- Hin]]. exact (Nk c0 Hin). }
  rewrite (pk_one _ _ _ _ _ Ho1 Hx Hp MS) in Em. injection Em as <-.
  destruct HW as [_ [_ [_ [_ [_ [HP _]]]]]]. cbn [with_columns t_indexes t_columns] in HP. rewrite L3 in HP.
  rewrite (HP _ _ Hx Hp). cbn [ix_nfields index_entry snd]. apply in_indexes in Hi as [Hi Ht]. destruct (key_fits d i Hc Hi Hp) as [_ Hn].
  rewrite Hn, Ef. reflexivity.
Qed.
Theorem C82_moved_refuted : forall fuel rt files op sys tfile d sys_pages t db tb ss pages rows a before k after,
  tool_input rt (is_deleted op) d sys_pages t db tb ss pages rows ->
  has_key d (td_id t) [k] (a :: before ++ after) -> columns_of d (td_id t) = a :: before ++ k :: after -> Forall2 alike (a :: before ++ after) (before ++ k :: after) ->
  files sys = Some (map IoBytes sys_pages) -> files tfile = Some (map IoBytes pages) -> (Z.to_nat 16384 < fuel)%nat ->
  exists lines, FromDataFile fuel rt files op sys tfile db tb = (lines, Ok tt)
    /\ Forall2 (fun r line => read_replace line = Some (db, tb, values (k :: a :: before ++ after) r)
                 /\ (r (cd_name a) <> r (cd_name k) -> read_replace line <> Some (db, tb, values (columns_of d (td_id t)) r))) rows lines.
Proof.
  intros fuel rt files op sys tfile d sys_pages t db tb ss pages rows a before k after [Hs [Hc [Hnd [Ht [Hnm [Hdb [Hb1 [Hb2 [Hne [Hro [Hss HF]]]]]]]]]]] Hk HE Ha F1 F2 Hfuel.
  assert (Es : ss = key_slots [k] (a :: before ++ after)).
  { destruct Hss as [[Hno _]|[key' [rest' [Hkey ->]]]]; [exfalso; exact (one_index d (td_id t) _ _ Hc Hk Hno)|]. destruct (same_key d (td_id t) _ _ _ _ Hc Hkey Hk) as [-> ->]. reflexivity. }
  rewrite Es, users_keyed in HF. set (ss' := key_slots [k] (before ++ k :: after)).
  assert (HA : Forall2 alike_slot (key_slots [k] (a :: before ++ after)) ss').
  { unfold ss', key_slots. constructor; [now repeat split|]. constructor; [reflexivity|]. constructor; [reflexivity|]. change (app [] (map User ?x)) with (map User x). clear - Ha. cbn [app]. induction Ha; constructor; assumption. }
  pose proof (layouts_alike _ _ HA) as HLy. apply (file_alike rt _ _ _ _ _ HA) in HF.
  destruct (dict_read fuel rt sys_pages d Hs Hc Hfuel) as [tm [Hd HR]]. destruct (represents_in d _ tm t Hc HR Ht) as [e [Hg HP]].
  assert (Hix : exists i, In i (indexes_of d (td_id t)) /\ primary i /\ map cd_name [k] = map fd_column (fields_of d (id_id i))) by (destruct Hk as [i [Hi [Hp [Hn _]]]]; exists i; auto).
  pose proof (placed_moved d t e a before k after Hc HP HE Hix) as Ec. pose proof (table_ids d (td_id t)) as Hids. rewrite HE in Hro, Hids.
  assert (Hmap : forall cs, Forall (fun c => cd_table c = td_id t) cs -> Forall (fun c => c_table c = td_id t) (map descriptor cs)) by (intros cs H; apply Forall_map; exact H).
  assert (Hk1 : forall P : column_def -> Prop, Forall P (a :: before ++ k :: after) -> Forall P [k] /\ Forall P (before ++ k :: after)).
  { intros P H. inversion H as [|? ? _ H2]; subst. split; [|exact H2]. apply Forall_app in H2 as [_ H2]. inversion H2; subst. constructor; [assumption|constructor]. }
  destruct (tool_with fuel rt files op sys tfile d sys_pages t e db tb ss' pages (map (values ([k] ++ a :: before ++ after)) rows) tm) as [lines [E H]]; try assumption; try rewrite Ec.
  - apply leading_slots; now apply Hk1.
  - apply Forall_app. split; [apply Hmap; now apply Hk1|]. constructor; [reflexivity|]. constructor; [reflexivity|]. apply Hmap. now apply Hk1.
  - rewrite <- HLy, HE. unfold key_slots. rewrite !map_app, !nullable_app. change (map User ?x) with (map User x). rewrite !nullable_users. change (nullable_count (map slot_layout [Own 6; Own 7])) with 0.
    change (a :: before ++ k :: after) with ((a :: before) ++ [k] ++ after). change (a :: before ++ after) with ((a :: before) ++ after). rewrite !filter_app. unfold zlen. rewrite !app_length. lia.
  - rewrite !app_length. cbn [List.length map]. lia.
  - exists k. now left.
  - exists lines. split; [exact E|]. clear - H HE. revert lines H. induction rows as [|r rows IH]; intros lines H; inversion H as [|? line ? lines' H1 H2]; subst; constructor; [|now apply IH].
    split; [exact H1|]. intros Hd X. rewrite H1 in X. rewrite HE in X. injection X as X _. now apply Hd.
Qed.
Print Assumptions C82_moved_refuted.
(** A page of t and one of p. *)
Definition row_t1 : row := fun n => if list_eq_dec Z.eq_dec n (txt "id") then SStr (txt "1") else SStr (txt "abc").
Definition row_t2 : row := fun n => if list_eq_dec Z.eq_dec n (txt "id") then SStr (txt "-2") else SNull.
Definition stored_t1 : list stored := [FBytes (store_int 4 1); FBytes (be 6 300); FBytes (be 7 5); FBytes (txt "abc")].
Definition stored_t2 : list stored := [FBytes (store_int 4 (-2)); FBytes (be 6 300); FBytes (be 7 6); FNull].
Definition page_t : list Z := built true 3 17855 40 (map (crec (map slot_layout (key_slots [c_id] [c_v]))) [stored_t1; stored_t2]).
Definition row_p : row := fun n => if list_eq_dec Z.eq_dec n (txt "a") then SStr (txt "1") else SStr (txt "258").
Definition stored_p : list stored := [FBytes (store_int 1 1); FBytes (store_int 2 258); FBytes (be 6 300); FBytes (be 7 5)].
Definition page_p : list Z := built true 3 17855 41 (map (crec (map slot_layout (key_slots [c_a; c_b] []))) [stored_p]).
Lemma built_alone number id rs : Forall fine rs -> zlen (blocks true 125 rs) <= 16000 -> 0 <= number < 2 ^ 32 -> 0 <= id < 2 ^ 64 ->
  Forall page_image [built true number 17855 id rs] /\ filter (eligible false) (firsts [built true number 17855 id rs]) = [built true number 17855 id rs].
Proof.
  intros Hf Hl H1 H2. destruct (built_page true number 17855 id rs Hf Hl) as [[Hi _] [_ [K [_ [F1 [F2 _]]]]]]; try lia. split; [constructor; [exact Hi|constructor]|].
  cbn [firsts firsts_rev rev app existsb filter]. unfold eligible. rewrite K, F1, F2. reflexivity.
Qed.
Lemma fine_check rs : forallb (fun r => forallb (fun b => (0 <=? b) && (b <? 256)) (low r) && forallb (fun b => (0 <=? b) && (b <? 256)) (high r)) rs = true -> Forall fine rs.
Proof.
  intro H. apply Forall_forall. intros r Hr. rewrite forallb_forall in H. specialize (H r Hr). apply andb_true_iff in H as [A B]. rewrite forallb_forall in A, B.
  split; apply Forall_forall; intros x Hx; [specialize (A x Hx)|specialize (B x Hx)]; lia.
Qed.
Lemma shown_text t : forallb (fun b => (0 <=? b) && (b <? 256)) t = true -> t <> txt "NULL" -> t <> txt "0001-01-01T00:00:00Z" -> printable (SStr t).
Proof. intros H N1 N2. split; [|split; assumption]. apply Forall_forall. intros x Hx. rewrite forallb_forall in H. specialize (H x Hx). lia. Qed.
Ltac plain_text := apply shown_text; [reflexivity|discriminate|discriminate].
Ltac number := match goal with |- int_text ?n _ => exact (fmt_d_spec n) end.
Lemma page_t_holds rt : file_holds rt false (key_slots [c_id] [c_v]) [page_t] (map (values (users (key_slots [c_id] [c_v]))) [row_t1; row_t2]).
Proof.
  assert (Hf : Forall fine (map (crec (map slot_layout (key_slots [c_id] [c_v]))) [stored_t1; stored_t2])) by (apply fine_check; vm_compute; reflexivity).
  assert (Hl : zlen (blocks true 125 (map (crec (map slot_layout (key_slots [c_id] [c_v]))) [stored_t1; stored_t2])) <= 16000) by (vm_compute; discriminate).
  destruct (built_alone 3 40 _ Hf Hl) as [Hi He]; try lia. split; [exact Hi|]. fold page_t in He. rewrite He.
  exists [map (values (users (key_slots [c_id] [c_v]))) [row_t1; row_t2]]. split; [|apply app_nil_r]. constructor; [|constructor].
  apply page_built; try assumption; try lia. constructor; [|constructor; [|constructor]]; (split; [repeat (constructor; [vm_compute; reflexivity|]); constructor|]).
  - change (row_encodes rt [User c_id; Own 6; Own 7; User c_v] [SStr (txt "1"); SStr (txt "abc")] stored_t1). unfold stored_t1. constructor; [|plain_text|].
    + apply enc_int; try reflexivity; try (cbn; lia). number.
    + constructor; [reflexivity|]. constructor; [reflexivity|]. constructor; [|plain_text|constructor]. apply enc_varchar; reflexivity || (intros _; reflexivity).
  - change (row_encodes rt [User c_id; Own 6; Own 7; User c_v] [SStr (txt "-2"); SNull] stored_t2). unfold stored_t2. constructor; [|plain_text|].
    + apply enc_int; try reflexivity; try (cbn; lia). number.
    + constructor; [reflexivity|]. constructor; [reflexivity|]. constructor; [|exact I|constructor]. apply enc_null; [reflexivity|discriminate].
Qed.
Lemma page_p_holds rt : file_holds rt false (key_slots [c_a; c_b] []) [page_p] (map (values (users (key_slots [c_a; c_b] []))) [row_p])
  /\ file_holds rt false (key_slots (rev [c_a; c_b]) []) [page_p] [[SStr (txt "385"); SStr (txt "-126")]].
Proof.
  assert (Hf : Forall fine (map (crec (map slot_layout (key_slots [c_a; c_b] []))) [stored_p])) by (apply fine_check; vm_compute; reflexivity).
  assert (Hl : zlen (blocks true 125 (map (crec (map slot_layout (key_slots [c_a; c_b] []))) [stored_p])) <= 16000) by (vm_compute; discriminate).
  destruct (built_alone 3 41 _ Hf Hl) as [Hi He]; try lia. fold page_p in He, Hi. split; (split; [exact Hi|]); rewrite He.
  - exists [map (values (users (key_slots [c_a; c_b] []))) [row_p]]. split; [|apply app_nil_r]. constructor; [|constructor].
    apply page_built; try assumption; try lia. constructor; [|constructor]; (split; [repeat (constructor; [vm_compute; reflexivity|]); constructor|]).
    change (row_encodes rt [User c_a; User c_b; Own 6; Own 7] [SStr (txt "1"); SStr (txt "258")] stored_p). unfold stored_p. constructor; [|plain_text|].
    + apply enc_int; try reflexivity; try (cbn; lia). number.
    + constructor; [|plain_text|]; [apply enc_int; try reflexivity; try (cbn; lia); number|]. constructor; [reflexivity|]. constructor; [reflexivity|constructor].
  - exists [[[SStr (txt "385"); SStr (txt "-126")]]]. split; [|reflexivity]. constructor; [|constructor].
    set (fs := [FBytes (store_int 2 385); FBytes (store_int 1 (-126)); FBytes (be 6 300); FBytes (be 7 5)]).
    assert (EP : page_p = built true 3 17855 41 (map (crec (map slot_layout (key_slots (rev [c_a; c_b]) []))) [fs])) by reflexivity.
    rewrite EP. apply page_built; try lia; [|apply fine_check; vm_compute; reflexivity|vm_compute; discriminate].
    constructor; [|constructor]; (split; [repeat (constructor; [vm_compute; reflexivity|]); constructor|]).
    change (row_encodes rt [User c_b; User c_a; Own 6; Own 7] [SStr (txt "385"); SStr (txt "-126")] fs). unfold fs. constructor; [|plain_text|].
    + apply enc_int; try reflexivity; try (cbn; lia). number.
    + constructor; [|plain_text|]; [apply enc_int; try reflexivity; try (cbn; lia); number|]. constructor; [reflexivity|]. constructor; [reflexivity|constructor].
Qed.
Lemma composite_wrong rt op : op <> txt "RecoveryData" ->
  tool_input rt (is_deleted op) dict3 pages3 (mkTableDef (txt "test/p") 22 6) (txt "test") (txt "p") (key_slots [c_a; c_b] []) [page_p] [row_p]
  /\ forall fuel files sys tfile, files sys = Some (map IoBytes pages3) -> files tfile = Some (map IoBytes [page_p]) -> (Z.to_nat 16384 < fuel)%nat ->
     exists line, FromDataFile fuel rt files op sys tfile (txt "test") (txt "p") = ([line], Ok tt)
       /\ read_replace line = Some (txt "test", txt "p", [SStr (txt "385"); SStr (txt "-126")])
       /\ map (values (columns_of dict3 22)) [row_p] = [[SStr (txt "1"); SStr (txt "258")]].
Proof.
  intros Hop. assert (Ed : is_deleted op = false) by (unfold is_deleted; destruct (list_eq_dec Z.eq_dec op (txt "RecoveryData")); [contradiction|reflexivity]).
  rewrite Ed.
  destruct (page_p_holds rt) as [HF HB]. destruct C81_case as [_ [_ [_ [_ [Hkey [HE _]]]]]].
  assert (Hnm : named_as (txt "test/p") (txt "test") (txt "p")) by (left; split; [reflexivity|]; split; cbn; lia).
  assert (Hro : Forall (fun c => ordinary c /\ readable_column c) (columns_of dict3 22)).
  { change (columns_of dict3 22) with [c_a; c_b]. constructor; [|constructor; [|constructor]]; (split; [intro H; cbn in H; repeat (destruct H as [H|H]; [discriminate H|]); exact H|left; cbn; tauto]). }
  assert (Hnd : NoDup (map td_name (dd_tables dict3))) by distinct.
  assert (Ht : In (mkTableDef (txt "test/p") 22 6) (dd_tables dict3)) by (right; now left).
  assert (Nd : ~ In 96 (txt "test")) by (cbn; lia). assert (Nt : ~ In 96 (txt "p")) by (cbn; lia).
  split.
  - repeat (split; [first [exact pages3_stores|exact dict3_consistent|exact Hnd|exact Ht|exact Hnm|exact Nd|exact Nt|discriminate|exact Hro]|]).
    split; [right; exists [c_a; c_b], []; split; [exact Hkey|reflexivity]|exact HF].
  - intros fuel files sys tfile F1 F2 Hfuel.
    destruct (tool_leading fuel rt files op sys tfile dict3 pages3 (mkTableDef (txt "test/p") 22 6) (txt "test") (txt "p") [c_a; c_b] [] [page_p] [[SStr (txt "385"); SStr (txt "-126")]]) as [lines [E H]];
      try first [exact pages3_stores|exact dict3_consistent|assumption|discriminate|exact HE].
    + destruct Hkey as [i [Hi [Hp [Hk _]]]]. exists i. auto.
    + change (if list_eq_dec Z.eq_dec op (txt "RecoveryData") then true else false) with (is_deleted op). rewrite Ed. exact HB.
    + inversion H as [|? line ? ? HL HN]; subst. inversion HN; subst. exists line. split; [exact E|]. split; [exact HL|reflexivity].
Qed.
(** ... and the claim is false: of a table with a key of several columns the
    tool prints rows it does not hold. *)
Theorem C82_statements_refuted : forall rt op, op <> txt "RecoveryData" ->
  exists d sys_pages t db tb ss pages rows, tool_input rt (is_deleted op) d sys_pages t db tb ss pages rows
  /\ forall fuel files sys tfile, files sys = Some (map IoBytes sys_pages) -> files tfile = Some (map IoBytes pages) -> (Z.to_nat 16384 < fuel)%nat ->
     exists line, FromDataFile fuel rt files op sys tfile db tb = ([line], Ok tt)
       /\ read_replace line = Some (db, tb, [SStr (txt "385"); SStr (txt "-126")])
       /\ map (values (columns_of d (td_id t))) rows = [[SStr (txt "1"); SStr (txt "258")]].
Proof.
  intros rt op Hop. exists dict3, pages3, (mkTableDef (txt "test/p") 22 6), (txt "test"), (txt "p"), (key_slots [c_a; c_b] []), [page_p], [row_p]. exact (composite_wrong rt op Hop).
Qed.
Print Assumptions C82_statements_refuted.
(** Rows of q and m. *)
Definition row_q : row := fun n => if list_eq_dec Z.eq_dec n (txt "f") then SStr (txt "1") else if list_eq_dec Z.eq_dec n (txt "g") then SStr (txt "258") else SStr (txt "abc").
Definition stored_q : list stored := [FBytes (store_int 4 1); FBytes (store_int 4 258); FBytes (be 6 300); FBytes (be 7 5); FBytes (txt "abc")].
Definition page_q : list Z := built true 3 17855 43 (map (crec (map slot_layout (key_slots [c_f; c_g] [c_w]))) [stored_q]).
Definition row_m : row := fun n => if list_eq_dec Z.eq_dec n (txt "u") then SStr (txt "1") else SStr (txt "258").
Definition stored_m : list stored := [FBytes (store_int 4 258); FBytes (be 6 300); FBytes (be 7 5); FBytes (store_int 4 1)].
Definition page_m : list Z := built true 3 17855 44 (map (crec (map slot_layout (key_slots [c_y] [c_u]))) [stored_m]).
Lemma page_q_holds rt : file_holds rt false (key_slots [c_f; c_g] [c_w]) [page_q] (map (values (users (key_slots [c_f; c_g] [c_w]))) [row_q]).
Proof.
  assert (Hf : Forall fine (map (crec (map slot_layout (key_slots [c_f; c_g] [c_w]))) [stored_q])) by (apply fine_check; vm_compute; reflexivity).
  assert (Hl : zlen (blocks true 125 (map (crec (map slot_layout (key_slots [c_f; c_g] [c_w]))) [stored_q])) <= 16000) by (vm_compute; discriminate).
  destruct (built_alone 3 43 _ Hf Hl) as [Hi He]; try lia. split; [exact Hi|]. fold page_q in He. rewrite He.
  exists [map (values (users (key_slots [c_f; c_g] [c_w]))) [row_q]]. split; [|apply app_nil_r]. constructor; [|constructor].
  apply page_built; try assumption; try lia. constructor; [|constructor]; (split; [repeat (constructor; [vm_compute; reflexivity|]); constructor|]).
  change (row_encodes rt [User c_f; User c_g; Own 6; Own 7; User c_w] [SStr (txt "1"); SStr (txt "258"); SStr (txt "abc")] stored_q). unfold stored_q. constructor; [|plain_text|].
  - apply enc_int; try reflexivity; try (cbn; lia). number.
  - constructor; [|plain_text|]; [apply enc_int; try reflexivity; try (cbn; lia); number|]. constructor; [reflexivity|]. constructor; [reflexivity|].
    constructor; [|plain_text|constructor]. apply enc_varchar; reflexivity || (intros _; reflexivity).
Qed.
Lemma page_m_holds rt : file_holds rt false (key_slots [c_y] [c_u]) [page_m] (map (values (users (key_slots [c_y] [c_u]))) [row_m]).
Proof.
  assert (Hf : Forall fine (map (crec (map slot_layout (key_slots [c_y] [c_u]))) [stored_m])) by (apply fine_check; vm_compute; reflexivity).
  assert (Hl : zlen (blocks true 125 (map (crec (map slot_layout (key_slots [c_y] [c_u]))) [stored_m])) <= 16000) by (vm_compute; discriminate).
  destruct (built_alone 3 44 _ Hf Hl) as [Hi He]; try lia. split; [exact Hi|]. fold page_m in He. rewrite He.
  exists [map (values (users (key_slots [c_y] [c_u]))) [row_m]]. split; [|apply app_nil_r]. constructor; [|constructor].
  apply page_built; try assumption; try lia. constructor; [|constructor]; (split; [repeat (constructor; [vm_compute; reflexivity|]); constructor|]).
  change (row_encodes rt [User c_y; Own 6; Own 7; User c_u] [SStr (txt "258"); SStr (txt "1")] stored_m). unfold stored_m. constructor; [|plain_text|].
  - apply enc_int; try reflexivity; try (cbn; lia). number.
  - constructor; [reflexivity|]. constructor; [reflexivity|]. constructor; [|plain_text|constructor]. apply enc_int; try reflexivity; try (cbn; lia); number.
Qed.
Ltac ordinary_columns := repeat (apply Forall_cons; [split; [let H := fresh in intro H; cbn in H; repeat (destruct H as [H|H]; [discriminate H|]); exact H|first [left; cbn; tauto|do 4 right; left; split; reflexivity]]|]); apply Forall_nil.
Example C82_case : forall rt, tool_input rt (is_deleted (txt "PrintData")) dict3 pages3 (mkTableDef (txt "test/t") 21 5) (txt "test") (txt "t") (key_slots [c_id] [c_v]) [page_t] [row_t1; row_t2]
  /\ front_key dict3 21.
Proof.
  intro rt. destruct C81_case as [_ [_ [Hkey [HE _]]]]. split; [|right; exists [c_id], [c_v]; split; [exact Hkey|]; split; [exact HE|]; split; [discriminate|]; constructor; [now repeat split|constructor]].
  change (is_deleted (txt "PrintData")) with false.
  split; [exact pages3_stores|]. split; [exact dict3_consistent|]. split; [distinct|]. split; [do 2 right; now left|].
  split; [left; split; [reflexivity|split; cbn; lia]|]. split; [discriminate|]. split; [cbn; lia|]. split; [cbn; lia|]. split; [discriminate|].
  split; [|split; [right; exists [c_id], [c_v]; split; [exact Hkey|reflexivity]|exact (page_t_holds rt)]].
  change (columns_of dict3 (td_id (mkTableDef (txt "test/t") 21 5))) with [c_id; c_v]. ordinary_columns.
Qed.
(** A key of two columns of one type, and one that is not in front. *)
Lemma key_q : has_key dict3 24 [c_f; c_g] [c_w].
Proof. exists (mkIndexDef 24 43 (txt "PRIMARY") 2 3). split; [now left|]. split; [reflexivity|]. split; [reflexivity|]. split; [|reflexivity]. intros x [<-|[<-|[]]]; cbn; tauto. Qed.
Lemma key_m : has_key dict3 25 [c_y] [c_u].
Proof. exists (mkIndexDef 25 44 (txt "PRIMARY") 1 3). split; [now left|]. split; [reflexivity|]. split; [reflexivity|]. split; [|reflexivity]. intros x [<-|[]]; cbn; tauto. Qed.
Example C82_case2 : forall rt,
  tool_input rt (is_deleted (txt "PrintData")) dict3 pages3 (mkTableDef (txt "test/q") 24 8) (txt "test") (txt "q") (key_slots [c_f; c_g] [c_w]) [page_q] [row_q]
  /\ front_key dict3 24
  /\ tool_input rt (is_deleted (txt "PrintData")) dict3 pages3 (mkTableDef (txt "test/m") 25 9) (txt "test") (txt "m") (key_slots [c_y] [c_u]) [page_m] [row_m]
  /\ has_key dict3 25 [c_y] (c_u :: [] ++ []) /\ columns_of dict3 25 = c_u :: [] ++ c_y :: [] /\ Forall2 alike (c_u :: [] ++ []) ([] ++ c_y :: []).
Proof.
  intro rt. change (is_deleted (txt "PrintData")) with false. split; [|split; [|split; [|split; [exact key_m|split; [reflexivity|constructor; [now repeat split|constructor]]]]]].
  - split; [exact pages3_stores|]. split; [exact dict3_consistent|]. split; [distinct|]. split; [do 3 right; now left|].
    split; [left; split; [reflexivity|split; cbn; lia]|]. split; [discriminate|]. split; [cbn; lia|]. split; [cbn; lia|]. split; [discriminate|].
    split; [|split; [right; exists [c_f; c_g], [c_w]; split; [exact key_q|reflexivity]|exact (page_q_holds rt)]].
    change (columns_of dict3 (td_id (mkTableDef (txt "test/q") 24 8))) with [c_f; c_g; c_w]. ordinary_columns.
  - right. exists [c_f; c_g], [c_w]. split; [exact key_q|]. split; [reflexivity|]. split; [discriminate|]. repeat (constructor; [now repeat split|]); constructor.
  - split; [exact pages3_stores|]. split; [exact dict3_consistent|]. split; [distinct|]. split; [do 4 right; now left|].
    split; [left; split; [reflexivity|split; cbn; lia]|]. split; [discriminate|]. split; [cbn; lia|]. split; [cbn; lia|]. split; [discriminate|].
    split; [|split; [right; exists [c_y], [c_u]; split; [exact key_m|reflexivity]|exact (page_m_holds rt)]].
    change (columns_of dict3 (td_id (mkTableDef (txt "test/m") 25 9))) with [c_u; c_y]. ordinary_columns.
Qed.
