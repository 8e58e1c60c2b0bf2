(** Building the pages of a dictionary, for examples. *)
From Coq Require Import String ZifyBool.
From Verif Require Import GoBase Utils Ibdata SpecInno SpecText SpecSql SpecRecord SpecRow SpecPage SpecDict SpecTool PBase PWire PValue PRec PPage PFile PDict PBuild PTool PropDict PropTool.
Local Open Scope string_scope.
Local Open Scope list_scope.
Local Open Scope Z_scope.

Definition dict_pages (d : dictionary) : list (list Z) :=
  [sys_page 8 10 11 12; built false 8 17855 1 (map rrec (map tables_fields (dd_tables d))); built false 10 17855 2 (map rrec (map columns_fields (dd_columns d)));
   built false 11 17855 3 (map rrec (map indexes_fields (dd_indexes d))); built false 12 17855 4 (map rrec (map fields_fields (dd_fields d)))].
Definition within (k : nat) (n : Z) : bool := (0 <=? n) && (n <? 256 ^ Z.of_nat k).
Definition fits_dict (d : dictionary) : bool :=
  let small fss := forallb (fun fs => forallb (fun b => (0 <=? b) && (b <? 256)) (rbody fs) && (zlen (rbody fs) <? 128)) fss
                   && (zlen (blocks false 125 (map rrec fss)) <=? 16000) in
  small (map tables_fields (dd_tables d)) && small (map columns_fields (dd_columns d)) && small (map indexes_fields (dd_indexes d)) && small (map fields_fields (dd_fields d))
  && forallb (fun t => within 8 (td_id t) && within 4 (td_space t)) (dd_tables d)
  && forallb (fun c => within 8 (cd_table c) && within 4 (cd_pos c) && within 4 (cd_mtype c) && within 4 (cd_prtype c) && within 4 (cd_len c)) (dd_columns d)
  && forallb (fun i => within 8 (id_table i) && within 8 (id_id i) && within 4 (id_nfields i) && within 4 (id_type i)) (dd_indexes d)
  && forallb (fun f => within 8 (fd_index f) && within 4 (fd_position f)) (dd_fields d).
Lemma is_within k n : within k n = true -> is_num k n (RBytes (be k n)).
Proof. unfold within. intro H. split; [lia|reflexivity]. Qed.
Lemma is_wide_be k n : is_wide (Z.of_nat k) (RBytes (be k n)).
Proof. unfold is_wide. cbn [rcontent]. change (@zlen) with (@len). apply len_be. Qed.
Lemma all_match {D} (record : D -> list (rstored -> Prop)) fields (ok : D -> bool) defs : (forall d, ok d = true -> matches (record d) (fields d)) -> forallb ok defs = true ->
  Forall2 (fun d fs => matches (record d) fs) defs (map fields defs).
Proof.
  intros H E. induction defs as [|d defs IH]; cbn [map]; constructor; cbn [forallb] in E; apply andb_prop in E as [E1 E2]; [now apply H|now apply IH].
Qed.
Ltac one_by_one := repeat (constructor; [first [exact I|reflexivity|now apply is_within|now apply (is_wide_be 4)]|]); constructor.
Lemma dict_built d : fits_dict d = true -> stores_dictionary (dict_pages d) d.
Proof.
  intro H. unfold fits_dict in H. repeat (apply andb_prop in H as [H ?H]).
  repeat match goal with X : andb _ _ = true |- _ => apply andb_prop in X as [? ?] end.
  assert (F : forall fss, Forall small fss -> Forall fine (map rrec fss)) by (intros fss X; induction X; cbn [map]; constructor; [now apply rrec_fine|assumption]).
  repeat match goal with X : forallb (fun fs => _ && (zlen _ <? 128)) _ = true |- _ => apply small_checks in X end.
  repeat match goal with X : (zlen _ <=? 16000) = true |- _ => apply Z.leb_le in X end.
  assert (S1 : Forall small (map tables_fields (dd_tables d))) by assumption. assert (S2 : Forall small (map columns_fields (dd_columns d))) by assumption.
  assert (S3 : Forall small (map indexes_fields (dd_indexes d))) by assumption. assert (S4 : Forall small (map fields_fields (dd_fields d))) by assumption.
  assert (L1 : zlen (blocks false 125 (map rrec (map tables_fields (dd_tables d)))) <= 16000) by assumption.
  assert (L2 : zlen (blocks false 125 (map rrec (map columns_fields (dd_columns d)))) <= 16000) by assumption.
  assert (L3 : zlen (blocks false 125 (map rrec (map indexes_fields (dd_indexes d)))) <= 16000) by assumption.
  assert (L4 : zlen (blocks false 125 (map rrec (map fields_fields (dd_fields d)))) <= 16000) by assumption.
  destruct (built_page false 8 17855 1 _ (F _ S1) L1) as [[I1 _] [N1 [_ [X1 _]]]]; try lia.
  destruct (built_page false 10 17855 2 _ (F _ S2) L2) as [[I2 _] [N2 [_ [X2 _]]]]; try lia.
  destruct (built_page false 11 17855 3 _ (F _ S3) L3) as [[I3 _] [N3 [_ [X3 _]]]]; try lia.
  destruct (built_page false 12 17855 4 _ (F _ S4) L4) as [[I4 _] [N4 [_ [X4 _]]]]; try lia.
  assert (H1' : holds_records tables_record (built false 8 17855 1 (map rrec (map tables_fields (dd_tables d)))) (dd_tables d)).
  { apply holds_built; try assumption; try lia. refine (all_match _ _ _ _ _ H3). intros t E. apply andb_prop in E as [E1 E2]. exists (tables_fields t), []. split; [symmetry; apply app_nil_r|]. one_by_one. }
  assert (H2' : holds_records columns_record (built false 10 17855 2 (map rrec (map columns_fields (dd_columns d)))) (dd_columns d)).
  { apply holds_built; try assumption; try lia. refine (all_match _ _ _ _ _ H2). intros t E. rewrite !andb_true_iff in E. decompose [and] E. clear E. exists (columns_fields t), []. split; [symmetry; apply app_nil_r|]. one_by_one. }
  assert (H3' : holds_records indexes_record (built false 11 17855 3 (map rrec (map indexes_fields (dd_indexes d)))) (dd_indexes d)).
  { apply holds_built; try assumption; try lia. refine (all_match _ _ _ _ _ H1). intros t E. rewrite !andb_true_iff in E. decompose [and] E. clear E. exists (firstn 9 (indexes_fields t)), [RBytes (be 4 50)]. split; [reflexivity|]. one_by_one. }
  assert (H4' : holds_records fields_record (built false 12 17855 4 (map rrec (map fields_fields (dd_fields d)))) (dd_fields d)).
  { apply holds_built; try assumption; try lia. refine (all_match _ _ _ _ _ H0). intros t E. rewrite !andb_true_iff in E. decompose [and] E. clear E. exists (fields_fields t), []. split; [symmetry; apply app_nil_r|]. one_by_one. }
  split; [unfold dict_pages; constructor; [apply sys_image|repeat (constructor; [assumption|]); constructor]|].
  assert (Hn : map page_number (dict_pages d) = [7; 8; 10; 11; 12]) by (unfold dict_pages; cbn [map]; rewrite N1, N2, N3, N4; reflexivity).
  assert (Ef : firsts (dict_pages d) = dict_pages d) by (apply distinct_firsts; rewrite Hn; repeat constructor; cbn; lia).
  exists 8, 10, 11, 12. rewrite Ef. split; [reflexivity|].
  assert (X0 : index_of (sys_page 8 10 11 12) = 8) by reflexivity.
  unfold stored_tree. rewrite Ef. unfold dict_pages. cbn [filter]. rewrite X0, X1, X2, X3, X4. cbn [Z.eqb Pos.eqb].
  assert (One : forall {D} (record : D -> list (rstored -> Prop)) key page defs, holds_records record page defs ->
    Forall2 (tree_page record key) [page] [defs] /\ List.concat [defs] = defs).
  { intros D record key page defs X. split; [constructor; [now apply leaf_page|constructor]|apply app_nil_r]. }
  split; [eexists _, [], [dd_tables d]; auto|]. split; [eexists _, [], [dd_columns d]; auto|].
  split; [eexists _, [], [dd_indexes d]; auto|eexists _, [], [dd_fields d]; auto].
Qed.

(** A dictionary of one table whose first column is its key. *)
Definition single (db tb : list Z) (id space ix : Z) (k : column_def) (rest : list column_def) : dictionary :=
  mkDictionary [mkTableDef (db ++ 47 :: tb) id space] (k :: rest) [mkIndexDef id ix (txt "PRIMARY") 1 3] [mkFieldDef ix 0 (cd_name k)].
Definition single_ok (db tb : list Z) (id : Z) (k : column_def) (rest : list column_def) : Prop :=
  ~ In 47 db /\ ~ In 47 tb /\ Forall (fun c => cd_table c = id) (k :: rest) /\ NoDup (map cd_name (k :: rest)).
Lemma single_columns db tb id space ix k rest : single_ok db tb id k rest -> columns_of (single db tb id space ix k rest) id = k :: rest.
Proof. intros [_ [_ [Hc _]]]. unfold columns_of. cbn [single dd_columns]. induction Hc as [|c l E _ IH]; [reflexivity|]. cbn [filter]. rewrite E, Z.eqb_refl, IH. reflexivity. Qed.
Lemma single_consistent db tb id space ix k rest : single_ok db tb id k rest -> consistent (single db tb id space ix k rest).
Proof.
  intro Hok; pose proof Hok as [Hd [Ht [Hc Hn]]]; set (d := single db tb id space ix k rest).
  assert (One : forall x : Z, NoDup [x]) by (intro x; constructor; [intros []|constructor]).
  split; [apply One|]. split; [apply One|]. split; [|split; [|split; [|split]]].
  - intros t [<-|[]]. exists db, tb. left. auto.
  - intros i [<-|[]]. now left.
  - intro j. apply few. unfold indexes_of, d. cbn [single dd_indexes filter id_table]. destruct (id =? j); [now left|now right].
  - intro j. destruct (Z.eq_dec j id) as [->|N]; [unfold d; rewrite (single_columns _ _ _ _ _ _ _ Hok); exact Hn|].
    assert (E : columns_of d j = []).
    { unfold columns_of, d. cbn [single dd_columns]. clear Hn Hok d. induction Hc as [|c l E _ IH]; [reflexivity|]. cbn [filter]. rewrite E. destruct (Z.eqb_spec id j) as [->|_]; [contradiction|exact IH]. }
    rewrite E. constructor.
  - intros i [<-|[]] _. cbn [id_id id_table id_nfields]. assert (E : fields_of d ix = [mkFieldDef ix 0 (cd_name k)]) by (unfold fields_of, d; cbn [single dd_fields filter fd_index]; now rewrite Z.eqb_refl).
    rewrite E; unfold d; rewrite (single_columns _ _ _ _ _ _ _ Hok). cbn [map fd_column]. split; [constructor; [intros []|constructor]|]. split; [intros x [<-|[]]; now left|reflexivity].
Qed.
Lemma single_key db tb id space ix k rest : single_ok db tb id k rest -> has_key (single db tb id space ix k rest) id [k] rest.
Proof.
  intro Hok; pose proof Hok as [Hd [Ht [Hc Hn]]]; set (d := single db tb id space ix k rest).
  exists (mkIndexDef id ix (txt "PRIMARY") 1 3). split; [unfold indexes_of, d; cbn [single dd_indexes filter id_table]; rewrite Z.eqb_refl; now left|]. split; [reflexivity|].
  assert (E : fields_of d ix = [mkFieldDef ix 0 (cd_name k)]) by (unfold fields_of, d; cbn [single dd_fields filter fd_index]; now rewrite Z.eqb_refl).
  cbn [id_id]. rewrite E; unfold d; rewrite (single_columns _ _ _ _ _ _ _ Hok). split; [reflexivity|]. split; [intros x [<-|[]]; now left|].
  cbn [filter existsb]. destruct (list_eq_dec Z.eq_dec (cd_name k) (cd_name k)) as [_|N]; [|contradiction]. cbn [orb negb].
  cbn [map] in Hn. inversion Hn as [|x y N1 _]; subst. clear - N1. induction rest as [|c l IH]; [reflexivity|]. cbn [filter existsb]. cbn [map In] in N1.
  destruct (list_eq_dec Z.eq_dec (cd_name k) (cd_name c)) as [E|_]; [exfalso; apply N1; left; now symmetry|]. cbn [orb negb]. f_equal. apply IH. tauto.
Qed.
Lemma single_front db tb id space ix k rest : single_ok db tb id k rest -> front_key (single db tb id space ix k rest) id.
Proof.
  intro Hok; pose proof Hok as [Hd [Ht [Hc Hn]]]; set (d := single db tb id space ix k rest).
  right. exists [k], rest. split; [now apply single_key|]. split; [unfold d; rewrite (single_columns _ _ _ _ _ _ _ Hok); reflexivity|]. split; [discriminate|]. constructor; [now repeat split|constructor].
Qed.
(** ... and a data file of one page. *)
Lemma single_input rt db tb id space ix k rest fss rows : single_ok db tb id k rest -> fits_dict (single db tb id space ix k rest) = true -> db <> [] -> ~ In 96 db -> ~ In 96 tb -> Forall (fun c => ordinary c /\ readable_column c) (k :: rest) ->
  0 <= ix < 2 ^ 64 -> Forall fine (map (crec (map slot_layout (key_slots [k] rest))) fss) -> zlen (blocks true 125 (map (crec (map slot_layout (key_slots [k] rest))) fss)) <= 16000 ->
  Forall2 (fun fs r => Forall2 fits (map slot_layout (key_slots [k] rest)) fs /\ row_encodes rt (key_slots [k] rest) (values (k :: rest) r) fs) fss rows ->
  tool_input rt false (single db tb id space ix k rest) (dict_pages (single db tb id space ix k rest)) (mkTableDef (db ++ 47 :: tb) id space) db tb (key_slots [k] rest)
    [built true 3 17855 ix (map (crec (map slot_layout (key_slots [k] rest))) fss)] rows /\ front_key (single db tb id space ix k rest) id.
Proof.
  intros Hok Hfit H0 H1 H2 H3 H4 Hf Hl HR. split; [|now apply single_front].
  split; [now apply dict_built|]. split; [now apply single_consistent|]. split; [constructor; [intros []|constructor]|]. split; [now left|].
  split; [left; destruct Hok as [? [? _]]; auto|]. do 3 (split; [assumption|]). cbn [td_id]. rewrite (single_columns _ _ _ _ _ _ _ Hok). split; [discriminate|]. split; [exact H3|].
  split; [right; exists [k], rest; split; [now apply single_key|reflexivity]|].
  destruct (built_alone 3 ix _ Hf Hl) as [Hi He]; try lia. split; [exact Hi|]. rewrite He. exists [map (values (users (key_slots [k] rest))) rows]. split; [|apply app_nil_r].
  constructor; [|constructor]. apply page_built; try assumption; try lia. rewrite users_keyed. cbn [app]. clear - HR. induction HR; constructor; assumption.
Qed.
