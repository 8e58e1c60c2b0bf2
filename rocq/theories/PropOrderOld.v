(** C82: keys of several columns, and REDUNDANT records. *)
From Coq Require Import String ZifyBool.
From Verif Require Import PropCmd GoBase Utils Ibdata Cmd SpecInno SpecText SpecSql SpecRecord SpecRow SpecPage SpecDict SpecTool SpecCmd SpecUnique PropUnique PropTool PTool PBuild PFile PDict PropDict PMove PMake
  PropFile PropGeometry PropVarchar PBase PWire PValue PText PPage PTypes PropValue PropRec GoBase PRec PNode PropVirtualOld PropPrefix PropUniqueOld PropPrefixOld.
Local Open Scope list_scope.
Local Open Scope Z_scope.

Lemma forall2_same {A B} (R : A -> B -> Prop) a b : Forall2 R a b -> List.length a = List.length b.
Proof. induction 1; cbn [List.length]; lia. Qed.
Lemma pages_rejected fuel rt tm db tb rec ss cols :
  (forall p off vs fs, redundant_page p -> user_origin off -> stored_at false p off (map slot_layout ss) fs -> row_encodes rt ss vs fs -> parsePage_record rt tm p off cols = ([], Ok None)) ->
  forall ps contents, Forall2 (page_holds rt rec ss) ps contents -> Forall redundant_page ps -> Forall (fun p => eligible rec p = true) ps ->
  dataPages_loop (S fuel) rt tm (map as_page ps) db tb rec cols = ([], Ok tt).
Proof.
  intros HN ps contents HP. induction HP as [|p rows ps contents Hp _ IH]; intros Hi He; [reflexivity|].
  inversion Hi as [|? ? Hi1 Hi2]; subst. inversion He as [|? ? He1 He2]; subst. cbn [map dataPages_loop]. destruct (eligible_selected p rec (proj1 Hi1) He1) as [ph [E1 [E2 E3]]].
  rewrite PropUnique.lift_some, E1, E3. change (pg_orig (as_page p)) with p. rewrite E2.
  assert (EP : parsePage (S fuel) rt tm p cols rec (field p 44 2) = ([], Ok ([], cols))).
  { destruct Hp as [compact [offs [Hf [Hch HR]]]]. destruct compact; [destruct Hf as [_ X], Hi1 as [_ Y]; lia|].
    destruct HR as [|off vs offs rows [Hu (fs & HS & _ & HE)] HR].
    - destruct rec; [destruct Hch as [_ X]; discriminate X|]. rewrite (page_live rt tm p false [] [] [] cols cols (S fuel) (field p 44 2) Hf Hch (Forall_nil _) (dec_nil rt tm p cols) ltac:(cbn [List.length]; lia)). reflexivity.
    - apply (page_nothing fuel rt tm p rec cols off offs Hi1 Hu); [now apply (HN p off vs fs)|]. destruct rec; [|exact Hch]. destruct Hch as [_ X]. cbn [hd_error] in X. now injection X. }
  rewrite EP. cbn [wbind List.length Nat.eqb wret app]. rewrite IH by assumption. reflexivity.
Qed.
(** C82: if a table begins with its key, and the key begins and ends with
    integers of different length, nothing is printed of a file of REDUNDANT
    pages: the key's columns are turned round, and no record fits. *)
Theorem C82_nothing_refuted : forall fuel rt files op sys tfile d sys_pages t db tb a wa middle b wb rest pages rows,
  tool_input rt (is_deleted op) d sys_pages t db tb (key_slots (a :: middle ++ [b]) rest) pages rows ->
  has_key d (td_id t) (a :: middle ++ [b]) rest -> columns_of d (td_id t) = (a :: middle ++ [b]) ++ rest -> signed_int a wa -> signed_int b wb -> wa <> wb ->
  Forall redundant_page (filter (eligible (is_deleted op)) (firsts pages)) ->
  files sys = Some (map IoBytes sys_pages) -> files tfile = Some (map IoBytes pages) -> (Z.to_nat 16384 < fuel)%nat ->
  FromDataFile fuel rt files op sys tfile db tb = ([], Ok tt).
Proof.
  intros fuel rt files op sys tfile d sys_pages t db tb a wa middle b wb rest pages rows [Hs [Hc [Hnd [Ht [Hnm [Hdb [_ [_ [_ [_ [_ [Hi [contents [HP EC]]]]]]]]]]]]]] HK HE Ha Hb Hab Hred F1 F2 Hfuel.
  destruct (dict_read fuel rt sys_pages d Hs Hc Hfuel) as [tm [Hd HR]]. destruct (represents_in d _ tm t Hc HR Ht) as [e [Hg Hpl]].
  set (key := a :: middle ++ [b]) in *.
  assert (Ec : t_columns e = map descriptor (rev key) ++ [internal_column (td_id t) "DB_TRX_ID" (zlen key) 6; internal_column (td_id t) "DB_ROLL_PTR" (zlen key + 1) 7] ++ map descriptor rest).
  { apply (placed_leading d t e key rest Hc Hpl HE). destruct HK as [i [K1 [K2 [K3 _]]]]. exists i. split; [exact K1|]. split; [exact K2|exact K3]. }
  pose proof (entry_table d tm t e db tb Hc Hnd HR Ht Hnm Hdb Hg) as HI.
  rewrite C73_mode, F1, Hd. cbn [wbind]. rewrite F2. change (if list_eq_dec Z.eq_dec op (txt "RecoveryData") then true else false) with (is_deleted op).
  assert (Hfi : Forall page_image (firsts pages)) by (apply Forall_forall; intros p Hp; apply firsts_incl in Hp; rewrite Forall_forall in Hi; now apply Hi).
  destruct fuel as [|fuel]; [lia|]. unfold ParseDataPage. rewrite file_pages by exact Hi. rewrite PropUnique.lift_some. cbv beta iota. rewrite (known_columns _ _ _ _ HI), eligible_filter by exact Hfi.
  rewrite (pages_rejected fuel rt tm db tb (is_deleted op) (key_slots key rest) (t_columns e)) with (contents := contents); try assumption; [reflexivity| |].
  - intros p off vs fs Hp Hu (wide & vals & -> & Hat & Hfit) HRow. destruct (int_describes b wb Hb) as (D1 & _ & D3). destruct (int_layout a wa Ha) as [La Wa].
    assert (Lv : List.length vals = List.length (key_slots key rest)) by (pose proof (forall2_same _ _ _ Hfit) as X; rewrite !map_length in X; now symmetry).
    destruct vals as [|x vals]; [cbn in Lv; discriminate|]. unfold key_slots, key in Hfit. cbn [map app] in Hfit. inversion Hfit as [|? ? ? ? Fx _]; subst. change (rfits (slot_layout (User a)) (RBytes x)) in Fx. rewrite La in Fx. unfold rfits in Fx. cbn [l_fixed rcontent] in Fx.
    apply (record_rejected rt tm p off wide (t_columns e) (map RBytes (x :: vals)) 0 (descriptor b) (RBytes x) Hp Hu Hat).
    + rewrite Ec, map_length, Lv. unfold key_slots. rewrite !app_length, !map_length, rev_length. cbn [List.length]. lia.
    + rewrite Ec, !app_length, map_length, rev_length. unfold key. cbn [List.length]. lia.
    + rewrite Ec. unfold key. cbn [rev]. rewrite rev_app_distr. reflexivity.
    + reflexivity.
    + eexists _, _. split; [exact D1|]. split; [reflexivity|]. cbn [rcontent]. split; [lia|]. intros ->. cbn in Fx. lia.
  - apply Forall_forall. intros p Hp. apply filter_In in Hp. tauto.
Qed.
Print Assumptions C82_nothing_refuted.
(** p(a TINYINT NOT NULL, b SMALLINT NOT NULL, primary key (a, b)) with the row (1, 258), ROW_FORMAT=REDUNDANT. *)
Definition fields_po : list (list Z) := [store_int 1 1; store_int 2 258; be 6 300; be 7 5].
Definition page_po : list Z := built false 3 17855 41 (map rrec [map RBytes fields_po]).
Example C82_nothing_case : forall rt,
  tool_input rt false dict3 pages3 (mkTableDef (txt "test/p") 22 6) (txt "test") (txt "p") (key_slots (c_a :: [] ++ [c_b]) []) [page_po] [row_p]
  /\ has_key dict3 22 (c_a :: [] ++ [c_b]) [] /\ columns_of dict3 22 = (c_a :: [] ++ [c_b]) ++ [] /\ signed_int c_a 1 /\ signed_int c_b 2
  /\ Forall redundant_page (filter (eligible false) (firsts [page_po])).
Proof.
  intro rt.
  assert (Hfs : Forall fine (map rrec [map RBytes fields_po])) by (apply fine_check; vm_compute; reflexivity).
  assert (Hl : zlen (blocks false 125 (map rrec [map RBytes fields_po])) <= 16000) by (vm_compute; discriminate).
  destruct (built_page false 3 17855 41 (map rrec [map RBytes fields_po]) Hfs Hl) as [P1 [_ [K [_ [F1 [F2 [P2 P3]]]]]]]; try lia. fold page_po in P1, K, F1, F2, P2, P3.
  assert (He : filter (eligible false) (firsts [page_po]) = [page_po]) by (cbn [firsts firsts_rev rev app existsb filter]; unfold eligible; rewrite K, F1, F2; reflexivity).
  rewrite He. destruct C81_case as [_ [_ [_ [_ [Hkey [HE _]]]]]].
  assert (SI : signed_int c_a 1 /\ signed_int c_b 2) by (split; (split; [reflexivity|]; split; [cbn; lia|]; split; [reflexivity|]; split; [reflexivity|cbn; lia])). destruct SI as [S1 S2].
  split; [|split; [exact Hkey|split; [exact HE|split; [exact S1|split; [exact S2|constructor; [exact P1|constructor]]]]]].
  destruct (composite_wrong rt (txt "PrintData") ltac:(discriminate)) as [[T1 [T2 [T3 [T4 [T5 [T6 [T7 [T8 [T9 [T10 [T11 _]]]]]]]]]]] _].
  do 11 (split; [assumption|]).
  split; [constructor; [exact (proj1 P1)|constructor]|]. rewrite He. exists [map (values (users (key_slots (c_a :: [] ++ [c_b]) []))) [row_p]]. split; [|apply app_nil_r]. constructor; [|constructor].
  exists false, (origins 125 (map rrec [map RBytes fields_po])). split; [exact P1|]. split; [exact P2|]. destruct P1 as [[PL _] _]. clear - PL P3. revert PL P3. generalize page_po as page. generalize (origins 125 (map rrec [map RBytes fields_po])) as os.
  intros os page PL P3. cbn [map] in P3. inversion P3 as [|o ? os' ? HX P3']; subst. inversion P3'; subst. constructor; [|constructor]. change (rrec _) with (rrec (map RBytes fields_po)) in HX. destruct HX as [pre [l [post [E1 [E2 [E3 E4]]]]]].
  assert (EL : zlen page = zlen pre + zlen (low (rrec (map RBytes fields_po))) + 2 + zlen (high (rrec (map RBytes fields_po))) + zlen post) by (rewrite E1; change (@zlen) with (@len); rewrite !len_app, len_be; lia).
  rewrite PL in EL. change (zlen (high (rrec (map RBytes fields_po)))) with 16 in *. change (zlen (low (rrec (map RBytes fields_po)))) with 8 in *. pose proof (len_nonneg post). change (@len) with (@zlen) in *.
  split; [unfold user_origin; lia|]. exists (map FBytes fields_po). split; [|split; [change (zlen (body (map FBytes fields_po))) with 16; lia|]].
  - exists false, fields_po. split; [reflexivity|]. split; [apply (rrec_there page (map RBytes fields_po) pre l post); [exact E1|exact E2|vm_compute; reflexivity]|].
    repeat (apply Forall2_cons; [reflexivity|]). constructor.
  - change (row_encodes rt [User c_a; User c_b; Own 6; Own 7] [SStr (txt "1"); SStr (txt "258")] (map FBytes fields_po)). unfold fields_po. cbn [map]. u_number. u_number. u_own. constructor.
Qed.
