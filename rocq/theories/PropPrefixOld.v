(** C112: keys with a part of a column, and REDUNDANT records. *)
From Coq Require Import String ZifyBool.
From Verif Require Import PropCmd GoBase Utils Ibdata Cmd SpecInno SpecText SpecSql SpecRecord SpecRow SpecPage SpecDict SpecTool SpecCmd SpecUnique PropUnique PropTool PTool PBuild PFile PDict PropDict PMove PMake
  PropFile PropGeometry PropVarchar PBase PWire PValue PText PPage PTypes PropValue PropRec GoBase PRec PNode PropVirtualOld PropPrefix PropUniqueOld.
Local Open Scope list_scope.
Local Open Scope Z_scope.

Lemma record_rejected rt tm page off wide cols all i c f :
  redundant_page page -> user_origin off -> redundant_at page off wide all -> (List.length cols <= List.length all)%nat -> (3 <= List.length cols)%nat ->
  nth_error cols i = Some c -> nth_error all i = Some f -> misfit c f ->
  parsePage_record rt tm page off cols = ([], Ok None).
Proof.
  intros HP Hu0 Hat Hna Hn3 Hc Hf (l & k & HD & HL & HK & HZ). pose proof HP as [Hpi Hcp]. pose proof Hu0 as Hu. unfold user_origin in Hu.
  pose proof Hpi as [Hpl Hpb]. change (@zlen) with (@len) in *. 
  set (n := List.length cols) in *. assert (Hi : (i < n)%nat) by (apply nth_error_Some; congruence).
  rewrite <- (firstn_skipn n all) in Hat. apply redundant_first in Hat. set (fs := firstn n all) in *.
  assert (Hlf : List.length fs = n) by (unfold fs; rewrite firstn_length; lia).
  assert (Hfs : nth_error fs i = Some f) by (unfold fs; rewrite <- Hf; apply nth_firstn; exact Hi).
  assert (Hfb : len (rbody fs) < 2 ^ 14) by (destruct Hat as (? & ? & ? & ? & ? & ? & ? & Hat); change (@zlen) with (@len) in Hat; destruct wide; lia).
  assert (Hbody : len (body (map plain fs)) = len (rbody fs)) by now rewrite body_plain.
  unfold parsePage_record. rewrite slice_from_ok by lia. rewrite wbind_lift.
    destruct (page_format page Hpi) as [_ [E _]]. rewrite E. clear E. rewrite wbind_lift. replace (128 <=? nth 42 page 0) with false by lia. change (0 =? 0) with true. cbv iota.
    destruct (offsets_old page off wide fs Hpb Hat) as (x & E); [lia|lia|]. rewrite Hlf in E. fold n. rewrite E. clear E. cbn [bind]. rewrite wbind_lift. cbn beta iota. set (os := [0; len fs; x] ++ _).
    assert (Hos : holds os (map plain fs)) by (unfold holds, os; eauto).
    destruct HD as [D1 D2]. rewrite HL in D2. destruct D2 as (D2 & D3 & D4).
    assert (Hcf : col_fixed c = k). { unfold col_fixed, GetFixedLength, DATA_BLOB, DATA_VARMYSQL, DATA_MYSQL. rewrite D3. cbn [In] in D4. repeat match goal with |- context [?a =? ?b] => destruct (Z.eqb_spec a b); [exfalso; lia|] end. destruct (_ =? _); reflexivity. }
    change 0 with (Z.of_nat 0) at 1. rewrite (check_misfit os (map plain fs) Hos) with (j := i) (c := c) (f := plain f); [reflexivity|lia|cbn [skipn]; rewrite map_length; unfold n in *; lia|lia|exact Hc|cbn [plus]; now rewrite nth_error_map, Hfs|lia|lia| |].
    - rewrite Hcf. destruct f; exact HK.
    - intro Z0. rewrite D1. apply HZ. change (content (plain f)) with (rcontent f) in Z0. destruct (rcontent f); [reflexivity|unfold len in Z0; cbn [List.length] in Z0; lia].
Qed.
Lemma part_fields rt v cs pv vs fs : row_encodes rt (User v :: Own 6 :: Own 7 :: User v :: map User cs) (pv :: vs) fs ->
  exists f0 b1 b2 x vs1 f1 fs3, fs = f0 :: FBytes b1 :: FBytes b2 :: f1 :: fs3 /\ vs = x :: vs1 /\ encodes rt v x f1 /\ List.length fs3 = List.length cs.
Proof.
  intro HR. inversion HR as [| |? ? ? ? f0 fs0 E0 _ R1]; subst. inversion R1 as [|? ? ? b1 fs1 Lb R2|]; subst. inversion R2 as [|? ? ? b2 fs2 Lb2 R3|]; subst. inversion R3 as [| |? ? x vs1 f1 fs3 E1 _ R4]; subst.
  exists f0, b1, b2, x, vs1, f1, fs3. split; [reflexivity|]. split; [reflexivity|]. split; [exact E1|]. exact (row_users rt cs vs1 fs3 R4).
Qed.
(** A record of a table v, c, … with the first bytes of v as its key: these,
    DB_TRX_ID, DB_ROLL_PTR, v, c, …; the tool has v in the place of c. *)
Lemma record_part rt tm page off id n m v c w rest pv vs fs : redundant_page page -> user_origin off -> signed_int c w ->
  stored_at false page off (map slot_layout (key_slots [v] (v :: c :: rest))) fs -> row_encodes rt (key_slots [v] (v :: c :: rest)) (pv :: vs) fs ->
  (forall x f, hd_error vs = Some x -> encodes rt v x f -> zlen (content f) <> Z.of_nat w /\ (content f = [] -> not_null c)) ->
  parsePage_record rt tm page off ([descriptor v] ++ [internal_column id "DB_TRX_ID" n 6; internal_column id "DB_ROLL_PTR" m 7] ++ map descriptor (c :: rest)) = ([], Ok None).
Proof.
  intros HP Hu Hw (wide & vals & -> & Hat & _) HR Hx. unfold key_slots in HR. cbn [map app] in HR. change (User c :: map User rest) with (map User (c :: rest)) in HR.
  apply part_fields in HR as (f0 & b1 & b2 & x & vs1 & f1 & fs3 & EF & -> & E1 & R4).
  destruct vals as [|x0 [|x1 [|x2 [|x3 vals]]]]; try discriminate. cbn [map] in EF. injection EF as <- EF1 EF2 <- <-.
  rewrite map_length in R4. destruct (int_describes c w Hw) as (D1 & D2 & D3). destruct (Hx x (FBytes x3) eq_refl E1) as [Q1 Q2]. cbn [content] in Q1, Q2.
  apply (record_rejected rt tm page off wide _ _ 3 (descriptor c) (RBytes x3) HP Hu Hat); try reflexivity.
  - cbn [List.length app map]. rewrite !map_length. cbn [List.length] in R4. lia.
  - cbn [List.length app map]. lia.
  - eexists _, _. split; [exact D1|]. split; [reflexivity|]. cbn [rcontent]. split; [exact Q1|]. intro X. unfold not_null in Q2. cbn [l_nullable]. now rewrite Q2.
Qed.
Lemma pages_part fuel rt tm db tb rec id n m v c w rest (P : list sqlval -> Prop) : signed_int c w ->
  (forall vs, P vs -> exists pv vs', vs = pv :: vs' /\ forall x f, hd_error vs' = Some x -> encodes rt v x f -> zlen (content f) <> Z.of_nat w /\ (content f = [] -> not_null c)) ->
  forall ps contents, Forall2 (page_holds rt rec (key_slots [v] (v :: c :: rest))) ps contents -> Forall redundant_page ps -> Forall (fun p => eligible rec p = true) ps -> Forall (Forall P) contents ->
  let cols := [descriptor v] ++ [internal_column id "DB_TRX_ID" n 6; internal_column id "DB_ROLL_PTR" m 7] ++ map descriptor (c :: rest) in
  dataPages_loop (S fuel) rt tm (map as_page ps) db tb rec cols = ([], Ok tt).
Proof.
  intros Hw HPv ps contents HP. cbv zeta. set (cols := _ ++ _). induction HP as [|p rows ps contents Hp _ IH]; intros Hi He HQ; [reflexivity|].
  inversion Hi as [|? ? Hi1 Hi2]; subst. inversion He as [|? ? He1 He2]; subst. inversion HQ as [|? ? HQ1 HQ2]; subst. cbn [map dataPages_loop]. destruct (eligible_selected p rec (proj1 Hi1) He1) as [ph [E1 [E2 E3]]].
  rewrite PropUnique.lift_some, E1, E3. change (pg_orig (as_page p)) with p. rewrite E2.
  assert (EP : parsePage (S fuel) rt tm p cols rec (field p 44 2) = ([], Ok ([], cols))).
  { destruct Hp as [compact [offs [Hf [Hch HR]]]]. destruct compact; [destruct Hf as [_ X], Hi1 as [_ Y]; lia|].
    destruct HR as [|off vs offs rows [Hu (fs & HS & _ & HE)] HR].
    - destruct rec; [destruct Hch as [_ X]; discriminate X|]. rewrite (page_live rt tm p false [] [] [] cols cols (S fuel) (field p 44 2) Hf Hch (Forall_nil _) (dec_nil rt tm p cols) ltac:(cbn [List.length]; lia)). reflexivity.
    - inversion HQ1 as [|? ? HV _]; subst. destruct (HPv _ HV) as (pv & vs' & -> & HX).
      apply (page_nothing fuel rt tm p rec cols off offs Hi1 Hu); [now apply (record_part rt tm p off id n m v c w rest pv vs' fs)|]. destruct rec; [|exact Hch]. destruct Hch as [_ X]. cbn [hd_error] in X. now injection X. }
  rewrite EP. cbn [wbind List.length Nat.eqb wret app]. rewrite IH by assumption. reflexivity.
Qed.
(** C112: if the key is the first bytes of the first column v, an integer
    column follows v and no value of v takes as many bytes as that (or none, if that
    column may be NULL), nothing is printed of a file of REDUNDANT pages. *)
Theorem C112_nothing_refuted : forall fuel rt files op sys tfile d sys_pages t db tb v n c w rest pages rows,
  parts_input rt (is_deleted op) d sys_pages t db tb [(v, n)] (v :: c :: rest) pages rows -> columns_of d (td_id t) = v :: c :: rest -> signed_int c w ->
  Forall (fun r : row => forall f, encodes rt v (r (cd_name v)) f -> zlen (content f) <> Z.of_nat w /\ (content f = [] -> not_null c)) rows ->
  Forall redundant_page (filter (eligible (is_deleted op)) (firsts pages)) ->
  files sys = Some (map IoBytes sys_pages) -> files tfile = Some (map IoBytes pages) -> (Z.to_nat 16384 < fuel)%nat ->
  FromDataFile fuel rt files op sys tfile db tb = ([], Ok tt).
Proof.
  intros fuel rt files op sys tfile d sys_pages t db tb v n c w rest pages rows [Hs [Hc [Hnd [Ht [Hnm [Hdb [_ [_ [_ [_ [HK [Hi [contents [HP EC]]]]]]]]]]]]]] HE Hw Hlen Hred F1 F2 Hfuel.
  destruct (dict_read fuel rt sys_pages d Hs Hc Hfuel) as [tm [Hd HR]]. destruct (represents_in d _ tm t Hc HR Ht) as [e [Hg Hpl]].
  assert (Ec : t_columns e = [descriptor v] ++ [internal_column (td_id t) "DB_TRX_ID" 1 6; internal_column (td_id t) "DB_ROLL_PTR" 2 7] ++ map descriptor (c :: rest)).
  { apply (placed_leading d t e [v] (c :: rest) Hc Hpl HE). destruct HK as [i [K1 [K2 [K3 _]]]]. exists i. split; [exact K1|]. split; [exact K2|exact K3]. }
  pose proof (entry_table d tm t e db tb Hc Hnd HR Ht Hnm Hdb Hg) as HI.
  rewrite C73_mode, F1, Hd. cbn [wbind]. rewrite F2. change (if list_eq_dec Z.eq_dec op (txt "RecoveryData") then true else false) with (is_deleted op).
  assert (Hfi : Forall page_image (firsts pages)) by (apply Forall_forall; intros p Hp; apply firsts_incl in Hp; rewrite Forall_forall in Hi; now apply Hi).
  destruct fuel as [|fuel]; [lia|]. unfold ParseDataPage. rewrite file_pages by exact Hi. rewrite PropUnique.lift_some. cbv beta iota. rewrite (known_columns _ _ _ _ HI), eligible_filter by exact Hfi.
  rewrite Ec. rewrite (pages_part fuel rt tm db tb (is_deleted op) (td_id t) 1 2 v c w rest (fun vs => exists r, In r rows /\ vs = record_values [(v, n)] (v :: c :: rest) r) Hw) with (contents := contents); try assumption; [reflexivity| | |].
  - intros vs (r & Hr & ->). exists (part_value r (v, n)), (values (v :: c :: rest) r). split; [reflexivity|]. intros x f X. cbn in X. injection X as <-. rewrite Forall_forall in Hlen. now apply Hlen.
  - apply Forall_forall. intros p Hp. apply filter_In in Hp. tauto.
  - apply Forall_forall. intros content Hco. apply Forall_forall. intros vs Hv. assert (X : In vs (List.concat contents)) by (apply in_concat; exists content; now split).
    rewrite EC in X. apply in_map_iff in X as (r & <- & Hr). now exists r.
Qed.
Print Assumptions C112_nothing_refuted.
(** y(v VARCHAR(60) NOT NULL, n INT NOT NULL, primary key (v(3))), ROW_FORMAT=REDUNDANT,
    with the row ('abcdef', 2). *)
Definition y_v : column_def := mkColumnDef 33 0 (txt "v") 12 (256 + 15) 60.
Definition y_n : column_def := mkColumnDef 33 1 (txt "n") 6 (256 + 3) 4.
Definition dict_y : dictionary := mkDictionary [mkTableDef (txt "test/y") 33 5] [y_v; y_n] [mkIndexDef 33 52 (txt "PRIMARY") 1 3] [mkFieldDef 52 3 (txt "v")].
Definition row_y : row := fun n => if list_eq_dec Z.eq_dec n (txt "v") then SStr (txt "abcdef") else SStr (txt "2").
Definition fields_y : list (list Z) := [txt "abc"; be 6 300; be 7 5; txt "abcdef"; store_int 4 2].
Definition page_y : list Z := built false 3 17855 52 (map rrec [map RBytes fields_y]).
Lemma dict_y_consistent : consistent dict_y.
Proof.
  assert (One : forall x : Z, NoDup [x]) by (intro x; constructor; [intros []|constructor]).
  split; [apply One|]. split; [apply One|]. split; [|split; [|split; [|split]]].
  - intros t [<-|[]]. exists (txt "test"), (txt "y"). left. split; [reflexivity|]. split; cbn; lia.
  - intros i [<-|[]]. now left.
  - intro j. apply few. unfold indexes_of. cbn [dict_y dd_indexes filter id_table]. destruct (33 =? j); [now left|now right].
  - intro j. unfold columns_of. cbn [dict_y dd_columns filter y_v y_n cd_table]. destruct (33 =? j); [distinct|constructor].
  - intros i [<-|[]] _. split; [distinct|]. split; [|reflexivity]. intros x [<-|[]]. now left.
Qed.
Example C112_nothing_case : forall rt,
  parts_input rt false dict_y (dict_pages dict_y) (mkTableDef (txt "test/y") 33 5) (txt "test") (txt "y") [(y_v, 3)] [y_v; y_n] [page_y] [row_y]
  /\ columns_of dict_y 33 = [y_v; y_n] /\ signed_int y_n 4 /\ Forall redundant_page (filter (eligible false) (firsts [page_y]))
  /\ (forall f, encodes rt y_v (row_y (cd_name y_v)) f -> zlen (content f) <> 4 /\ (content f = [] -> not_null y_n)).
Proof.
  intro rt.
  assert (Hfs : Forall fine (map rrec [map RBytes fields_y])) by (apply fine_check; vm_compute; reflexivity).
  assert (Hl : zlen (blocks false 125 (map rrec [map RBytes fields_y])) <= 16000) by (vm_compute; discriminate).
  destruct (built_page false 3 17855 52 (map rrec [map RBytes fields_y]) Hfs Hl) as [P1 [_ [K [_ [F1 [F2 [P2 P3]]]]]]]; try lia. fold page_y in P1, K, F1, F2, P2, P3.
  assert (He : filter (eligible false) (firsts [page_y]) = [page_y]) by (cbn [firsts firsts_rev rev app existsb filter]; unfold eligible; rewrite K, F1, F2; reflexivity).
  rewrite He. split; [|split; [reflexivity|split; [split; [reflexivity|]; split; [cbn; lia|]; split; [reflexivity|]; split; [reflexivity|cbn; lia]|split; [constructor; [exact P1|constructor]|]]]].
  2:{ intros f X. split; [|reflexivity]. change (row_y (cd_name y_v)) with (SStr (txt "abcdef")) in X. inversion X; subst; try discriminate; try (cbn in *; lia). }
  split; [apply dict_built; vm_compute; reflexivity|]. split; [exact dict_y_consistent|]. split; [distinct|]. split; [now left|].
  split; [left; split; [reflexivity|split; cbn; lia]|]. split; [discriminate|]. split; [cbn; lia|]. split; [cbn; lia|]. split; [discriminate|]. split; [|split].
  - change (columns_of dict_y (td_id (mkTableDef (txt "test/y") 33 5))) with [y_v; y_n]. ordinary_columns.
  - exists (mkIndexDef 33 52 (txt "PRIMARY") 1 3). split; [now left|]. split; [reflexivity|]. split; [reflexivity|]. split; [reflexivity|]. split; [|reflexivity]. intros x [<-|[]]. now left.
  - split; [constructor; [exact (proj1 P1)|constructor]|]. rewrite He. exists [map (record_values [(y_v, 3)] [y_v; y_n]) [row_y]]. split; [|apply app_nil_r]. constructor; [|constructor].
    exists false, (origins 125 (map rrec [map RBytes fields_y])). split; [exact P1|]. split; [exact P2|]. destruct P1 as [[PL _] _]. clear - PL P3. revert PL P3. generalize page_y as page. generalize (origins 125 (map rrec [map RBytes fields_y])) as os.
    intros os page PL P3. cbn [map] in P3. inversion P3 as [|o ? os' ? HX P3']; subst. inversion P3'; subst. constructor; [|constructor]. change (rrec _) with (rrec (map RBytes fields_y)) in HX. destruct HX as [pre [l [post [E1 [E2 [E3 E4]]]]]].
    assert (EL : zlen page = zlen pre + zlen (low (rrec (map RBytes fields_y))) + 2 + zlen (high (rrec (map RBytes fields_y))) + zlen post) by (rewrite E1; change (@zlen) with (@len); rewrite !len_app, len_be; lia).
    rewrite PL in EL. change (zlen (high (rrec (map RBytes fields_y)))) with 26 in *. change (zlen (low (rrec (map RBytes fields_y)))) with 9 in *. pose proof (len_nonneg post). change (@len) with (@zlen) in *.
    split; [unfold user_origin; lia|]. exists (map FBytes fields_y). split; [|split; [change (zlen (body (map FBytes fields_y))) with 26; lia|]].
    + exists false, fields_y. split; [reflexivity|]. split; [apply (rrec_there page (map RBytes fields_y) pre l post); [exact E1|exact E2|vm_compute; reflexivity]|].
      repeat (apply Forall2_cons; [vm_compute; reflexivity || exact I|]). constructor.
    + change (row_encodes rt [User y_v; Own 6; Own 7; User y_v; User y_n] [SStr (txt "abc"); SStr (txt "abcdef"); SStr (txt "2")] (map FBytes fields_y)). unfold fields_y. cbn [map].
      constructor; [apply enc_varchar; reflexivity || (intros _; reflexivity)|plain_text|]. constructor; [reflexivity|]. constructor; [reflexivity|].
      constructor; [apply enc_varchar; reflexivity || (intros _; reflexivity)|plain_text|]. u_number. constructor.
Qed.
