(** C129: tables clustered on a unique key, and REDUNDANT records. *)
From Coq Require Import String ZifyBool.
From Verif Require Import PropCmd GoBase Utils Ibdata Cmd SpecInno SpecText SpecSql SpecRecord SpecRow SpecPage SpecDict SpecTool SpecCmd SpecUnique PropUnique PropTool PTool PBuild PFile PDict PropDict PMove PMake
  PropFile PropGeometry PropVarchar PBase PWire PValue PText PPage PTypes PropValue PropRec GoBase PRec PNode PropVirtualOld.
Local Open Scope list_scope.
Local Open Scope Z_scope.

Lemma nth_firstn {A} : forall n i (l : list A), (i < n)%nat -> nth_error (firstn n l) i = nth_error l i.
Proof. induction n as [|n IH]; intros [|i] [|x l] H; try reflexivity; try lia. cbn [firstn nth_error]. apply IH. lia. Qed.
(** The first fields of a record are a record. *)
Lemma redundant_first page off wide a b : redundant_at page off wide (a ++ b) -> redundant_at page off wide a.
Proof.
  intros (pre & header & post & Hp & Hh & Hbit & Hoff & Hb). change (@zlen) with (@len) in *. cbv zeta in *.
  assert (Hr : rbody (a ++ b) = rbody a ++ rbody b) by (unfold rbody; apply flat_map_app).
  assert (HO : (if wide then flat_map (be 2) (rev (ends (2 ^ 15) 0 (a ++ b))) else rev (ends (2 ^ 7) 0 (a ++ b)))
    = (if wide then flat_map (be 2) (rev (ends (2 ^ 15) (0 + len (rbody a)) b)) else rev (ends (2 ^ 7) (0 + len (rbody a)) b))
      ++ (if wide then flat_map (be 2) (rev (ends (2 ^ 15) 0 a)) else rev (ends (2 ^ 7) 0 a))).
  { destruct wide; rewrite PNode.ends_app, rev_app_distr; [apply flat_map_app|reflexivity]. }
  set (hi := if wide then flat_map (be 2) (rev (ends (2 ^ 15) (0 + len (rbody a)) b)) else _) in HO. rewrite HO in Hp, Hoff. rewrite Hr in Hp, Hb. rewrite len_app in Hb, Hoff.
  exists (pre ++ hi), header, (rbody b ++ post). cbv zeta. change (@zlen) with (@len) in *. split; [rewrite Hp, <- !app_assoc; reflexivity|]. split; [exact Hh|]. split; [exact Hbit|].
  split; [rewrite len_app; lia|]. pose proof (len_nonneg (rbody b)). destruct wide; lia.
Qed.
(** A column of fixed length in whose place the record has a value of another length. *)
Definition misfit (c : Column) (f : rstored) : Prop :=
  exists l k, describes c l /\ l_fixed l = Some k /\ zlen (rcontent f) <> k /\ (rcontent f = [] -> l_nullable l = false).
Lemma check_misfit os fs : holds os fs -> len (body fs) < 2 ^ 30 -> forall cols i j c f, List.length cols = List.length (skipn i fs) -> (i <= List.length fs)%nat ->
  nth_error cols j = Some c -> nth_error fs (i + j) = Some f -> col_fixed c <> 0 -> c_len c <> 0 -> len (content f) <> col_fixed c -> (len (content f) = 0 -> c_null c = false) ->
  checkFieldSize os (Z.of_nat i) cols = Ok false.
Proof.
  intros Ho Hb. induction cols as [|c0 cols IH]; intros i j c f Hl Hi Hc Hf H1 H2 H3 H4; [destruct j; discriminate|].
  destruct (skipn i fs) as [|f0 rest] eqn:Hs; [discriminate|]. destruct (skipn_cons_nth fs i f0 rest Hs) as [Hnth Hskip]. cbn [checkFieldSize].
  rewrite (nth_size os fs i f0 Ho Hnth Hb). cbn [bind]. destruct j as [|j].
  - injection Hc as ->. replace (i + 0)%nat with i in Hf by lia. rewrite Hnth in Hf. injection Hf as ->.
    replace (col_fixed c =? 0) with false by lia. cbn [negb]. replace ((len (content f) =? 0) && c_null c) with false by (destruct (Z.eqb_spec (len (content f)) 0) as [X|X]; [rewrite H4 by exact X|]; reflexivity).
    replace (c_len c =? 0) with false by lia. replace (len (content f) =? col_fixed c) with false by lia. reflexivity.
  - replace (Z.of_nat i + 1) with (Z.of_nat (S i)) by lia. assert (i < List.length fs)%nat by (apply nth_error_Some; congruence).
    rewrite (IH (S i) j c f); try assumption; try lia; try (rewrite Hskip; now injection Hl); [|now replace (S i + j)%nat with (i + S j)%nat by lia].
    destruct (negb _); [|reflexivity]. destruct (_ && _); [reflexivity|]. destruct (_ && _); reflexivity.
Qed.
(** C129: a REDUNDANT record of a table clustered on a unique key (of NOT NULL columns) has
    the key, DB_TRX_ID, DB_ROLL_PTR and the other columns; the tool's columns are
    the key and the others.  If one of them is of fixed length and the record has
    a value of another length in its place, nothing of the record, nor
    of the rest of its page, is read. *)
Theorem C129_redundant_refuted : forall rt tm page off wide key rest fkey trx roll frest i c f,
  redundant_page page -> user_origin off -> redundant_at page off wide (fkey ++ RBytes trx :: RBytes roll :: frest) ->
  List.length fkey = List.length key -> List.length frest = List.length rest -> (3 <= List.length (key ++ rest))%nat ->
  nth_error (key ++ rest) i = Some c -> nth_error (fkey ++ RBytes trx :: RBytes roll :: frest) i = Some f -> misfit c f ->
  parsePage_record rt tm page off (key ++ rest) = ([], Ok None)
  /\ (forall fuel supremum, off < 16378 -> off <> supremum -> parsePage_loop (S fuel) rt tm page supremum off (key ++ rest) = ([], Ok ([], key ++ rest)))
  /\ (linked false page (infimum false) off -> forall fuel, parsePage (S fuel) rt tm page (key ++ rest) false 0 = ([], Ok ([], key ++ rest))).
Proof.
  intros rt tm page off wide key rest fkey trx roll frest i c f HP Hu0 Hat Hlk Hlr Hn3 Hc Hf (l & k & HD & HL & HK & HZ). pose proof HP as [Hpi Hcp]. pose proof Hu0 as Hu. unfold user_origin in Hu.
  pose proof Hpi as [Hpl Hpb]. change (@zlen) with (@len) in *. set (cols := key ++ rest) in *. set (all := fkey ++ RBytes trx :: RBytes roll :: frest) in *.
  set (n := List.length cols) in *. assert (Hi : (i < n)%nat) by (apply nth_error_Some; congruence).
  assert (Hna : (n + 2 = List.length all)%nat) by (unfold n, cols, all; rewrite !app_length; cbn [List.length]; lia).
  rewrite <- (firstn_skipn n all) in Hat. apply redundant_first in Hat. set (fs := firstn n all) in *.
  assert (Hlf : List.length fs = n) by (unfold fs; rewrite firstn_length; lia).
  assert (Hfs : nth_error fs i = Some f) by (unfold fs; rewrite <- Hf; apply nth_firstn; exact Hi).
  assert (Hfb : len (rbody fs) < 2 ^ 14) by (destruct Hat as (? & ? & ? & ? & ? & ? & ? & Hat); change (@zlen) with (@len) in Hat; destruct wide; lia).
  assert (Hbody : len (body (map plain fs)) = len (rbody fs)) by now rewrite body_plain.
  assert (E0 : parsePage_record rt tm page off cols = ([], Ok None)).
  { unfold parsePage_record. rewrite slice_from_ok by lia. rewrite wbind_lift.
    destruct (page_format page Hpi) as [_ [E _]]. rewrite E. clear E. rewrite wbind_lift. replace (128 <=? nth 42 page 0) with false by lia. change (0 =? 0) with true. cbv iota.
    destruct (offsets_old page off wide fs Hpb Hat) as (x & E); [lia|lia|]. rewrite Hlf in E. fold n. rewrite E. clear E. cbn [bind]. rewrite wbind_lift. cbn beta iota. set (os := [0; len fs; x] ++ _).
    assert (Hos : holds os (map plain fs)) by (unfold holds, os; eauto).
    destruct HD as [D1 D2]. rewrite HL in D2. destruct D2 as (D2 & D3 & D4).
    assert (Hcf : col_fixed c = k). { unfold col_fixed, GetFixedLength, DATA_BLOB, DATA_VARMYSQL, DATA_MYSQL. rewrite D3. cbn [In] in D4. repeat match goal with |- context [?a =? ?b] => destruct (Z.eqb_spec a b); [exfalso; lia|] end. destruct (_ =? _); reflexivity. }
    change 0 with (Z.of_nat 0) at 1. rewrite (check_misfit os (map plain fs) Hos) with (j := i) (c := c) (f := plain f); [reflexivity|lia|cbn [skipn]; rewrite map_length; unfold n in *; lia|lia|exact Hc|cbn [plus]; now rewrite nth_error_map, Hfs|lia|lia| |].
    - rewrite Hcf. destruct f; exact HK.
    - intro Z0. rewrite D1. apply HZ. change (content (plain f)) with (rcontent f) in Z0. destruct (rcontent f); [reflexivity|unfold len in Z0; cbn [List.length] in Z0; lia]. }
  split; [exact E0|]. split.
  - intros fuel sup X1 X2. cbn [parsePage_loop]. change (16384 - 6) with 16378. replace (off <? 16378) with true by lia. replace (off =? sup) with false by lia. cbn [negb andb]. rewrite E0. reflexivity.
  - intros HLk fuel. apply (page_rejected rt tm page cols off); [exact HP|exact Hu0|exact HLk|exact E0|lia].
Qed.
Print Assumptions C129_redundant_refuted.
(** u(a, b, c INT NOT NULL, UNIQUE KEY (a)), ROW_FORMAT=REDUNDANT, with the row
    (5, 8, 9): the six bytes of DB_TRX_ID are not a value of b, and nothing is printed. *)
Definition uo_key : list Column := [dcol "a" 6 3 4 false].
Definition uo_rest : list Column := [dcol "b" 6 3 4 false; dcol "c" 6 3 4 false].
Definition uo_row : list rstored := [RBytes [128; 0; 0; 5]] ++ RBytes (repeat 1 6) :: RBytes (repeat 2 7) :: [RBytes [128; 0; 0; 8]; RBytes [128; 0; 0; 9]].
Definition uo_middle : list Z := 125 :: repeat 0 13 ++ rev (ends (2 ^ 7) 0 uo_row) ++ [0; 0; 0; 1; 0; 0] ++ rbody uo_row.
Example C129_redundant_case : forall rt tm fuel,
  parsePage (S fuel) rt tm (page_of 0 uo_middle) (uo_key ++ uo_rest) false 0 = ([], Ok ([], uo_key ++ uo_rest)).
Proof.
  intros rt tm fuel.
  assert (P1 : redundant_page (page_of 0 uo_middle)) by (destruct (page_of_image 0 uo_middle) as [H1 H2]; [lia|apply bytes_check; reflexivity|cbn; lia|split; [exact H1|rewrite H2; lia]]).
  assert (P2 : redundant_at (page_of 0 uo_middle) 125 false uo_row).
  { exists (repeat 0 42 ++ [0] ++ repeat 0 57 ++ 125 :: repeat 0 13), [0; 0; 0; 1; 0; 0], (repeat 0 (Z.to_nat (16284 - zlen uo_middle))).
    cbv zeta. split; [unfold page_of, uo_middle; rewrite <- !app_assoc; cbn [app]; rewrite <- !app_assoc; reflexivity|]. repeat split. }
  refine (proj2 (proj2 (C129_redundant_refuted rt tm (page_of 0 uo_middle) 125 false uo_key uo_rest [RBytes [128; 0; 0; 5]] (repeat 1 6) (repeat 2 7) [RBytes [128; 0; 0; 8]; RBytes [128; 0; 0; 9]]
    1 (dcol "b" 6 3 4 false) (RBytes (repeat 1 6)) P1 _ P2 _ _ _ _ _ _)) _ fuel); try reflexivity; try (unfold user_origin; lia); try (cbn; lia).
  exists (mkLayout false (Some 4) false), 4. split; [split; [reflexivity|cbn; lia]|]. split; [reflexivity|]. split; [cbn; lia|discriminate].
Qed.
(** * The file as a whole *)
Lemma page_nothing fuel rt tm page rec cols off offs : redundant_page page -> user_origin off -> parsePage_record rt tm page off cols = ([], Ok None) ->
  (if rec : bool then off = field page 44 2 else chain false page (infimum false) (off :: offs) (supremum false)) ->
  parsePage (S fuel) rt tm page cols rec (field page 44 2) = ([], Ok ([], cols)).
Proof.
  intros Hf Hu HN Hs. rewrite (parsePage_start _ rt tm page cols false) by exact Hf.
  assert (E : (if rec then field page 44 2 else field page 99 2) = off) by (destruct rec; [now symmetry|]; inversion Hs as [|? ? ? ? Hl _]; subst; exact Hl).
  rewrite E. cbn [parsePage_loop]. unfold user_origin in Hu. replace ((off <? 16384 - 6) && negb (off =? supremum false)) with true by (cbn [supremum]; lia).
  rewrite HN. reflexivity.
Qed.
Lemma int_describes c k : signed_int c k -> describes (descriptor c) (mkLayout (negb (Z.testbit (cd_prtype c) 8)) (Some (Z.of_nat k)) false) /\ Z.of_nat k <> 6 /\ Z.of_nat k <> 0.
Proof.
  intros (H1 & _ & _ & H2 & H3). cbn [In] in H3. split; [|lia]. split; [reflexivity|]. cbn [l_fixed]. unfold descriptor. cbn [c_len c_type]. rewrite H1, H2. change (6 =? 4) with false. cbv iota. cbn [In]. lia.
Qed.
Lemma row_split rt key : forall ss vs fs, row_encodes rt (map User key ++ ss) vs fs -> exists vs2 fk f2, fs = fk ++ f2 /\ List.length fk = List.length key /\ row_encodes rt ss vs2 f2.
Proof.
  induction key as [|c key IH]; intros ss vs fs H; cbn [map app] in H; [now exists vs, [], fs|]. inversion H as [| |? ? v vs' f fs' H1 H2 H3]; subst.
  destruct (IH _ _ _ H3) as (vs2 & fk & f2 & -> & L & R). exists vs2, (f :: fk), f2. split; [reflexivity|]. split; [cbn [List.length]; lia|exact R].
Qed.
Lemma row_users rt : forall cs vs fs, row_encodes rt (map User cs) vs fs -> List.length fs = List.length cs.
Proof. induction cs as [|c cs IH]; intros vs fs H; cbn [map] in H; inversion H; subst; [reflexivity|]. cbn [List.length]. f_equal. eapply IH. eassumption. Qed.
Lemma map_eq_app' {A B} (f : A -> B) : forall l a b, map f l = a ++ b -> exists l1 l2, l = l1 ++ l2 /\ map f l1 = a /\ map f l2 = b.
Proof.
  intros l a. revert l. induction a as [|x a IH]; intros l b E; [now exists [], l|]. destruct l as [|y l]; [discriminate|]. cbn [map app] in E. injection E as E1 E2.
  destruct (IH l b E2) as (l1 & l2 & -> & <- & <-). exists (y :: l1), l2. split; [reflexivity|]. split; [cbn [map]; now rewrite E1|reflexivity].
Qed.
Lemma record_nothing rt tm page off key c w rest vs fs : redundant_page page -> user_origin off -> signed_int c w -> (3 <= List.length (key ++ c :: rest))%nat ->
  stored_at false page off (map slot_layout (key_slots key (c :: rest))) fs -> row_encodes rt (key_slots key (c :: rest)) vs fs ->
  parsePage_record rt tm page off (map descriptor (key ++ c :: rest)) = ([], Ok None).
Proof.
  intros HP Hu Hw H3 (wide & vals & -> & Hat & _) HR. unfold key_slots in HR. apply row_split in HR as (vs2 & fk & f2 & E & L & HR). cbn [app] in HR.
  inversion HR as [|? ? ? b1 fs1 Lb R2|]; subst. inversion R2 as [|? ? ? b2 fs2 Lb2 R3|]; subst. change (User c :: map User rest) with (map User (c :: rest)) in R3. apply row_users in R3.
  apply map_eq_app' in E as (v1 & v2 & -> & E1 & E2). destruct v2 as [|x1 [|x2 v2]]; try discriminate. cbn [map] in E2. injection E2 as -> -> E2.
  rewrite map_app in Hat. cbn [map] in Hat. rewrite map_app in *. destruct (int_describes c w Hw) as (D1 & D2 & D3).
  apply (C129_redundant_refuted rt tm page off wide (map descriptor key) (map descriptor (c :: rest)) (map RBytes v1) b1 b2 (map RBytes v2) (List.length key) (descriptor c) (RBytes b1)); try assumption.
  - rewrite !map_length, <- L, <- E1, map_length. reflexivity.
  - rewrite !map_length, <- R3, <- E2, map_length. reflexivity.
  - rewrite app_length, !map_length. rewrite app_length in H3. exact H3.
  - rewrite nth_error_app2; rewrite map_length; [|lia]. now rewrite Nat.sub_diag.
  - assert (EL : List.length (map RBytes v1) = List.length key) by (rewrite map_length, <- L, <- E1, map_length; reflexivity). rewrite nth_error_app2; rewrite EL; [|lia]. now rewrite Nat.sub_diag.
  - eexists _, _. split; [exact D1|]. split; [reflexivity|]. cbn [rcontent]. split; [lia|]. intros ->. discriminate Lb.
Qed.
Lemma pages_nothing fuel rt tm db tb rec key c w rest : signed_int c w -> (3 <= List.length (key ++ c :: rest))%nat ->
  forall ps contents, Forall2 (page_holds rt rec (key_slots key (c :: rest))) ps contents -> Forall redundant_page ps -> Forall (fun p => eligible rec p = true) ps ->
  dataPages_loop (S fuel) rt tm (map as_page ps) db tb rec (map descriptor (key ++ c :: rest)) = ([], Ok tt).
Proof.
  intros Hw H3 ps contents HP. induction HP as [|p rows ps contents Hp _ IH]; intros Hi He; [reflexivity|].
  inversion Hi as [|? ? Hi1 Hi2]; subst. inversion He as [|? ? He1 He2]; subst. cbn [map dataPages_loop]. destruct (eligible_selected p rec (proj1 Hi1) He1) as [ph [E1 [E2 E3]]].
  rewrite PropUnique.lift_some, E1, E3. change (pg_orig (as_page p)) with p. rewrite E2. set (cols := map descriptor (key ++ c :: rest)) in *.
  assert (EP : parsePage (S fuel) rt tm p cols rec (field p 44 2) = ([], Ok ([], cols))).
  { destruct Hp as [compact [offs [Hf [Hch HR]]]]. destruct compact; [destruct Hf as [_ X], Hi1 as [_ Y]; lia|].
    destruct HR as [|off vs offs rows [Hu (fs & HS & _ & HE)] HR].
    - destruct rec; [destruct Hch as [_ X]; discriminate X|]. rewrite (page_live rt tm p false [] [] [] cols cols (S fuel) (field p 44 2) Hf Hch (Forall_nil _) (dec_nil rt tm p cols) ltac:(cbn [List.length]; lia)). reflexivity.
    - apply (page_nothing fuel rt tm p rec cols off offs Hi1 Hu); [now apply (record_nothing rt tm p off key c w rest vs fs)|]. destruct rec; [|exact Hch]. destruct Hch as [_ X]. cbn [hd_error] in X. now injection X. }
  rewrite EP. cbn [wbind List.length Nat.eqb wret app]. rewrite IH by assumption. reflexivity.
Qed.
(** C129: of a file of REDUNDANT pages nothing is printed, whatever rows it
    holds, if an integer column follows the key. *)
Theorem C129_nothing_refuted : forall fuel rt files op sys tfile d sys_pages t db tb key c w rest pages rows,
  unique_input rt (is_deleted op) d sys_pages t db tb key (c :: rest) pages rows -> columns_of d (td_id t) = key ++ c :: rest -> (3 <= List.length (columns_of d (td_id t)))%nat -> signed_int c w ->
  Forall redundant_page (filter (eligible (is_deleted op)) (firsts pages)) ->
  files sys = Some (map IoBytes sys_pages) -> files tfile = Some (map IoBytes pages) -> (Z.to_nat 16384 < fuel)%nat ->
  FromDataFile fuel rt files op sys tfile db tb = ([], Ok tt).
Proof.
  intros fuel rt files op sys tfile d sys_pages t db tb key c w rest pages rows [HT [Hi [contents [HP EC]]]] HE H3 Hw Hred F1 F2 Hfuel.
  destruct (unique_entry fuel rt d sys_pages t db tb key (c :: rest) HT Hfuel) as [tm [e [Hd [HR [Hg [Ec Hids]]]]]].
  pose proof HT as [_ [Hc [Hnd [Ht [Hnm [Hdb _]]]]]].
  pose proof (entry_table d tm t e db tb Hc Hnd HR Ht Hnm Hdb Hg) as HI.
  rewrite C73_mode, F1, Hd. cbn [wbind]. rewrite F2. change (if list_eq_dec Z.eq_dec op (txt "RecoveryData") then true else false) with (is_deleted op).
  assert (Hfi : Forall page_image (firsts pages)) by (apply Forall_forall; intros p Hp; apply firsts_incl in Hp; rewrite Forall_forall in Hi; now apply Hi).
  destruct fuel as [|fuel]; [lia|]. unfold ParseDataPage. rewrite file_pages by exact Hi. rewrite PropUnique.lift_some. cbv beta iota. rewrite (known_columns _ _ _ _ HI), eligible_filter by exact Hfi.
  rewrite Ec, HE. rewrite HE in H3. rewrite (pages_nothing fuel rt tm db tb (is_deleted op) key c w rest Hw H3 _ _ HP Hred); [reflexivity|].
  apply Forall_forall. intros p Hp. apply filter_In in Hp. tauto.
Qed.
Print Assumptions C129_nothing_refuted.
(** u(a, b, c INT NOT NULL, UNIQUE KEY k (a)), ROW_FORMAT=REDUNDANT, with the row (1, 2, 3). *)
Definition row_fields : list (list Z) := [store_int 4 1; be 6 300; be 7 5; store_int 4 2; store_int 4 3].
Definition page_ru : list Z := built false 3 17855 72 (map rrec [map RBytes row_fields]).
Example C129_nothing_case : forall rt,
  unique_input rt false (dict_u [u_a] [u_b; u_c]) (dict_pages (dict_u [u_a] [u_b; u_c])) (mkTableDef (txt "test/u") 71 5) (txt "test") (txt "u") [u_a] [u_b; u_c] [page_ru] [row_u]
  /\ columns_of (dict_u [u_a] [u_b; u_c]) 71 = [u_a] ++ u_b :: [u_c] /\ signed_int u_b 4 /\ Forall redundant_page (filter (eligible false) (firsts [page_ru])) /\ filter (eligible false) (firsts [page_ru]) <> [].
Proof.
  intro rt. destruct (u_dict [u_a] [u_b; u_c]) as [B1 B2]; [repeat constructor|distinct|discriminate|repeat constructor|vm_compute; reflexivity|reflexivity|ordinary_columns|].
  assert (Hfs : Forall fine (map rrec [map RBytes row_fields])) by (apply fine_check; vm_compute; reflexivity).
  assert (Hl : zlen (blocks false 125 (map rrec [map RBytes row_fields])) <= 16000) by (vm_compute; discriminate).
  destruct (built_page false 3 17855 72 (map rrec [map RBytes row_fields]) Hfs Hl) as [P1 [_ [K [_ [F1 [F2 [P2 P3]]]]]]]; try lia. fold page_ru in P1, K, F1, F2, P2, P3.
  assert (He : filter (eligible false) (firsts [page_ru]) = [page_ru]) by (cbn [firsts firsts_rev rev app existsb filter]; unfold eligible; rewrite K, F1, F2; reflexivity).
  rewrite He. split; [|split; [exact B1|split; [split; [reflexivity|]; split; [cbn; lia|]; split; [reflexivity|]; split; [reflexivity|cbn; lia]|split; [constructor; [exact P1|constructor]|discriminate]]]].
  split; [exact B2|]. split; [constructor; [exact (proj1 P1)|constructor]|]. rewrite He. exists [[values ([u_a] ++ [u_b; u_c]) row_u]]. split; [|reflexivity]. constructor; [|constructor].
  exists false, (origins 125 (map rrec [map RBytes row_fields])). split; [exact P1|]. split; [exact P2|]. destruct P1 as [[PL _] _]. clear - PL P3. revert PL P3. generalize page_ru as page. generalize (origins 125 (map rrec [map RBytes row_fields])) as os.
  intros os page PL P3. cbn [map] in P3. inversion P3 as [|o ? os' ? HX P3']; subst. inversion P3'; subst. constructor; [|constructor]. change (rrec _) with (rrec (map RBytes row_fields)) in HX. destruct HX as [pre [l [post [E1 [E2 [E3 E4]]]]]].
  assert (EL : zlen page = zlen pre + zlen (low (rrec (map RBytes row_fields))) + 2 + zlen (high (rrec (map RBytes row_fields))) + zlen post) by (rewrite E1; change (@zlen) with (@len); rewrite !len_app, len_be; lia).
  rewrite PL in EL. change (zlen (high (rrec (map RBytes row_fields)))) with 25 in *. change (zlen (low (rrec (map RBytes row_fields)))) with 9 in *. pose proof (len_nonneg post). change (@len) with (@zlen) in *.
  split; [unfold user_origin; lia|]. exists (map FBytes row_fields). split; [|split; [change (zlen (body (map FBytes row_fields))) with 25; lia|]].
  - exists false, row_fields. split; [reflexivity|]. split; [apply (rrec_there page (map RBytes row_fields) pre l post); [exact E1|exact E2|vm_compute; reflexivity]|].
    repeat (apply Forall2_cons; [reflexivity|]). constructor.
  - unfold key_slots, row_fields. cbn [map app]. u_number. u_own. u_number. u_number. constructor.
Qed.
