(** C109: dropped tables. *)
From Coq Require Import String ZifyBool.
From Verif Require Import GoBase Utils Ibdata SpecInno SpecText SpecSql SpecRecord SpecRow SpecPage SpecDict SpecTool SpecHistory SpecLoad
  PBase PWire PRec PPage PFile PNode PDict PropDict PBuild PTool PropTool PropTree.
From Coq Require Import Permutation.
Local Open Scope string_scope.
Local Open Scope list_scope.
Local Open Scope Z_scope.

(** Full statement: the tables read are those that are not dropped.  Exactly:
    that is so if and only if no dropped table is left in SYS_TABLES. *)
Theorem C109_dropped_refuted : forall fuel rt pages d, stores_dictionary pages d -> consistent d -> (Z.to_nat 16384 < fuel)%nat ->
  exists tm, ParseDictPage fuel rt (Some (map IoBytes pages)) = ([], Ok (tm, None))
    /\ ((forall id, In id (map fst tm) <-> exists t, In t (dd_tables d) /\ td_id t = id /\ ~ dropped pages t) <-> (forall t, In t (dd_tables d) -> ~ dropped pages t))
    /\ (forall t, In t (dd_tables d) -> dropped pages t -> exists e, mget tm (td_id t) = Some e /\ named_as (td_name t) (t_db e) (t_name e)).
Proof.
  intros fuel rt pages d Hs Hc Hf. destruct (C81_dictionary fuel rt pages d Hs Hc Hf) as [tm [E [HN [HI HA]]]]. exists tm. split; [exact E|]. split; [split|].
  - intros H t Ht HD. assert (X : In (td_id t) (map fst tm)) by (apply HI; now apply in_map). apply H in X as [t' [H1 [H2 H3]]].
    destruct Hc as [Hid _]. pose proof (find_table_in _ _ Hid Ht) as F1. pose proof (find_table_in _ _ Hid H1) as F2. rewrite H2, F1 in F2. injection F2 as <-. contradiction.
  - intros H id. rewrite HI. split.
    + intro X. apply in_map_iff in X as [t [<- Ht]]. exists t. auto.
    + intros [t [Ht [<- _]]]. now apply in_map.
  - intros t Ht _. destruct (HA t Ht) as [e [G1 [G2 _]]]. eauto.
Qed.
Print Assumptions C109_dropped_refuted.
(** Proved: that, for dictionaries without dropped tables. *)
Theorem C109_dropped_partial : forall fuel rt pages d, stores_dictionary pages d -> consistent d -> (Z.to_nat 16384 < fuel)%nat ->
  (forall t, In t (dd_tables d) -> ~ dropped pages t) ->
  exists tm, ParseDictPage fuel rt (Some (map IoBytes pages)) = ([], Ok (tm, None))
    /\ forall id, In id (map fst tm) <-> exists t, In t (dd_tables d) /\ td_id t = id /\ ~ dropped pages t.
Proof.
  intros fuel rt pages d Hs Hc Hf HD. destruct (C109_dropped_refuted fuel rt pages d Hs Hc Hf) as [tm [E [H _]]]. exists tm. split; [exact E|]. now apply H.
Qed.
Print Assumptions C109_dropped_partial.

(** A table dropped and created again: whichever of the two Go happens to visit
    last when it goes through the map gives the columns. *)
Theorem C109_again_refuted : forall fuel rt pages d t t' db tb, stores_dictionary pages d -> consistent d -> (Z.to_nat 16384 < fuel)%nat ->
  In t (dd_tables d) -> In t' (dd_tables d) -> dropped pages t -> ~ dropped pages t' -> named_as (td_name t) db tb -> named_as (td_name t') db tb ->
  exists tm e e', ParseDictPage fuel rt (Some (map IoBytes pages)) = ([], Ok (tm, None)) /\ mget tm (td_id t) = Some e /\ mget tm (td_id t') = Some e'
    /\ (exists order, Permutation order tm /\ getTableColumnsFromDict order db tb = t_columns e)
    /\ (exists order, Permutation order tm /\ getTableColumnsFromDict order db tb = t_columns e').
Proof.
  intros fuel rt pages d t t' db tb Hs Hc Hf Ht Ht' _ _ Hn Hn'. destruct (C81_dictionary fuel rt pages d Hs Hc Hf) as [tm [E [HN [HI HA]]]].
  destruct (HA t Ht) as [e [G [N _]]]. destruct (HA t' Ht') as [e' [G' [N' _]]]. exists tm, e, e'. split; [exact E|]. split; [exact G|]. split; [exact G'|].
  assert (L : forall id x, mget tm id = Some x -> t_db x = db -> t_name x = tb -> exists order, Permutation order tm /\ getTableColumnsFromDict order db tb = t_columns x).
  { intros id x Hg Hd Hb. apply mget_in in Hg. apply in_split in Hg as [l1 [l2 ->]]. exists (l1 ++ l2 ++ [(id, x)]). split.
    - apply Permutation_app_head. symmetry. apply Permutation_cons_append.
    - unfold getTableColumnsFromDict. rewrite app_assoc, fold_left_app. cbn [fold_left snd]. rewrite Hd, Hb, !beq_refl. reflexivity. }
  destruct (named_unique _ _ _ _ _ N Hn) as [D1 D2]. destruct (named_unique _ _ _ _ _ N' Hn') as [D3 D4]. split; eapply L; eauto.
Qed.
Print Assumptions C109_again_refuted.

(** * An example *)
Definition mrec (it : Z * list rstored) : rec := mkRec (rev (ends (2 ^ 7) 0 (snd it)) ++ [fst it; 0; 0; 1]) (rbody (snd it)).
Lemma mrec_fine it : 0 <= fst it < 256 -> small (snd it) -> fine (mrec it).
Proof.
  intros Hi [H1 H2]. split; [|exact H1]. cbn [mrec low]. apply Forall_app. split; [|repeat constructor; lia].
  apply Forall_forall. intros x Hx. apply in_rev in Hx. pose proof (ends_range (snd it) 0 ltac:(lia) ltac:(lia)) as H. rewrite Forall_forall in H. now apply H.
Qed.
Lemma mrec_there page it pre l post o : page = pre ++ low (mrec it) ++ be 2 l ++ high (mrec it) ++ post -> o = zlen pre + zlen (low (mrec it)) + 2 ->
  small (snd it) -> redundant_at page o false (snd it) /\ marked false page o = Z.testbit (fst it) 5.
Proof.
  cbn [mrec low high]. intros Hp Ho [_ Hs]. split.
  - exists pre, ([fst it; 0; 0; 1] ++ be 2 l), post. cbv zeta. split; [rewrite Hp; now rewrite <- !app_assoc|].
    change (@zlen) with (@len) in *. rewrite len_app in *. rewrite len_be. change (len [fst it; 0; 0; 1]) with 4 in *. split; [lia|]. split; [reflexivity|]. split; [lia|]. change (2 ^ 7) with 128. exact Hs.
  - unfold marked. f_equal. replace (o - 6) with (zlen (pre ++ rev (ends (2 ^ 7) 0 (snd it)))).
    + rewrite Hp. unfold field. rewrite <- !app_assoc, app_assoc. unfold zlen. rewrite Nat2Z.id, skipn_app, skipn_all, Nat.sub_diag. cbn. lia.
    + rewrite Ho. change (@zlen) with (@len). rewrite !len_app. change (len [fst it; 0; 0; 1]) with 4. lia.
Qed.
Lemma marked_page {D} (record : D -> list (rstored -> Prop)) number kind id defs items : Forall2 (fun d it => matches (record d) (snd it)) defs items ->
  Forall (fun it => 0 <= fst it < 256 /\ small (snd it)) items -> zlen (blocks false 125 (map mrec items)) <= 16000 -> 0 <= number < 2 ^ 32 -> 0 <= kind < 2 ^ 16 -> 0 <= id < 2 ^ 64 ->
  let page := built false number kind id (map mrec items) in
  page_image page /\ page_number page = number /\ index_of page = id /\ holds_records record page defs
  /\ exists offs, chain false page (infimum false) offs (supremum false)
       /\ Forall2 (fun o it => redundant_at page o false (snd it) /\ marked false page o = Z.testbit (fst it) 5) offs items.
Proof.
  intros HM Hs Hl H1 H2 H3. destruct (built_page false number kind id (map mrec items)) as [P1 [PN [_ [PX [_ [_ [P2 P3]]]]]]]; try assumption.
  { clear - Hs. induction Hs as [|it items [A B] _ IH]; cbn [map]; constructor; [now apply mrec_fine|assumption]. }
  cbv zeta. revert P1 PN PX P2 P3. generalize (built false number kind id (map mrec items)) as page. generalize (origins 125 (map mrec items)) as os. intros os page P1 PN PX P2 P3.
  split; [exact (proj1 P1)|]. split; [exact PN|]. split; [exact PX|].
  assert (T : Forall2 (fun o it => user_origin o /\ redundant_at page o false (snd it) /\ marked false page o = Z.testbit (fst it) 5) os items).
  { destruct P1 as [[PL _] _]. clear - PL P3 Hs. revert os P3. induction Hs as [|it items [Hi Hsm] _ IH]; intros os P3; inversion P3 as [|o ? os' ? HX P3']; subst; constructor.
    - destruct HX as [pre [l [post [E1 [E2 [E3 E4]]]]]]. split.
      + assert (EL : zlen page = zlen pre + zlen (low (mrec it)) + 2 + zlen (high (mrec it)) + zlen post) by (rewrite E1; change (@zlen) with (@len); rewrite !len_app, len_be; lia).
        rewrite PL in EL. unfold user_origin. unfold zlen in *. lia.
      + now apply (mrec_there page it pre l post).
    - now apply IH. }
  split.
  - split; [exact P1|]. exists os. split; [exact P2|]. clear - T HM. revert defs HM. induction T as [|o it os items [A [B _]] _ IH]; intros defs HM; inversion HM as [|d ? defs' ? M HM']; subst; constructor.
    + split; [exact A|]. exists false, (snd it). auto.
    + now apply IH.
  - exists os. split; [exact P2|]. revert T. apply forall2_impl. intros o it [_ H]. exact H.
Qed.
Lemma pages_store p1 p2 p3 p4 d : Forall page_image [p1; p2; p3; p4] -> map page_number [p1; p2; p3; p4] = [8; 10; 11; 12] -> map index_of [p1; p2; p3; p4] = [1; 2; 3; 4] ->
  holds_records tables_record p1 (dd_tables d) -> holds_records columns_record p2 (dd_columns d) -> holds_records indexes_record p3 (dd_indexes d) -> holds_records fields_record p4 (dd_fields d) ->
  stores_dictionary [sys_page 8 10 11 12; p1; p2; p3; p4] d.
Proof.
  intros HI HN HX H1 H2 H3 H4. pose proof (sys_image 8 10 11 12) as I0. assert (N0 : page_number (sys_page 8 10 11 12) = 7) by reflexivity. assert (X0 : index_of (sys_page 8 10 11 12) = 8) by reflexivity.
  assert (R0 : roots [sys_page 8 10 11 12; p1; p2; p3; p4] = [8; 10; 11; 12]) by reflexivity.
  set (p0 := sys_page 8 10 11 12) in *. clearbody p0. cbn [map] in HN, HX. injection HN as N1 N2 N3 N4. injection HX as X1 X2 X3 X4.
  assert (Ef : firsts [p0; p1; p2; p3; p4] = [p0; p1; p2; p3; p4]) by (apply distinct_firsts; cbn [map]; rewrite N0, N1, N2, N3, N4; repeat constructor; cbn; lia).
  split; [now constructor|]. exists 8, 10, 11, 12. unfold stored_tree. rewrite Ef. split; [exact R0|]. cbn [filter]. rewrite X0, X1, X2, X3, X4. cbn [Z.eqb Pos.eqb].
  assert (One : forall {D} (record : D -> list (rstored -> Prop)) key page defs, holds_records record page defs ->
    Forall2 (tree_page record key) [page] [defs] /\ List.concat [defs] = defs).
  { intros D record key page defs H. split; [constructor; [now apply leaf_page|constructor]|apply app_nil_r]. }
  split; [exists p1, [], [dd_tables d]; auto|]. split; [exists p2, [], [dd_columns d]; auto|].
  split; [exists p3, [], [dd_indexes d]; auto|exists p4, [], [dd_fields d]; auto].
Qed.
Lemma chain_zero page (Z2 : forall x, linked false page 0 x -> x = 0) : forall os, ~ chain false page 0 os 116.
Proof. induction os as [|o os IH]; intro H; inversion H as [? ? L|? ? ? ? L C]; subst; apply Z2 in L; [discriminate L|]. subst o. exact (IH C). Qed.
Lemma chain_same page (Z1 : forall x, linked false page 116 x -> x = 0) (Z2 : forall x, linked false page 0 x -> x = 0) : forall os os' a,
  chain false page a os 116 -> chain false page a os' 116 -> os = os'.
Proof.
  assert (N : forall os, ~ chain false page 116 os 116).
  { intros os H. inversion H as [? ? L|? ? ? ? L C]; subst; apply Z1 in L; [discriminate L|]. subst. exact (chain_zero page Z2 _ C). }
  induction os as [|o os IH]; intros os' a H H'; inversion H as [? ? L|? ? ? ? L C]; subst; inversion H' as [? ? L'|? ? ? ? L' C']; subst; unfold linked in L, L'.
  - reflexivity.
  - exfalso. replace o with 116 in C' by lia. exact (N _ C').
  - exfalso. replace o with 116 in C by lia. exact (N _ C).
  - assert (o0 = o) as -> by lia. f_equal. exact (IH _ _ C C').
Qed.
(** Table t had a column id; it was dropped and created again with a column v. *)
Definition old_t : table_def := mkTableDef (txt "test/t") 21 5.
Definition new_t : table_def := mkTableDef (txt "test/t") 26 10.
Definition dict_d : dictionary := mkDictionary [old_t; new_t] [mkColumnDef 21 0 (txt "id") 6 3 4; mkColumnDef 26 0 (txt "v") 12 15 60] [] [].
Definition tables_d : list Z := built false 8 17855 1 (map mrec [(32, tables_fields old_t); (0, tables_fields new_t)]).
Definition pages_d : list (list Z) :=
  [sys_page 8 10 11 12; tables_d; built false 10 17855 2 (map mrec (map (fun c => (0, columns_fields c)) (dd_columns dict_d)));
   built false 11 17855 3 (map mrec []); built false 12 17855 4 (map mrec [])].
Ltac stored_as := match goal with |- matches _ ?f => exists f, [] end; split; [symmetry; apply app_nil_r|repeat (constructor; [first [exact I|reflexivity|split; [cbn; lia|reflexivity]]|]); constructor].
Example C109_case : stores_dictionary pages_d dict_d /\ consistent dict_d /\ dropped pages_d old_t /\ ~ dropped pages_d new_t
  /\ named_as (td_name old_t) (txt "test") (txt "t") /\ named_as (td_name new_t) (txt "test") (txt "t").
Proof.
  assert (Sm : forall fs, forallb (fun b => (0 <=? b) && (b <? 256)) (rbody fs) && (zlen (rbody fs) <? 128) = true -> small fs) by apply small_check.
  destruct (marked_page tables_record 8 17855 1 (dd_tables dict_d) [(32, tables_fields old_t); (0, tables_fields new_t)]) as [I1 [N1 [X1 [H1 [offs [C1 F1]]]]]].
  { constructor; [stored_as|]. constructor; [stored_as|constructor]. }
  { constructor; [split; [cbn; lia|apply Sm; reflexivity]|]. constructor; [split; [cbn; lia|apply Sm; reflexivity]|constructor]. }
  { vm_compute. discriminate. } 1-3: lia.
  destruct (marked_page columns_record 10 17855 2 (dd_columns dict_d) (map (fun c => (0, columns_fields c)) (dd_columns dict_d))) as [I2 [N2 [X2 [H2 _]]]].
  { constructor; [stored_as|]. constructor; [stored_as|constructor]. }
  { constructor; [split; [cbn; lia|apply Sm; reflexivity]|]. constructor; [split; [cbn; lia|apply Sm; reflexivity]|constructor]. }
  { vm_compute. discriminate. } 1-3: lia.
  destruct (marked_page indexes_record 11 17855 3 [] []) as [I3 [N3 [X3 [H3 _]]]]; [constructor|constructor|vm_compute; discriminate|lia|lia|lia|].
  destruct (marked_page fields_record 12 17855 4 [] []) as [I4 [N4 [X4 [H4 _]]]]; [constructor|constructor|vm_compute; discriminate|lia|lia|lia|].
  unfold pages_d, tables_d.
  set (p1 := built false 8 17855 1 _) in *. set (p2 := built false 10 17855 2 _) in *. set (p3 := built false 11 17855 3 _) in *. set (p4 := built false 12 17855 4 _) in *.
  split; [|split; [|split; [|split]]].
  - clearbody p1 p2 p3 p4. apply pages_store; try assumption; [repeat (constructor; [assumption|]); constructor| |]; cbn [map]; congruence.
  - split; [distinct|]. split; [constructor|]. split; [|split; [|split; [|split]]].
    + intros t [<-|[<-|[]]]; exists (txt "test"), (txt "t"); left; (split; [reflexivity|]); split; cbn; lia.
    + intros i [].
    + intro id. apply few. now right.
    + intro id. unfold columns_of, dict_d. cbn [dd_columns filter cd_table]. destruct (21 =? id), (26 =? id); distinct.
    + intros i [].
  - inversion F1 as [|o1 ? offs' ? [A B] _]; subst. exists p1, (o1 :: offs'), o1, false, (tables_fields old_t). split; [right; now left|]. split; [exact X1|]. split; [exact C1|]. split; [now left|].
    split; [exact A|]. split; [stored_as|exact B].
  - assert (Z1 : forall x, linked false p1 116 x -> x = 0) by (intros x Hx; unfold linked in Hx; rewrite <- Hx; reflexivity).
    assert (Z2 : forall x, linked false p1 0 x -> x = 0) by (intros x Hx; unfold linked in Hx; rewrite <- Hx; reflexivity).
    clearbody p1 p2 p3 p4. intros (page & os & off & wide & fs & Hin & Hx & Hc & Ho & Hat & Hm & Hk).
    assert (page = p1) as ->. { destruct Hin as [<-|[<-|[<-|[<-|[<-|[]]]]]]; [discriminate Hx|reflexivity|lia|lia|lia]. }
    assert (os = offs) as ->. { exact (chain_same p1 Z1 Z2 _ _ _ Hc C1). }
    inversion F1 as [|o1 ? offs1 ? [A B] F2]; subst. inversion F2 as [|o2 ? offs2 ? [A2 B2] F3]; subst. inversion F3; subst.
    destruct Ho as [<-|[<-|[]]]; [|rewrite B2 in Hk; discriminate Hk].
    destruct (redundant_skip _ _ _ _ Hat) as [post [S1 _]]. destruct (redundant_skip _ _ _ _ A) as [post' [S2 _]]. rewrite S1 in S2.
    destruct Hm as [front [extra [-> M]]]. unfold tables_record in M.
    inversion M as [|? f0 ? r0 M0 M']; subst. inversion M' as [|? f1 ? r1 M1 M1']; subst. inversion M1' as [|? f2 ? r2 M2 M2']; subst. inversion M2' as [|? f3 ? r3 M3 _]; subst.
    unfold is_text in M0. destruct M3 as [_ M3]. subst f0 f3. cbv beta in *. unfold is_wide in M1, M2.
    apply (f_equal (fun l => firstn 8 (skipn 19 l))) in S2. change (firstn 8 (skipn 19 (rbody (tables_fields old_t) ++ post'))) with (be 8 21) in S2.
    unfold rbody in S2. cbn [app flat_map] in S2. rewrite <- !app_assoc in S2. rewrite (app_assoc (rcontent f1)), (app_assoc (rcontent (RBytes (td_name new_t)))) in S2.
    assert (L : List.length (rcontent (RBytes (td_name new_t)) ++ rcontent f1 ++ rcontent f2) = 19%nat) by (rewrite !app_length; unfold zlen in M1, M2; change (List.length (rcontent (RBytes (td_name new_t)))) with 6%nat; lia).
    rewrite skipn_app, L, skipn_all2 in S2 by lia. change (19 - 19)%nat with 0%nat in S2. cbn [app skipn rcontent] in S2. rewrite firstn_app in S2. discriminate S2.
  - split; left; (split; [reflexivity|]); split; cbn; lia.
Qed.
