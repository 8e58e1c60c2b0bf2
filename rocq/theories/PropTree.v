(** C89, C90: dictionary tables of several pages, and indexes of unknown
    tables. *)
From Coq Require Import String ZifyBool Permutation.
From Verif Require Import GoBase Utils Ibdata Cmd SpecInno SpecText SpecSql SpecRecord SpecRow SpecPage SpecDict SpecTool SpecCmd PBase PWire PValue PText PRec PPage PSql PFile PNode PDict PropDict PBuild PTool PropTool.
Local Open Scope string_scope.
Local Open Scope list_scope.
Local Open Scope Z_scope.
Ltac Zify.zify_post_hook ::= Z.div_mod_to_equations.

Lemma ordered_pages {D} (record : D -> list (rstored -> Prop)) key sel ps : forall contents,
  Forall2 (holds_records record) (filter sel ps) contents -> (forall p, In p ps -> sel p = false -> holds_pointers key p) ->
  exists all, Forall2 (tree_page record key) ps all /\ List.concat all = List.concat contents.
Proof.
  induction ps as [|p ps IH]; intros contents HF HN; cbn [filter] in HF.
  - inversion HF; subst. exists []. split; [constructor|reflexivity].
  - destruct (sel p) eqn:E.
    + inversion HF as [|? c ? cs Hp HF']; subst. destruct (IH cs HF') as [all [H1 H2]]; [intros q Hq; apply HN; now right|].
      exists (c :: all). split; [constructor; [now apply leaf_page|exact H1]|]. cbn [List.concat]. now rewrite H2.
    + destruct (IH contents HF) as [all [H1 H2]]; [intros q Hq; apply HN; now right|]. exists ([] :: all).
      split; [constructor; [apply node_page, HN; [now left|exact E]|exact H1]|exact H2].
Qed.
Lemma filter_filter {A} (f g : A -> bool) l : filter f (filter g l) = filter (fun x => g x && f x) l.
Proof. induction l as [|x l IH]; [reflexivity|]. cbn [filter]. destruct (g x); cbn [filter andb]; [destruct (f x); now rewrite IH|exact IH]. Qed.
Lemma kept_stored {D} (record : D -> list (rstored -> Prop)) key pages k root leaves defs : kept_tree record key pages k root leaves defs ->
  in_file_order pages leaves -> stored_tree record key pages k root defs.
Proof.
  intros [page [others [nodes [contents [HF [Hr [HP [HN [_ [HL HC]]]]]]]]]] [sel Hs].
  assert (HE : leaves = filter sel (page :: others)).
  { rewrite <- HF, filter_filter. rewrite Hs. apply filter_ext_in. intros p Hp. destruct (sel p) eqn:Es; [|now rewrite andb_false_r]. rewrite andb_true_r. symmetry.
    assert (Hin : In p leaves) by (rewrite Hs; apply filter_In; now split).
    assert (X : In p (page :: others)) by (apply (Permutation_in p (Permutation_sym HP)); apply in_or_app; now right). rewrite <- HF in X. now apply filter_In in X as [_ X]. }
  assert (HX : exists all, Forall2 (tree_page record key) (page :: others) all /\ List.concat all = List.concat contents).
  { rewrite HE in HL. apply (ordered_pages record key sel _ contents HL). intros p Hp Ep. pose proof (Permutation_in p HP Hp) as X. apply in_app_or in X as [X|X].
    - rewrite Forall_forall in HN. now apply HN.
    - rewrite HE in X. apply filter_In in X as [_ X]. congruence. }
  destruct HX as [all [H1 H2]]. exists page, others, all. split; [exact HF|]. split; [exact Hr|]. split; [exact H1|now rewrite H2].
Qed.
Lemma kept_dictionary pages l1 l2 l3 l4 d : keeps_dictionary pages l1 l2 l3 l4 d -> Forall (in_file_order pages) [l1; l2; l3; l4] -> stores_dictionary pages d.
Proof.
  intros [Hp [r1 [r2 [r3 [r4 [Hr [H1 [H2 [H3 H4]]]]]]]]] HO. inversion HO as [|? ? O1 HO1]; subst. inversion HO1 as [|? ? O2 HO2]; subst.
  inversion HO2 as [|? ? O3 HO3]; subst. inversion HO3 as [|? ? O4 _]; subst. split; [exact Hp|]. exists r1, r2, r3, r4. split; [exact Hr|].
  split; [now apply (kept_stored _ _ _ _ _ l1)|]. split; [now apply (kept_stored _ _ _ _ _ l2)|]. split; [now apply (kept_stored _ _ _ _ _ l3)|now apply (kept_stored _ _ _ _ _ l4)].
Qed.
(** Full statement: the same without the order of the leaves in the file.
    Proved: if the leaves of every tree are in the file in key order, nothing
    is lost and the columns of a table without a key are in their order. *)
Theorem C89_order_partial : forall fuel rt pages l1 l2 l3 l4 d, keeps_dictionary pages l1 l2 l3 l4 d -> Forall (in_file_order pages) [l1; l2; l3; l4] ->
  consistent d -> (Z.to_nat 16384 < fuel)%nat ->
  exists tm, ParseDictPage fuel rt (Some (map IoBytes pages)) = ([], Ok (tm, None)) /\ agrees d tm
    /\ forall t, In t (dd_tables d) -> has_no_key d (td_id t) -> exists e, mget tm (td_id t) = Some e /\ t_columns e = without_key (td_id t) (columns_of d (td_id t)).
Proof.
  intros fuel rt pages l1 l2 l3 l4 d Hk Ho Hc Hf. pose proof (kept_dictionary _ _ _ _ _ _ Hk Ho) as Hs.
  destruct (C81_dictionary fuel rt pages d Hs Hc Hf) as [tm [E HA]]. destruct (C81_columns_partial fuel rt pages d Hs Hc Hf) as [tm' [E' HT]].
  rewrite E in E'. injection E' as <-. exists tm. split; [exact E|]. split; [exact HA|]. intros t Ht Hn. destruct (HT t Ht) as [e [H1 [H2 _]]]. exists e. split; [exact H1|now apply H2].
Qed.
Print Assumptions C89_order_partial.

(** * Any order of pages *)
Lemma perm_filter {A} (f : A -> bool) l l' : Permutation l l' -> Permutation (filter f l) (filter f l').
Proof.
  induction 1 as [|x l l' _ IH|x y l|l l1 l2 _ IH1 _ IH2]; cbn [filter]; [constructor|destruct (f x); [now constructor|exact IH]| |now transitivity (filter f l1)].
  destruct (f x), (f y); try apply Permutation_refl. apply perm_swap.
Qed.
Lemma perm_one {A} (P : A -> Prop) l l' : NoDup l -> Permutation l l' -> at_most_one P l -> at_most_one P l'.
Proof.
  intros Hd HP Ho l1 x l2 y l3 E Hx Hy. assert (Hd' : NoDup l') by exact (Permutation_NoDup HP Hd).
  assert (Ix : In x l) by (apply (Permutation_in x (Permutation_sym HP)); rewrite E; apply in_or_app; right; now left).
  assert (Iy : In y l) by (apply (Permutation_in y (Permutation_sym HP)); rewrite E; apply in_or_app; right; right; apply in_or_app; right; now left).
  assert (N : x <> y) by (intros <-; rewrite E in Hd'; apply NoDup_remove_2 in Hd'; apply Hd'; apply in_or_app; right; apply in_or_app; right; now left).
  apply in_split in Ix as [a [b ->]]. apply in_app_or in Iy as [Iy|[Iy|Iy]]; [|contradiction|].
  - apply in_split in Iy as [a1 [a2 ->]]. apply (Ho a1 y a2 x b); [now rewrite <- app_assoc|assumption|assumption].
  - apply in_split in Iy as [b1 [b2 ->]]. now apply (Ho a x b1 y b2).
Qed.
Lemma nodup_of_map {A B} (g : A -> B) l : NoDup (map g l) -> NoDup l.
Proof. induction l as [|x l IH]; intro H; [constructor|]. cbn in H. inversion H as [|? ? N H']; subst. constructor; [|now apply IH]. intro X. apply N. now apply in_map. Qed.
(** The same rows in another order *)
Definition same_rows (d d' : dictionary) : Prop :=
  Permutation (dd_tables d) (dd_tables d') /\ Permutation (dd_columns d) (dd_columns d') /\ Permutation (dd_indexes d) (dd_indexes d') /\ Permutation (dd_fields d) (dd_fields d').
Lemma consistent_same d d' : same_rows d d' -> consistent d -> consistent d'.
Proof.
  intros [P1 [P2 [P3 P4]]] [C1 [C2 [C3 [C4 [C5 [C6 C7]]]]]].
  assert (Q2 : forall id, Permutation (columns_of d id) (columns_of d' id)) by (intro; now apply perm_filter).
  assert (Q4 : forall id, Permutation (fields_of d id) (fields_of d' id)) by (intro; now apply perm_filter).
  split; [exact (Permutation_NoDup (Permutation_map td_id P1) C1)|]. split; [exact (Permutation_NoDup (Permutation_map id_id P3) C2)|].
  split; [intros t Ht; apply C3; now apply (Permutation_in t (Permutation_sym P1))|].
  split; [intros i Hi; apply (Permutation_in _ (Permutation_map td_id P1)); apply C4; now apply (Permutation_in i (Permutation_sym P3))|].
  split; [intro id; apply (perm_one _ (indexes_of d id)); [apply NoDup_filter; now apply (nodup_of_map id_id)|now apply perm_filter|apply C5]|].
  split; [intro id; exact (Permutation_NoDup (Permutation_map cd_name (Q2 id)) (C6 id))|].
  intros i Hi Hp. destruct (C7 i (Permutation_in i (Permutation_sym P3) Hi) Hp) as [A [B C]]. split; [exact (Permutation_NoDup (Permutation_map fd_column (Q4 _)) A)|]. split.
  - intros x Hx. apply (Permutation_in x (Permutation_map cd_name (Q2 _))), B. exact (Permutation_in x (Permutation_sym (Permutation_map fd_column (Q4 _))) Hx).
  - rewrite C. unfold zlen. f_equal. apply Permutation_length, Q4.
Qed.
Lemma kept_anywhere {D} (record : D -> list (rstored -> Prop)) key pages k root leaves defs : kept_tree record key pages k root leaves defs ->
  exists defs', stored_tree record key pages k root defs' /\ Permutation defs defs'.
Proof.
  intros [page [others [nodes [contents [HF [Hr [HP [HN [_ [HL HC]]]]]]]]]].
  set (pairs := map (fun n => (n, [] : list D)) nodes ++ combine leaves contents).
  assert (LL : List.length leaves = List.length contents) by (clear - HL; induction HL; cbn; congruence).
  assert (E1 : map fst pairs = nodes ++ leaves).
  { unfold pairs. rewrite map_app, map_map. cbn [fst]. rewrite map_id. f_equal. clear - LL. revert contents LL. induction leaves as [|l leaves IH]; intros [|c contents] LL; try discriminate; cbn; [reflexivity|]. f_equal. apply IH. now injection LL. }
  assert (E2 : List.concat (map snd pairs) = defs).
  { unfold pairs. rewrite map_app, concat_app, map_map. cbn [snd]. rewrite <- HC. replace (List.concat (map (fun _ => []) nodes)) with (@nil D) by (clear; induction nodes; [reflexivity|exact IHnodes]). cbn [app]. f_equal.
    clear - LL. revert contents LL. induction leaves as [|l leaves IH]; intros [|c contents] LL; try discriminate; cbn; [reflexivity|]. f_equal. apply IH. now injection LL. }
  assert (HT : Forall (fun p => tree_page record key (fst p) (snd p)) pairs).
  { unfold pairs. apply Forall_app. split; [apply Forall_map; eapply Forall_impl; [|exact HN]; intros n Hn; now apply node_page|].
    clear - HL. induction HL; cbn [combine]; constructor; [now apply leaf_page|assumption]. }
  rewrite <- E1 in HP. apply Permutation_map_inv in HP as [pairs' [E' HP']].
  exists (List.concat (map snd pairs')). split.
  - exists page, others, (map snd pairs'). split; [exact HF|]. split; [exact Hr|]. split; [|reflexivity]. rewrite E'.
    assert (HT' : Forall (fun p => tree_page record key (fst p) (snd p)) pairs') by (rewrite Forall_forall in *; intros p Hp; apply HT; exact (Permutation_in p (Permutation_sym HP') Hp)).
    clear - HT'. induction HT'; cbn [map]; constructor; assumption.
  - rewrite <- E2, <- !flat_map_concat_map. now apply Permutation_flat_map.
Qed.
(** Wherever the pages lie after the root: every row is read and pages above
    the leaves contribute nothing; but the rows are taken in the order of the
    pages in the file, and the columns of a table without a key are in their
    order only if that makes no difference. *)
Theorem C89_exact_refuted : forall fuel rt pages l1 l2 l3 l4 d, keeps_dictionary pages l1 l2 l3 l4 d -> consistent d -> (Z.to_nat 16384 < fuel)%nat ->
  exists d' tm, stores_dictionary pages d' /\ same_rows d d' /\ ParseDictPage fuel rt (Some (map IoBytes pages)) = ([], Ok (tm, None)) /\ agrees d' tm
    /\ forall t, In t (dd_tables d) -> has_no_key d (td_id t) -> exists e, mget tm (td_id t) = Some e /\ t_columns e = without_key (td_id t) (columns_of d' (td_id t))
         /\ (map c_name (t_columns e) = map c_name (without_key (td_id t) (columns_of d (td_id t))) <-> columns_of d' (td_id t) = columns_of d (td_id t)).
Proof.
  intros fuel rt pages l1 l2 l3 l4 d Hk Hc Hf. destruct Hk as [Hp [r1 [r2 [r3 [r4 [Hr [H1 [H2 [H3 H4]]]]]]]]].
  destruct (kept_anywhere _ _ _ _ _ _ _ H1) as [d1 [S1 P1]]. destruct (kept_anywhere _ _ _ _ _ _ _ H2) as [d2 [S2 P2]]. destruct (kept_anywhere _ _ _ _ _ _ _ H3) as [d3 [S3 P3]]. destruct (kept_anywhere _ _ _ _ _ _ _ H4) as [d4 [S4 P4]].
  set (d' := mkDictionary d1 d2 d3 d4). assert (HS : stores_dictionary pages d') by (split; [exact Hp|]; exists r1, r2, r3, r4; auto).
  assert (HR : same_rows d d') by (repeat split; assumption). pose proof (consistent_same d d' HR Hc) as Hc'.
  destruct (C81_dictionary fuel rt pages d' HS Hc' Hf) as [tm [E HA]]. destruct (C81_columns_partial fuel rt pages d' HS Hc' Hf) as [tm' [E' HT]]. rewrite E in E'. injection E' as <-.
  exists d', tm. split; [exact HS|]. split; [exact HR|]. split; [exact E|]. split; [exact HA|]. intros t Ht [i [Hi Hg]].
  destruct (HT t (Permutation_in t P1 Ht)) as [e [G1 [G2 _]]]. assert (G3 : t_columns e = without_key (td_id t) (columns_of d' (td_id t))).
  { apply G2. exists i. split; [|exact Hg]. exact (Permutation_in i (perm_filter (fun i => id_table i =? td_id t) _ _ P3) Hi). }
  exists e. split; [exact G1|]. split; [exact G3|]. rewrite G3. split; [|intros ->; reflexivity]. intro X. unfold without_key in X. rewrite !map_app in X. apply app_inv_head in X. rewrite !map_map in X. cbn [descriptor c_name] in X.
  assert (Q : Permutation (columns_of d (td_id t)) (columns_of d' (td_id t))) by now apply perm_filter.
  assert (N : NoDup (map cd_name (columns_of d (td_id t)))) by (destruct Hc as [_ [_ [_ [_ [_ [N _]]]]]]; apply N).
  revert X Q N. generalize (columns_of d (td_id t)) (columns_of d' (td_id t)). clear. intros l l' X Q N.
  assert (G : forall a b, incl a l -> incl b l -> map cd_name b = map cd_name a -> b = a).
  { induction a as [|x a IH]; intros [|y b] Ha Hb E; try discriminate; [reflexivity|]. cbn in E. injection E as E1 E2. f_equal; [|apply IH; [intros z Hz; apply Ha; now right|intros z Hz; apply Hb; now right|exact E2]].
    assert (U : forall l, NoDup (map cd_name l) -> In x l -> In y l -> cd_name y = cd_name x -> y = x).
    { clear. induction l as [|c l IH]; intros H Hx Hy E; [contradiction|]. cbn in H. inversion H as [|? ? N H']; subst.
      destruct Hx as [<-|Hx], Hy as [<-|Hy]; [reflexivity| | |now apply IH]; exfalso; apply N; [rewrite <- E|rewrite E]; now apply in_map. }
    apply (U l N); [apply Ha; now left|apply Hb; now left|exact E1]. }
  apply G; [apply incl_refl|intros z Hz; exact (Permutation_in z (Permutation_sym Q) Hz)|exact X].
Qed.
Print Assumptions C89_exact_refuted.

(** * A dictionary of one table in eight pages *)
Definition c_y : column_def := mkColumnDef 23 1 (txt "y") 6 3 4.
Definition dict_n (cs : list column_def) : dictionary := mkDictionary
  [mkTableDef (txt "test/n") 23 7] cs [mkIndexDef 23 42 (txt "GEN_CLUST_INDEX") 0 1] [].
Definition pointer_fields (d : column_def) (child : Z) : list rstored := [RBytes (be 8 (cd_table d)); RBytes (be 4 (cd_pos d)); RBytes (be 4 child)].
Definition leaf_n (number next : Z) (c : column_def) : list Z := built_to false number next 17855 2 (map rrec (map columns_fields [c])).
Definition root_n (x y : Z) : list Z := built_to false 10 (2 ^ 32 - 1) 17855 2 (map rrec [pointer_fields c_x x; pointer_fields c_y y]).
Definition tables_n : list Z := built_to false 8 (2 ^ 32 - 1) 17855 1 (map rrec (map tables_fields (dd_tables (dict_n [])))).
Definition indexes_n : list Z := built_to false 11 (2 ^ 32 - 1) 17855 3 (map rrec (map indexes_fields (dd_indexes (dict_n [])))).
Definition fields_n : list Z := built_to false 12 (2 ^ 32 - 1) 17855 4 (map rrec (map fields_fields [])).
Definition pages_n (x y : Z) (p q : list Z) : list (list Z) := [sys_page 8 10 11 12; tables_n; root_n x y; indexes_n; fields_n; p; q].
Lemma fine_of fss : Forall small fss -> Forall fine (map rrec fss).
Proof. intro H. induction H; cbn [map]; constructor; [now apply rrec_fine|assumption]. Qed.
Definition page_facts (number next id : Z) (page : list Z) : Prop := page_image page /\ page_number page = number /\ field page 12 4 = next /\ index_of page = id.
Lemma built_facts number next id fss : Forall small fss -> zlen (blocks false 125 (map rrec fss)) <= 16000 -> 0 <= number < 2 ^ 32 -> 0 <= next < 2 ^ 32 -> 0 <= id < 2 ^ 64 ->
  page_facts number next id (built_to false number next 17855 id (map rrec fss)).
Proof.
  intros Hs Hl H1 H2 H3. destruct (built_page_to false number next 17855 id _ (fine_of _ Hs) Hl) as [[I _] [N [X [_ [K _]]]]]; try lia. repeat split; try assumption; apply I.
Qed.
Ltac small_now := apply small_checks; vm_compute; reflexivity.
Ltac record_now fs := exists fs, []; split; [symmetry; apply app_nil_r|repeat (constructor; [first [exact I|reflexivity|split; [cbn; lia|reflexivity]]|]); constructor].
Lemma leaf_n_facts number next c : (c = c_x \/ c = c_y) -> 0 <= number < 2 ^ 32 -> 0 <= next < 2 ^ 32 ->
  page_facts number next 2 (leaf_n number next c) /\ holds_records columns_record (leaf_n number next c) [c].
Proof.
  intros Hc H1 H2. assert (S : Forall small (map columns_fields [c])) by (destruct Hc as [-> | ->]; small_now).
  assert (L : zlen (blocks false 125 (map rrec (map columns_fields [c]))) <= 16000) by (destruct Hc as [-> | ->]; vm_compute; discriminate).
  split; [apply built_facts; assumption || lia|]. unfold leaf_n. apply (holds_built_to columns_record number next 17855 2 [c] (map columns_fields [c])); try assumption; try lia. constructor; [|constructor]. destruct Hc as [-> | ->]; [record_now (columns_fields c_x)|record_now (columns_fields c_y)].
Qed.
Lemma root_n_facts x y : 0 <= x < 256 -> 0 <= y < 256 -> page_facts 10 (2 ^ 32 - 1) 2 (root_n x y) /\ holds_pointers columns_key (root_n x y).
Proof.
  intros Hx Hy. assert (Eb : forall n, 0 <= n < 256 -> be 4 n = [0; 0; 0; n]).
  { intros n Hn. cbn [be app]. repeat f_equal; lia. }
  assert (S : Forall small [pointer_fields c_x x; pointer_fields c_y y]).
  { constructor; [|constructor; [|constructor]]; (split; [|reflexivity]); unfold pointer_fields, rbody; cbn [flat_map rcontent]; repeat first [apply be_bytes | apply Forall_app; split | constructor]. }
  assert (L : zlen (blocks false 125 (map rrec [pointer_fields c_x x; pointer_fields c_y y])) <= 16000).
  { unfold pointer_fields. cbn [map rrec low high rbody flat_map rcontent blocks]. change (@zlen) with (@len). rewrite !len_app. rewrite !len_be. vm_compute. discriminate. }
  split; [apply built_facts; assumption || lia|]. unfold root_n. apply (pointers_built columns_key 10 (2 ^ 32 - 1) 17855 2 [pointer_fields c_x x; pointer_fields c_y y]); try assumption; try lia; [discriminate|].
  constructor; [|constructor; [|constructor]].
  - exists [RBytes (be 8 23); RBytes (be 4 0)], (RBytes (be 4 x)). split; [reflexivity|]. split; [repeat constructor|reflexivity].
  - exists [RBytes (be 8 23); RBytes (be 4 1)], (RBytes (be 4 y)). split; [reflexivity|]. split; [repeat constructor|reflexivity].
Qed.
Lemma others_n : page_facts 8 (2 ^ 32 - 1) 1 tables_n /\ holds_records tables_record tables_n (dd_tables (dict_n []))
  /\ page_facts 11 (2 ^ 32 - 1) 3 indexes_n /\ holds_records indexes_record indexes_n (dd_indexes (dict_n []))
  /\ page_facts 12 (2 ^ 32 - 1) 4 fields_n /\ holds_records fields_record fields_n [].
Proof.
  assert (S1 : Forall small (map tables_fields (dd_tables (dict_n [])))) by small_now.
  assert (S3 : Forall small (map indexes_fields (dd_indexes (dict_n [])))) by small_now.
  assert (L1 : zlen (blocks false 125 (map rrec (map tables_fields (dd_tables (dict_n []))))) <= 16000) by (vm_compute; discriminate).
  assert (L3 : zlen (blocks false 125 (map rrec (map indexes_fields (dd_indexes (dict_n []))))) <= 16000) by (vm_compute; discriminate).
  assert (L4 : zlen (blocks false 125 (map rrec (map fields_fields []))) <= 16000) by (vm_compute; discriminate).
  unfold tables_n, indexes_n, fields_n. split; [apply built_facts; assumption || lia|]. split; [|split; [apply built_facts; assumption || lia|split; [|split; [apply built_facts; first [assumption | lia | constructor]|]]]].
  - apply (holds_built_to tables_record 8 (2 ^ 32 - 1) 17855 1 (dd_tables (dict_n [])) (map tables_fields (dd_tables (dict_n [])))); try assumption; try lia.
    constructor; [|constructor]. record_now (tables_fields (mkTableDef (txt "test/n") 23 7)).
  - apply (holds_built_to indexes_record 11 (2 ^ 32 - 1) 17855 3 (dd_indexes (dict_n [])) (map indexes_fields (dd_indexes (dict_n [])))); try assumption; try lia.
    constructor; [|constructor]. exists (firstn 9 (indexes_fields (mkIndexDef 23 42 (txt "GEN_CLUST_INDEX") 0 1))), [RBytes (be 4 50)].
    split; [reflexivity|repeat (constructor; [first [exact I|reflexivity|split; [cbn; lia|reflexivity]]|]); constructor].
  - apply (holds_built_to fields_record 12 (2 ^ 32 - 1) 17855 4 [] (map fields_fields [])); try lia; cbn [map]; [apply Forall2_nil|apply Forall_nil].
Qed.
(** pages 20 and 21 are the leaves of SYS_COLUMNS *)
Lemma kept_n x y p q (lists : list (list Z)) cs : 0 <= x < 256 -> 0 <= y < 256 ->
  page_image p -> page_number p = 20 -> index_of p = 2 -> page_image q -> page_number q = 21 -> index_of q = 2 ->
  Permutation [p; q] lists -> leaf_list lists -> Forall2 (holds_records columns_record) lists (map (fun c => [c]) cs) ->
  keeps_dictionary (pages_n x y p q) [tables_n] lists [indexes_n] [fields_n] (dict_n cs) /\ firsts (pages_n x y p q) = pages_n x y p q.
Proof.
  intros Hx Hy I1 N1 K1 I2 N2 K2 HP HL HF. destruct (root_n_facts x y Hx Hy) as [[RI [RN [RX RK]]] RH].
  destruct others_n as [[TI [TN [TX TK]]] [TH [[II [IN [IX IK]]] [IH [[FI [FN [FX FK]]] FH]]]]].
  assert (S0 : page_number (sys_page 8 10 11 12) = 7) by reflexivity. assert (X0 : index_of (sys_page 8 10 11 12) = 8) by reflexivity.
  assert (Ef : firsts (pages_n x y p q) = pages_n x y p q).
  { apply distinct_firsts. unfold pages_n. cbn [map]. rewrite S0, TN, RN, IN, FN, N1, N2. repeat constructor; cbn; lia. }
  split; [|exact Ef]. split.
  { unfold pages_n. apply Forall_cons; [apply sys_image|]. apply Forall_cons; [exact TI|]. apply Forall_cons; [exact RI|]. apply Forall_cons; [exact II|].
    apply Forall_cons; [exact FI|]. apply Forall_cons; [exact I1|]. apply Forall_cons; [exact I2|constructor]. }
  exists 8, 10, 11, 12. rewrite Ef. split; [reflexivity|].
  assert (One : forall {D} (record : D -> list (rstored -> Prop)) key k root page defs, filter (fun p => index_of p =? k) (firsts (pages_n x y p q)) = [page] -> page_number page = root ->
    field page 12 4 = 2 ^ 32 - 1 -> holds_records record page defs -> kept_tree record key (pages_n x y p q) k root [page] defs).
  { intros D record key k root page defs E1 E2 E3 E4. exists page, [], [], [defs]. split; [exact E1|]. split; [exact E2|]. split; [reflexivity|]. split; [constructor|]. split; [now constructor|].
    split; [constructor; [exact E4|constructor]|apply app_nil_r]. }
  assert (EF : forall k, filter (fun r => index_of r =? k) (firsts (pages_n x y p q)) = (if 8 =? k then [sys_page 8 10 11 12] else []) ++ (if 1 =? k then [tables_n] else [])
    ++ (if 2 =? k then [root_n x y] else []) ++ (if 3 =? k then [indexes_n] else []) ++ (if 4 =? k then [fields_n] else []) ++ (if 2 =? k then [p] else []) ++ (if 2 =? k then [q] else [])).
  { intro k. rewrite Ef. unfold pages_n. cbn [filter]. rewrite X0, TK, RK, IK, FK, K1, K2. destruct (8 =? k), (1 =? k), (2 =? k), (3 =? k), (4 =? k); reflexivity. }
  split; [apply (One _ _ _ _ _ _ _ (EF 1) TN TX TH)|]. split; [|split; [apply (One _ _ _ _ _ _ _ (EF 3) IN IX IH)|apply (One _ _ _ _ _ _ _ (EF 4) FN FX FH)]].
  exists (root_n x y), [p; q], [root_n x y], (map (fun c => [c]) cs). split; [exact (EF 2)|]. split; [exact RN|]. split; [cbn [app]; now constructor|]. split; [constructor; [exact RH|constructor]|].
  split; [exact HL|]. split; [exact HF|]. cbn [dict_n dd_columns]. clear. induction cs as [|c cs IH]; [reflexivity|]. cbn [map List.concat app]. now rewrite IH.
Qed.
Lemma dict_n_consistent cs : NoDup (map cd_name cs) -> consistent (dict_n cs).
Proof.
  intro HN. split; [distinct|]. split; [distinct|]. split; [|split; [|split; [|split]]].
  - intros t [<-|[]]. exists (txt "test"), (txt "n"). left. split; [reflexivity|]. split; cbn; lia.
  - intros i [<-|[]]. now left.
  - intro id. apply few. unfold indexes_of. cbn [dict_n dd_indexes filter id_table]. destruct (23 =? id); [now left|now right].
  - intro id. now apply nodup_filter.
  - intros i [<-|[]] Hp. discriminate Hp.
Qed.
(** A table of two columns, x and y, whose rows of SYS_COLUMNS are in two
    leaves, x in page 21 and y in page 20: y comes out first. *)
Theorem C89_order_refuted : exists pages l1 l2 l3 l4 d t, keeps_dictionary pages l1 l2 l3 l4 d /\ consistent d /\ In t (dd_tables d) /\ has_no_key d (td_id t)
  /\ forall fuel rt, (Z.to_nat 16384 < fuel)%nat -> exists tm e, ParseDictPage fuel rt (Some (map IoBytes pages)) = ([], Ok (tm, None)) /\ mget tm (td_id t) = Some e
     /\ map c_name (t_columns e) = [txt "DB_ROW_ID"; txt "DB_TRX_ID"; txt "DB_ROLL_PTR"; txt "y"; txt "x"]
     /\ map c_name (without_key (td_id t) (columns_of d (td_id t))) = [txt "DB_ROW_ID"; txt "DB_TRX_ID"; txt "DB_ROLL_PTR"; txt "x"; txt "y"].
Proof.
  destruct (leaf_n_facts 20 (2 ^ 32 - 1) c_y) as [[PI [PN [PX PK]]] PH]; [now right|lia|lia|]. destruct (leaf_n_facts 21 20 c_x) as [[QI [QN [QX QK]]] QH]; [now left|lia|lia|].
  set (p := leaf_n 20 (2 ^ 32 - 1) c_y) in *. set (q := leaf_n 21 20 c_x) in *.
  destruct (kept_n 21 20 p q [q; p] [c_x; c_y] ltac:(lia) ltac:(lia) PI PN PK QI QN QK) as [HK Ef].
  { apply perm_swap. } { apply next_leaf; [now rewrite QX, PN|]. now apply last_leaf. } { constructor; [exact QH|]. constructor; [exact PH|constructor]. }
  exists (pages_n 21 20 p q), [tables_n], [q; p], [indexes_n], [fields_n], (dict_n [c_x; c_y]), (mkTableDef (txt "test/n") 23 7).
  split; [exact HK|]. split; [apply dict_n_consistent; distinct|]. split; [now left|]. split; [exists (mkIndexDef 23 42 (txt "GEN_CLUST_INDEX") 0 1); split; [now left|reflexivity]|].
  assert (HS : stores_dictionary (pages_n 21 20 p q) (dict_n [c_y; c_x])).
  { destruct HK as [Hp [r1 [r2 [r3 [r4 [Hr [H1 [H2 [H3 H4]]]]]]]]].
    assert (O : forall a page b, pages_n 21 20 p q = a ++ page :: b -> in_file_order (pages_n 21 20 p q) [page]).
    { intros a page b E. exists (fun r => if list_eq_dec Z.eq_dec r page then true else false). rewrite Ef.
      assert (HN : NoDup (map page_number (pages_n 21 20 p q))) by (rewrite <- Ef; apply numbers_distinct). rewrite E in HN |- *.
      rewrite filter_app. cbn [filter]. destruct (list_eq_dec Z.eq_dec page page) as [_|N]; [|contradiction]. rewrite map_app in HN. cbn [map] in HN.
      assert (A : forall l, ~ In (page_number page) (map page_number l) -> filter (fun r => if list_eq_dec Z.eq_dec r page then true else false) l = []).
      { induction l as [|r l IHl]; intro Hn; [reflexivity|]. cbn [filter map] in *. destruct (list_eq_dec Z.eq_dec r page) as [->|]; [exfalso; apply Hn; now left|]. apply IHl. intro X. apply Hn. now right. }
      apply NoDup_remove_2 in HN. rewrite !A; [reflexivity| |]; intro X; apply HN; apply in_or_app; auto. }
    split; [exact Hp|]. exists r1, r2, r3, r4. split; [exact Hr|].
    split; [apply (kept_stored _ _ _ _ _ [tables_n]); [exact H1|apply (O [sys_page 8 10 11 12] _ _ eq_refl)]|].
    split; [|split; [apply (kept_stored _ _ _ _ _ [indexes_n]); [exact H3|apply (O [sys_page 8 10 11 12; tables_n; root_n 21 20] _ _ eq_refl)]
                    |apply (kept_stored _ _ _ _ _ [fields_n]); [exact H4|apply (O [sys_page 8 10 11 12; tables_n; root_n 21 20; indexes_n] _ _ eq_refl)]]].
    destruct H2 as [page [others [nodes [contents [E1 [E2 _]]]]]]. destruct (root_n_facts 21 20) as [[_ [_ [_ RK]]] RH]; [lia|lia|].
    assert (EE : page :: others = [root_n 21 20; p; q]).
    { rewrite <- E1, Ef. unfold pages_n. cbn [filter]. destruct others_n as [[_ [_ [_ TK]]] [_ [[_ [_ [_ IK]]] [_ [[_ [_ [_ FK]]] _]]]]].
      assert (X0 : index_of (sys_page 8 10 11 12) = 8) by reflexivity. rewrite X0, TK, RK, IK, FK, PK, QK. reflexivity. }
    exists page, others, [[]; [c_y]; [c_x]]. split; [exact E1|]. split; [exact E2|]. rewrite EE. split; [|reflexivity].
    constructor; [now apply node_page|]. constructor; [now apply leaf_page|]. constructor; [now apply leaf_page|constructor]. }
  intros fuel rt Hf. destruct (C81_columns_partial fuel rt _ _ HS (dict_n_consistent [c_y; c_x] ltac:(distinct)) Hf) as [tm [E HT]].
  destruct (HT (mkTableDef (txt "test/n") 23 7) ltac:(now left)) as [e [H1 [H2 _]]]. exists tm, e. split; [exact E|]. split; [exact H1|]. split; [|reflexivity].
  rewrite H2; [reflexivity|]. exists (mkIndexDef 23 42 (txt "GEN_CLUST_INDEX") 0 1). split; [now left|reflexivity].
Qed.
Print Assumptions C89_order_refuted.
(** The same leaves the other way round. *)
Example C89_case : exists pages l1 l2 l3 l4 d, keeps_dictionary pages l1 l2 l3 l4 d /\ Forall (in_file_order pages) [l1; l2; l3; l4] /\ consistent d
  /\ List.length l2 = 2%nat /\ columns_of d 23 = [c_x; c_y] /\ has_no_key d 23.
Proof.
  destruct (leaf_n_facts 20 21 c_x) as [[PI [PN [PX PK]]] PH]; [now left|lia|lia|]. destruct (leaf_n_facts 21 (2 ^ 32 - 1) c_y) as [[QI [QN [QX QK]]] QH]; [now right|lia|lia|].
  set (p := leaf_n 20 21 c_x) in *. set (q := leaf_n 21 (2 ^ 32 - 1) c_y) in *.
  destruct (kept_n 20 21 p q [p; q] [c_x; c_y] ltac:(lia) ltac:(lia) PI PN PK QI QN QK) as [HK Ef].
  { reflexivity. } { apply next_leaf; [now rewrite PX, QN|]. now apply last_leaf. } { constructor; [exact PH|]. constructor; [exact QH|constructor]. }
  exists (pages_n 20 21 p q), [tables_n], [p; q], [indexes_n], [fields_n], (dict_n [c_x; c_y]). split; [exact HK|]. split; [|split; [apply dict_n_consistent; distinct|split; [reflexivity|]]].
  - assert (NS : page_number (sys_page 8 10 11 12) = 7) by reflexivity. destruct (root_n_facts 20 21) as [[_ [RN _]] _]; [lia|lia|]. destruct others_n as [[_ [TN _]] [_ [[_ [IN _]] [_ [[_ [FN _]] _]]]]].
    repeat (apply Forall_cons; [|]); [exists (fun r => page_number r =? 8)|exists (fun r => 20 <=? page_number r)|exists (fun r => page_number r =? 11)|exists (fun r => page_number r =? 12)|constructor];
      rewrite Ef; unfold pages_n; cbn [filter]; rewrite NS, TN, RN, IN, FN, PN, QN; reflexivity.
  - split; [reflexivity|]. exists (mkIndexDef 23 42 (txt "GEN_CLUST_INDEX") 0 1). split; [now left|reflexivity].
Qed.

(** * C90 *)
(** A dictionary on one page per table *)
Definition dict_pages (d : dictionary) : list (list Z) :=
  [sys_page 8 10 11 12; built false 8 17855 1 (map rrec (map tables_fields (dd_tables d))); built false 10 17855 2 (map rrec (map columns_fields (dd_columns d)));
   built false 11 17855 3 (map rrec (map indexes_fields (dd_indexes d))); built false 12 17855 4 (map rrec (map fields_fields (dd_fields d)))].
Definition fits_pages {D} (record : D -> list (rstored -> Prop)) (fields : D -> list rstored) (defs : list D) : Prop :=
  Forall small (map fields defs) /\ zlen (blocks false 125 (map rrec (map fields defs))) <= 16000 /\ Forall (fun x => matches (record x) (fields x)) defs.
Lemma dict_pages_store d : fits_pages tables_record tables_fields (dd_tables d) -> fits_pages columns_record columns_fields (dd_columns d) ->
  fits_pages indexes_record indexes_fields (dd_indexes d) -> fits_pages fields_record fields_fields (dd_fields d) -> stores_dictionary (dict_pages d) d.
Proof.
  intros [S1 [L1 M1]] [S2 [L2 M2]] [S3 [L3 M3]] [S4 [L4 M4]].
  assert (M : forall {D} (record : D -> list (rstored -> Prop)) fields (defs : list D), Forall (fun x => matches (record x) (fields x)) defs -> Forall2 (fun d fs => matches (record d) fs) defs (map fields defs)).
  { intros D record fields defs H. induction H; cbn [map]; constructor; assumption. }
  destruct (built_page false 8 17855 1 _ (fine_of _ S1) L1) as [[I1 _] [N1 [_ [X1 _]]]]; try lia.
  destruct (built_page false 10 17855 2 _ (fine_of _ S2) L2) as [[I2 _] [N2 [_ [X2 _]]]]; try lia.
  destruct (built_page false 11 17855 3 _ (fine_of _ S3) L3) as [[I3 _] [N3 [_ [X3 _]]]]; try lia.
  destruct (built_page false 12 17855 4 _ (fine_of _ S4) L4) as [[I4 _] [N4 [_ [X4 _]]]]; try lia.
  pose proof (holds_built tables_record 8 17855 1 _ _ (M _ _ _ _ M1) S1 L1 ltac:(lia) ltac:(lia) ltac:(lia)) as H1.
  pose proof (holds_built columns_record 10 17855 2 _ _ (M _ _ _ _ M2) S2 L2 ltac:(lia) ltac:(lia) ltac:(lia)) as H2.
  pose proof (holds_built indexes_record 11 17855 3 _ _ (M _ _ _ _ M3) S3 L3 ltac:(lia) ltac:(lia) ltac:(lia)) as H3.
  pose proof (holds_built fields_record 12 17855 4 _ _ (M _ _ _ _ M4) S4 L4 ltac:(lia) ltac:(lia) ltac:(lia)) as H4.
  unfold dict_pages. set (p1 := built false 8 _ _ _) in *. set (p2 := built false 10 _ _ _) in *. set (p3 := built false 11 _ _ _) in *. set (p4 := built false 12 _ _ _) in *.
  clearbody p1 p2 p3 p4. pose proof (sys_image 8 10 11 12) as I0. assert (N0 : page_number (sys_page 8 10 11 12) = 7) by reflexivity. assert (X0 : index_of (sys_page 8 10 11 12) = 8) by reflexivity.
  assert (R0 : roots [sys_page 8 10 11 12; p1; p2; p3; p4] = [8; 10; 11; 12]) by reflexivity.
  set (p0 := sys_page 8 10 11 12) in *. clearbody p0.
  assert (Ef : firsts [p0; p1; p2; p3; p4] = [p0; p1; p2; p3; p4]) by (apply distinct_firsts; cbn [map]; rewrite N0, N1, N2, N3, N4; repeat constructor; cbn; lia).
  split; [repeat (constructor; [assumption|]); constructor|]. exists 8, 10, 11, 12. unfold stored_tree. rewrite Ef. split; [exact R0|]. cbn [filter]. rewrite X0, X1, X2, X3, X4. cbn [Z.eqb Pos.eqb].
  assert (One : forall {D} (record : D -> list (rstored -> Prop)) key page defs, holds_records record page defs ->
    Forall2 (tree_page record key) [page] [defs] /\ List.concat [defs] = defs).
  { intros D record key page defs H. split; [constructor; [now apply leaf_page|constructor]|apply app_nil_r]. }
  split; [exists p1, [], [dd_tables d]; auto|]. split; [exists p2, [], [dd_columns d]; auto|].
  split; [exists p3, [], [dd_indexes d]; auto|exists p4, [], [dd_fields d]; auto].
Qed.

Lemma stray_reported fuel rt pages d id : stores_dictionary pages d -> NoDup (map td_id (dd_tables d)) ->
  (forall t, In t (dd_tables d) -> exists db tb, named_as (td_name t) db tb) -> stray_index d id -> (Z.to_nat 16384 < fuel)%nat ->
  exists tm, ParseDictPage fuel rt (Some (map IoBytes pages)) = ([], Ok (tm, Some (bs "Table ID have not found " ++ fmt_d id))).
Proof.
  intros Hs C1 C3 [is1 [i [is2 [Ei [Hid [Hn Hk]]]]]] Hf.
  destruct (dict_front fuel rt pages d Hs C1 C3 Hf) as [D [tree [cs [tm1 [tm2 [rows [-> [R [_ [_ [B2 [A3 _]]]]]]]]]]]].
  destruct (add_stray rows _ R tm2 None) as [tm' ->]. exists tm'.
  assert (G : forall k, mget tm2 k = None <-> ~ In k (map td_id (dd_tables d))).
  { intro k. rewrite B2. specialize (A3 k). destruct (find_table (dd_tables d) k) as [t|] eqn:E.
    - destruct A3 as [e [-> _]]. apply find_table_some in E as [E1 E2]. split; [discriminate|]. intro X. exfalso. apply X. rewrite <- E2. now apply in_map.
    - rewrite A3. apply find_table_none in E. split; [intros _; exact E|reflexivity]. }
  rewrite Ei, fold_left_app. cbn [fold_left]. rewrite Hid. assert (mget tm2 id = None) as -> by now apply G.
  set (m := Some (_ ++ fmt_d id)). assert (X : forall l e, Forall (fun j => In (id_table j) (map td_id (dd_tables d))) l ->
    fold_left (fun e j => match mget tm2 (id_table j) with Some _ => e | None => Some (bs "Table ID have not found " ++ fmt_d (id_table j)) end) l e = e).
  { induction l as [|j l IH]; intros e HF; [reflexivity|]. inversion HF as [|? ? F1 F2]; subst. cbn [fold_left]. destruct (mget tm2 (id_table j)) eqn:E; [now apply IH|]. apply G in E. contradiction. }
  rewrite (X is2 m Hk). reflexivity.
Qed.
(** Full statement: both commands report it.  Proved: the data file command
    prints one line, naming the table id.  Missing (false): the redo log
    command. *)
Theorem C90_stray_partial : forall fuel rt files op sys tfile db tb d pages id t,
  stores_dictionary pages d -> NoDup (map td_id (dd_tables d)) -> (forall x, In x (dd_tables d) -> exists db tb, named_as (td_name x) db tb) ->
  files sys = Some (map IoBytes pages) -> (Z.to_nat 16384 < fuel)%nat -> stray_index d id -> int_text id t ->
  FromDataFile fuel rt files op sys tfile db tb = ([txt "Table ID have not found " ++ t], Ok tt).
Proof.
  intros fuel rt files op sys tfile db tb d pages id t Hs C1 C3 F Hf Hst Ht. destruct (stray_reported fuel rt pages d id Hs C1 C3 Hst Hf) as [tm E].
  unfold FromDataFile. rewrite F, E. rewrite (int_text_unique _ _ _ Ht (fmt_d_spec id)). reflexivity.
Qed.
Print Assumptions C90_stray_partial.
(** The redo log command prints nothing at all. *)
Theorem C90_stray_refuted : forall fuel rt files sys opt db tb spare d pages id,
  stores_dictionary pages d -> NoDup (map td_id (dd_tables d)) -> (forall x, In x (dd_tables d) -> exists db tb, named_as (td_name x) db tb) ->
  files sys = Some (map IoBytes pages) -> (Z.to_nat 16384 < fuel)%nat -> stray_index d id ->
  FromRedoFile fuel rt files sys opt db tb spare = ([], Ok tt).
Proof.
  intros fuel rt files sys opt db tb spare d pages id Hs C1 C3 F Hf Hst. destruct (stray_reported fuel rt pages d id Hs C1 C3 Hst Hf) as [tm E].
  unfold FromRedoFile. rewrite F, E. reflexivity.
Qed.
Print Assumptions C90_stray_refuted.
(** SYS_INDEXES has rows of the unknown tables 98 and 99 among those of n. *)
Definition dict_s : dictionary := mkDictionary [mkTableDef (txt "test/n") 23 7] [c_x]
  [mkIndexDef 98 44 (txt "old") 1 0; mkIndexDef 23 42 (txt "GEN_CLUST_INDEX") 0 1; mkIndexDef 99 43 (txt "gone") 1 0; mkIndexDef 23 45 (txt "x") 1 0] [].
Example C90_case : stores_dictionary (dict_pages dict_s) dict_s /\ NoDup (map td_id (dd_tables dict_s))
  /\ (forall x, In x (dd_tables dict_s) -> exists db tb, named_as (td_name x) db tb) /\ stray_index dict_s 99 /\ int_text 99 (txt "99").
Proof.
  split; [|split; [distinct|split; [|split; [|exact (fmt_d_spec 99)]]]].
  - apply dict_pages_store; (split; [apply small_checks; vm_compute; reflexivity|split; [vm_compute; discriminate|]]); unfold dict_s, dd_tables, dd_columns, dd_indexes, dd_fields.
    + constructor; [|constructor]. match goal with |- matches _ ?f => exists f, [] end; split; [symmetry; apply app_nil_r|repeat (constructor; [first [exact I|reflexivity|split; [cbn; lia|reflexivity]]|]); constructor].
    + constructor; [|constructor]. match goal with |- matches _ ?f => exists f, [] end; split; [symmetry; apply app_nil_r|repeat (constructor; [first [exact I|reflexivity|split; [cbn; lia|reflexivity]]|]); constructor].
    + repeat (apply Forall_cons; [match goal with |- matches _ (indexes_fields ?i) => exists (firstn 9 (indexes_fields i)), [RBytes (be 4 50)] end; split; [reflexivity|repeat (constructor; [first [exact I|reflexivity|split; [cbn; lia|reflexivity]]|]); constructor]|]). constructor.
    + constructor.
  - intros x [<-|[]]. exists (txt "test"), (txt "n"). left. split; [reflexivity|]. split; cbn; lia.
  - exists [mkIndexDef 98 44 (txt "old") 1 0; mkIndexDef 23 42 (txt "GEN_CLUST_INDEX") 0 1], (mkIndexDef 99 43 (txt "gone") 1 0), [mkIndexDef 23 45 (txt "x") 1 0].
    split; [reflexivity|]. split; [reflexivity|]. split; [cbn; lia|]. constructor; [cbn; lia|constructor].
Qed.
